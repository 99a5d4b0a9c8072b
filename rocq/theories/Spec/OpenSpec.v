(** The parts of a file that opening it looks at, with the bytes where they lie. *)
From Verif.Model Require Import Go Chunk Stream Schema File Column Wire Assembled.

(** The last byte is the length of the postscript before it. *)
Definition ps_length (file : list Z) : Z := last file 0.
Definition postscript_of (file : list Z) (ps : postscript) : Prop :=
  unmarshalPS (ztake (ps_length file) (zdrop (zlen file - 1 - ps_length file) file)) = Ok ps.
Definition unframe (inflate : list Z -> res (list Z)) (k : kind) (x : list Z) : res (list Z) :=
  match k with NONE => Ok x | c => DecompressChunks inflate c x end.
(** The footer lies before the postscript. *)
Definition footer_of (inflate : list Z -> res (list Z)) (file : list Z) (ps : postscript) (f : footer colstats) : Prop :=
  (let! x := unframe inflate (p_compression ps)
     (ztake (p_footerLength ps) (zdrop (zlen file - 1 - ps_length file - p_footerLength ps) file)) in unmarshalFooter x) = Ok f.
(** The footer of the stripe [i] lies behind its index and its data. *)
Definition stripe_footer_of (inflate : list Z -> res (list Z)) (file : list Z) (ps : postscript) (i : stripeInfo) (sf : stripeFooter) : Prop :=
  (let! x := unframe inflate (p_compression ps)
     (ztake (FooterLength i) (zdrop (i64 (Offset i + IndexLength i + DataLength i)) file)) in unmarshalSF x) = Ok sf.

(** Types whose subtypes exist, with a name for every column of a struct; no more
    statistics than types. *)
Definition footer_sound (f : footer colstats) : Prop :=
  Forall (fun t => Forall (fun s => 0 <= s < zlen (f_types f)) (t_sub t) /\
                   (t_kind t = STRUCT -> (length (t_sub t) <= length (t_names t))%nat)) (f_types f) /\
  (length (f_stats f) <= length (f_types f))%nat.
(** With a column, the client asks for the one it is in. *)
Definition with_parents (b : batchOption) (f : footer colstats) : Prop :=
  forall i t c, nth_error (f_types f) i = Some t -> In c (t_sub t) -> IsInclude b c = true -> IsInclude b (Z.of_nat i) = true.
(** An encoding for every column asked for, and no streams of columns there are not. *)
Definition stripe_sound (b : batchOption) (columns : nat) (sf : stripeFooter) : Prop :=
  (forall j, (j < columns)%nat -> IsInclude b (Z.of_nat j) = true -> (j < length (sf_columns sf))%nat) /\ Forall (fun s => 0 <= st_column s < Z.of_nat columns) (sf_streams sf).

(** Postscript and footer lie in the last 16 KiB; or that is the whole file, and the lengths
    stated are numbers that can be added up. *)
Definition lengths_sound (file : list Z) (ps : postscript) : Prop :=
  p_footerLength ps + ps_length file < Z.min (zlen file) 16384 \/
  zlen file <= 16384 /\ p_footerLength ps < 2 ^ 62 /\ 0 <= p_metadataLength ps < 2 ^ 62.
(** A file with all that was said above. *)
Definition sound (inflate : list Z -> res (list Z)) (b : batchOption) (file : list Z) : Prop :=
  file <> [] /\ (3 < zlen file -> ps_length file < Z.min (zlen file) 16384) /\
  forall ps, postscript_of file ps ->
    0 <= p_footerLength ps /\ lengths_sound file ps /\
    forall f, footer_of inflate file ps f -> footer_sound f /\ with_parents b f /\
      forall i sf, In i (f_stripes f) -> stripe_footer_of inflate file ps i sf -> stripe_sound b (length (f_types f)) sf.
