(** What it means for a file to return its rows to a client iterating over it. *)
From Verif.Model Require Import Go Codec ByteBool IntRle Chunk Stream Schema Rows Time File Column Wire Assembled.
From Verif.Spec Require Import FileSpec ColumnSpec SchemaSpec AssemblySpec.

(** The values a batch holds for column [j], within the lengths of its slices. *)
Fixpoint held (j : Z) (v : bvec) : list value :=
  match v with
  | BVec i _ s cs =>
      (if i =? j then match s with Some (a, _) => a | None => [] end else []) ++ flat_map (held j) cs
  end.

(** A client asks for one batch after the other, always with the batch it got before,
    until the end is reported; these are the batches. *)
Inductive Batches (inflate : list Z -> res (list Z)) (r : fileR colstats) : batchRd -> bvec -> list bvec -> Prop :=
| BatchesEnd b v b' v' : batchNext inflate r b v = Ok (b', v', true) -> Batches inflate r b v [v']
| BatchesMore b v b' v' out : batchNext inflate r b v = Ok (b', v', false) ->
    Batches inflate r b' v' out -> Batches inflate r b v (v' :: out).

Section End.
Variable b : batchOption.

Definition kept (l : list td) : list td := filter (fun t => IsInclude b (td_id t)) l.

(** A schema the reader can read: of the included columns, structs and columns of the
    kinds [ok] with the encodings the reader accepts, and no struct without nulls directly
    below one with nulls ([par]); below an excluded column, nothing included. *)
Fixpoint schema_of_kinds (ok : ckind -> bool) (par : bool) (t : td) : bool :=
  match t with
  | Td id k _ e h cs =>
      if IsInclude b id then
        match readerKind k e with
        | Ok KStruct => negb (par && negb h) && forallb (schema_of_kinds ok h) cs
        | Ok c => ok c && match cs with [] => true | _ => false end
        | _ => false
        end
      else forallb (fun x => negb (IsInclude b (td_id x))) (flatten t)
  end.
(** With the kinds of columns that can be written and read. *)
Definition readable_schema : bool -> td -> bool := schema_of_kinds readable.

(** The columns that carry something: the included primitive columns and the included
    structs with nulls; each with the struct with nulls it is a child of, if any. *)
Fixpoint columns_read (par : option Z) (t : td) : list (td * option Z) :=
  match t with
  | Td id k _ _ h cs =>
      if IsInclude b id then
        match k with
        | STRUCT => (if h then [(t, par)] else []) ++ flat_map (columns_read (if h then Some id else None)) cs
        | _ => [(t, par)]
        end
      else []
  end.

Definition col (t : td) : nat := Z.to_nat (td_id t).

(** Conditions under which column [t] is stored and comes back, the rows being cut into
    stripes [rss]: every row has one value; the values are of the Go type and the integer
    codec carries them; a column without nulls has none, or exactly those of the struct
    with nulls above it; and where bits are stored, all stripes but the last end with a
    full byte (the encoder does not clear its last byte between stripes, see C21). *)
Definition storable (t : td) (par : option Z) (rss : list (list (row value))) : Prop :=
  Forall (fun r => length (column_of (col t) [r]) = 1%nat) (concat rss) /\
  (td_hasNulls t = true -> Forall (fun rows => (length rows mod 8 = 0)%nat) (removelast rss)) /\
  (td_hasNulls t = false ->
     match par with
     | None => Forall (fun v => Null v = false) (column_of (col t) (concat rss))
     | Some p => Forall (fun rows => map Null (column_of (col t) rows) = map Null (column_of (Z.to_nat p) rows)) rss
     end) /\
  (forall k, readerKind (td_kind t) (td_enc t) = Ok k -> k <> KStruct ->
     Forall (fun rows => let gs := nonnull (rows_of (column_of (col t) rows)) in Forall (typed k) gs /\ carried k gs) rss) /\
  (td_kind t = BOOLEAN ->
     Forall (fun rows => (length (nonnull (rows_of (column_of (col t) rows))) mod 8 = 0)%nat) (removelast rss)).

(** A batch for the schema with vectors of capacity [c], as CreateVector makes it. *)
Inductive fits (c : Z) : bool -> td -> bvec -> Prop :=
| fitsLeaf (par : bool) id k ns e (h : bool) a rest :
    isCompound k = false -> zlen (a ++ rest) = c ->
    (h = false -> par = false -> Forall (fun v => Null v = false) (a ++ rest)) ->
    fits c par (Td id k ns e h []) (BVec id k (Some (a, rest)) [])
| fitsStruct (par : bool) id ns e (h : bool) cs s vs :
    (if h then exists (a rest : list value), s = Some (a, rest) /\ zlen (a ++ rest) = c else s = None) ->
    (par = true -> h = true) ->
    Forall2 (fits c h) (kept cs) vs ->
    fits c par (Td id STRUCT ns e h cs) (BVec id STRUCT s vs).
End End.

(** The values [vs] are those of column [t] in [rows]; of a struct only the Null flags
    are stored. *)
Definition shows (t : td) (vs : list value) (rows : list (row value)) : Prop :=
  match td_kind t with
  | STRUCT => map Null vs = map Null (column_of (col t) rows)
  | _ => rows_of vs = rows_of (column_of (col t) rows)
  end.

(** Starting with the batch [v], the client gets batches which together hold [rows], in
    every column that is read. *)
Definition delivers (inflate : list Z -> res (list Z)) (bopt : batchOption) (schema : td) (r : fileR colstats)
           (x : batchRd) (v : bvec) (rows : list (row value)) : Prop :=
  exists vs, Batches inflate r x v vs /\
    forall t p, In (t, p) (columns_read bopt None schema) -> shows t (flat_map (held (td_id t)) vs) rows.

(** [file] was written with the given options, holds [rows], and was opened as [r]. *)
Definition written_and_opened (deflate : list (list Z) -> list Z -> res (list Z)) (inflate : list Z -> res (list Z))
    (F : floats) (o : opts) (stride StripeSize : Z) (schema : td) (rows : list (row value)) (file : list Z)
    (r : fileR colstats) : Prop :=
  1 <= ChunkSize o < 2 ^ 23 /\
  (exists t0, size t0 <= 2 ^ 32 /\ NormalizeSchema t0 = Ok schema) /\
  (exists vs, Rows vs rows /\ closed deflate (columns deflate F o stride) wire o StripeSize schema vs file) /\
  zlen file < 2 ^ 62 /\ zlen rows < 2 ^ 62 /\
  newFileReader inflate cs_hasNull unmarshalPS unmarshalFooter file = Ok r.

(** The states of a batch reader a client can reach by Next and Seek. *)
Inductive Reached (inflate : list Z -> res (list Z)) (r : fileR colstats) (x : batchRd) : batchRd -> Prop :=
| ReachedStart : Reached inflate r x x
| ReachedNext y v y' v' e : Reached inflate r x y -> batchNext inflate r y v = Ok (y', v', e) -> Reached inflate r x y'
| ReachedSeek y row y' : Reached inflate r x y -> batchSeek inflate r y row = Ok y' -> Reached inflate r x y'.
