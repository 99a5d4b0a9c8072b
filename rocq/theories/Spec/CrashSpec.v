(** Reading files of which nothing is known but that they opened: what can crash. *)
From Verif.Model Require Import Go Chunk Stream Schema File Column Wire Tree Assembled.
From Verif.Spec Require Import ProjectSpec.

(** The streams of column [id] in the footer of a stripe (the numbers of columns are not
    negative). *)
Definition own (id : Z) (l : list (strm * Z)) : list (strm * Z) :=
  filter (fun p => Nat.eqb (Z.to_nat (st_column (fst p))) (Z.to_nat id)) l.
(** The reader of one column by itself. *)
Fixpoint openColumn (inflate : list Z -> res (list Z)) (o : opts) (file : list Z) (r : anyR) (l : list (strm * Z)) : res anyR :=
  match l with
  | [] => Ok r
  | (s, start) :: t =>
      let! r' := (if st_kind s =? 6 then any_InitIndex inflate o file r start (st_length s)
                  else any_InitStream file r s start) in
      openColumn inflate o file r' t
  end.
(** Column [x] of a stripe with the footer [f] (encodings, and streams with their places). *)
Definition column_alone (inflate : list Z -> res (list Z)) (o : opts) (file : list Z) (f : list Z * list (strm * Z)) (x : td) (r : anyR) : Prop :=
  exists e r0, nth_error (fst f) (Z.to_nat (td_id x)) = Some e /\
    newAnyR (td_kind x) e (td_hasNulls x) = Ok r0 /\ openColumn inflate o file r0 (own (td_id x) (snd f)) = Ok r.

(** What CreateVector puts into a vector, and NextBatch leaves there. *)
Definition typed (k : ckind) (v : value) : Prop :=
  match k, V v with
  | KTimestamp, GTimestamp _ => True
  | KTimestamp, _ => False
  | KDecimal, GDecimal _ _ => True
  | KDecimal, _ => False
  | _, _ => True
  end.
(** No number of values read from the column makes it crash. *)
Definition calm (inflate : list Z -> res (list Z)) (o : opts) (r : anyR) : Prop :=
  match r with
  | RCol c => forall vec, Forall (typed (cr_kind c)) vec -> NextBatch inflate o c vec <> Panic
  | RDict d => forall vec, dict_NextBatch inflate o d vec <> Panic
  | _ => False
  end.
(** A struct with nulls has no structs below it. *)
Definition flat_nulls (b : batchOption) (schema : td) : Prop :=
  forall x c, In x (flatten schema) -> td_kind x = STRUCT -> td_hasNulls x = true -> IsInclude b (td_id x) = true ->
    In c (td_children x) -> IsInclude b (td_id c) = true -> td_kind c <> STRUCT.

(** No lists, maps and unions. *)
Definition not_nested (b : batchOption) (schema : td) : Prop :=
  forall x, In x (flatten schema) -> IsInclude b (td_id x) = true ->
    match td_kind x with LIST | MAP | UNION => False | _ => True end.

(** An inflate that does not crash and gives bytes. *)
Definition tame (inflate : list Z -> res (list Z)) : Prop :=
  forall x, bytes x -> inflate x <> Panic /\ forall y, inflate x = Ok y -> bytes y.
(** A column with all its streams, whose lengths are those of Go's uint64. *)
Definition lengths_ok (l : list (strm * Z)) : Prop := Forall (fun p => is_u64 (st_length (fst p))) l.
Definition has_stream (k : Z) (l : list (strm * Z)) : Prop := exists s st, In (s, st) l /\ st_kind s = k.
Definition complete (k : ckind) (l : list (strm * Z)) : Prop :=
  has_stream sDATA l /\
  match k with
  | KString | KBinary => has_stream sLENGTH l
  | KTimestamp | KDecimal => has_stream sSECONDARY l
  | _ => True
  end.
(** The kinds of columns that do not crash. *)
Definition sturdy (k : ckind) : bool :=
  match k with KByte | KBool | KFloat | KDouble => true | _ => false end.

(** The same for the types of columns. *)
Definition sturdyT (k : tkind) : bool := match k with BYTE | BOOLEAN | FLOAT | DOUBLE | STRUCT => true | _ => false end.
(** The footers of the stripes, with encodings and streams. *)
Definition stripe_footers (inflate : list Z -> res (list Z)) (b : batchOption) (file : list Z) (r : fileR colstats) (fs : list (list Z * list (strm * Z))) : Prop :=
  CreateBatchReader inflate unmarshalSF (RowSize b) file r = Ok fs.

(** What Next and Seek do to a column: read into a vector, go back to the beginning of the
    stripe, skip a row. *)
Inductive deed := DNext (vec : list value) | DBack | DSkip.
Definition doDeed (inflate : list Z -> res (list Z)) (o : opts) (r : anyR) (a : deed) : res anyR :=
  match r, a with
  | RCol c, DNext vec => let! (_, c') := NextBatch inflate o c vec in Ok (RCol c')
  | RCol c, DBack => let! c' := SeekStride inflate o 0 c in Ok (RCol c')
  | RCol c, DSkip => let! c' := Skip inflate o 1 c in Ok (RCol c')
  | RDict d, DNext vec => let! (_, d') := dict_NextBatch inflate o d vec in Ok (RDict d')
  | RDict d, DBack => let! d' := dict_SeekStride inflate o 0 d in Ok (RDict d')
  | RDict d, DSkip => let! d' := dict_Skip1 inflate o d in Ok (RDict d')
  | _, _ => Panic
  end.
Fixpoint doDeeds (inflate : list Z -> res (list Z)) (o : opts) (r : anyR) (l : list deed) : res anyR :=
  match l with [] => Ok r | a :: l' => let! r' := doDeed inflate o r a in doDeeds inflate o r' l' end.
(** A column none of whose uses crashes. *)
Definition fitting (r : anyR) (a : deed) : Prop :=
  match r, a with RCol c, DNext vec => Forall (typed (cr_kind c)) vec | _, _ => True end.
Definition steady (inflate : list Z -> res (list Z)) (o : opts) (r : anyR) : Prop :=
  match r with RCol _ | RDict _ => forall l, Forall (fitting r) l -> doDeeds inflate o r l <> Panic | _ => False end.
