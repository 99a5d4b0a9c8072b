(** What it means for a column reader to be positioned at a row. *)
From Verif.Model Require Import Go Codec ByteBool IntRle Chunk Stream Schema Time File Column Nested Tree.
From Verif.Spec Require Import Session IntSpec ColumnSpec.

Section Session.
Variable inflate : list Z -> res (list Z).
Variable o : opts.

(** A client of a column reader: batches, skips and seeks in any order. *)
Inductive rop := RRead (vec : list value) | RSkip (rows : Z) | RSeek (stride : Z).
Definition rop_run (c : colR) (op : rop) : res colR :=
  match op with
  | RRead vec => let! (_, c') := NextBatch inflate o c vec in Ok c'
  | RSkip rows => Skip inflate o rows c
  | RSeek stride => SeekStride inflate o stride c
  end.
Fixpoint rops (c : colR) (ops : list rop) : res colR :=
  match ops with
  | [] => Ok c
  | op :: t => let! c' := rop_run c op in rops c' t
  end.

(** From here on, the reader gives these rows, in batches of any sizes. *)
Definition delivers_from (hn : bool) (c : colR) (rows : list (option gval)) : Prop :=
  forall vecs, (length (concat vecs) <= length rows)%nat ->
    (hn = false -> Forall (fun v => Null v = false) (concat vecs)) ->
    exists outs c', readBatches inflate o c vecs = Ok (outs, c') /\ map rows_of outs = cut vecs rows.
End Session.

(** The integer streams of a column are within C12. *)
Definition ints_ok (k : ckind) (gs : list gval) : Prop :=
  match k with
  | KShort | KInt | KLong | KDate => stream_ok (NewIntRLV2 true true) (map int_of gs) = true
  | KString => stream_ok (NewIntRLV2 false true) (map int_of gs) = true
  | _ => True
  end.

(** The streams in which recorded positions lead where they should (C18, C19): with
    compression, those that are not empty; without, those of one chunk at most. *)
Definition seekable (o : opts) (s : strm) : Prop :=
  if isNone (CompressionKind o) then st_length s <= ChunkSize o else 0 < st_length s.

(** There is a value, and among strings one that is not empty. *)
Definition stocked (k : ckind) (gs : list gval) : Prop :=
  gs <> [] /\ (k = KString -> exists s, In (GString s) gs /\ s <> []).

(** What the batch must hold for a reader to fill it: timestamps and decimals are read
    into the value that is there. *)
Definition accepts (k : ckind) (g : gval) : Prop :=
  match k with
  | KTimestamp => exists t, g = GTimestamp t
  | KDecimal => exists p s, g = GDecimal p s
  | _ => True
  end.
(** A batch of [n] rows for the reader [t], which has below a struct with nulls only
    columns without. *)
Inductive room (n : nat) : ctree -> vtree -> Prop :=
| room_leaf c vals cs : length vals = n ->
    Forall (fun v => (cr_present c = None -> Null v = false) /\ accepts (cr_kind c) (V v)) vals ->
    room n (CLeaf c) (VT vals cs)
| room_struct index kids vals cs : Forall2 (room n) kids cs -> room n (CStruct None index kids) (VT vals cs)
| room_null p index kids vals cs : length vals = n ->
    Forall2 (fun t v => exists c vs, t = CLeaf c /\ v = VT vs [] /\ cr_present c = None /\ length vs = n /\
                          Forall (fun x => accepts (cr_kind c) (V x)) vs) kids cs ->
    room n (CStruct (Some p) index kids) (VT vals cs).
(** Two readers of one shape, without PRESENT streams of structs, whose leaves are in
    relation. *)
Inductive leafwise (R : colR -> colR -> Prop) : ctree -> ctree -> Prop :=
| leafwise_leaf c c' : R c c' -> leafwise R (CLeaf c) (CLeaf c')
| leafwise_struct index kids kids' : Forall2 (leafwise R) kids kids' -> leafwise R (CStruct None index kids) (CStruct None index kids').
(** No struct with nulls. *)
Fixpoint solid (t : ctree) : bool :=
  match t with CLeaf _ => true | CStruct None _ kids => forallb solid kids | _ => false end.
