(** What column statistics and row index entries should say. *)
From Verif.Model Require Import Go Chunk Stream Time File Column.
From Verif.Spec Require Import ColumnSpec.

(** Small vocabulary. *)
Definition total (xs : list Z) : Z := fold_right Z.add 0 xs.
Definition least (xs : list Z) (m : Z) : Prop := In m xs /\ forall x, In x xs -> m <= x.
Definition greatest (xs : list Z) (m : Z) : Prop := In m xs /\ forall x, In x xs -> x <= m.
(** The same for strings, which are ordered byte by byte. *)
Inductive string_le : list Z -> list Z -> Prop :=
| sle_nil s : string_le [] s
| sle_lt x y a b : x < y -> string_le (x :: a) (y :: b)
| sle_eq x a b : string_le a b -> string_le (x :: a) (x :: b).
Definition greatestS (ss : list (list Z)) (m : list Z) : Prop := In m ss /\ forall s, In s ss -> string_le s m.

(** A client of a column writer: any sequence of calls. *)
Inductive op := OWrite (v : value) | OFlush | OWriteOut | OReset.
Section Ops.
Variable deflate : list (list Z) -> list Z -> res (list Z).
Variable F : floats.
Variable o : opts.
Variable stride : Z.
Definition step (c : colW) (p : op) : res colW :=
  match p with
  | OWrite v => c_Write deflate F o stride c v
  | OFlush => c_Flush deflate o c
  | OWriteOut => let! (_, _, c') := c_WriteOut o c in Ok c'
  | OReset => c_Reset o c
  end.
Fixpoint ops (c : colW) (ps : list op) : res colW :=
  match ps with [] => Ok c | p :: t => let! c' := step c p in ops c' t end.
End Ops.
(** The rows such a client wrote. *)
Definition written (ps : list op) : list value :=
  flat_map (fun p => match p with OWrite v => [v] | _ => [] end) ps.
(** The values among them. *)
Definition values (vs : list value) : list gval := nonnull (rows_of vs).
Definition strings (gs : list gval) : list (list Z) :=
  flat_map (fun g => match g with GString s => [s] | _ => [] end) gs.
Definition trues (gs : list gval) : Z :=
  fold_right (fun g n => match g with GBool true => 1 + n | _ => n end) 0 gs.

(** Rows [a] to [b] (exclusive) of a list. *)
Definition slice {A} (a b : nat) (l : list A) : list A := firstn (b - a) (skipn a l).

Section Stripes.
Variable deflate : list (list Z) -> list Z -> res (list Z).
Variable F : floats.
Variable o : opts.
Variable stride : Z.
(** Stripe after stripe, with a reset after each: the bytes of each stripe and the writer
    at the end. *)
Fixpoint stripes (c : colW) (segs : list (list value)) : res (list (list Z) * colW) :=
  match segs with
  | [] => Ok ([], c)
  | vs :: t =>
      let! (bs, _, c1) := writeColumn deflate F o stride c vs in
      let! c2 := c_Reset o c1 in
      let! (r, c3) := stripes c2 t in Ok (bs :: r, c3)
  end.
End Stripes.
