(** What it means for a list or map column to be read.
    In the format, the PRESENT stream has a bit for every row, the LENGTH stream a number
    for every row that is not null, and the element columns have that many rows for it, in
    order. *)
From Verif.Model Require Import Go Codec ByteBool IntRle Chunk Stream Time File Column Nested.
From Verif.Spec Require Import ColumnSpec SeekSpec.

(** A row of a list column: null, or the number of its elements. *)
Definition some_bit (r : option Z) : bool := match r with Some _ => true | None => false end.
Definition counts (rows : list (option Z)) : list Z := flat_map (fun r => match r with Some n => [n] | None => [] end) rows.
Definition sizes (rows : list (option Z)) : list nat := map Z.to_nat (counts rows).
Definition total (l : list nat) : nat := fold_right Nat.add O l.
Definition squares (l : list nat) : list nat := map (fun n => (n * n)%nat) l.

Section Session.
Variable inflate : list Z -> res (list Z).
Variable o : opts.

Fixpoint bits (n : nat) (b : boolReader) : res (list bool * boolReader) :=
  match n with
  | O => Ok ([], b)
  | S m => let! (p, b1) := bool_Next inflate o b in let! (ps, b2) := bits m b1 in Ok (p :: ps, b2)
  end.
Fixpoint numbers (n : nat) (l : option (vreader Z)) : res (list Z * option (vreader Z)) :=
  match n with
  | O => Ok ([], l)
  | S m => let! (x, l1) := nextSecond inflate o DecodeUInt l in let! (xs, l2) := numbers m (Some l1) in Ok (x :: xs, l2)
  end.
(** The streams of the list itself hold these rows next, and are then as in [r']. *)
Definition shows (r : listR) (rows : list (option Z)) (r' : listR) : Prop :=
  (match ls_present r, ls_present r' with
   | Some b, Some b' => bits (length rows) b = Ok (map some_bit rows, b')
   | None, None => ~ In None rows
   | _, _ => False
   end) /\
  numbers (length (counts rows)) (ls_length r) = Ok (counts rows, ls_length r').
(** A batch for that many rows. *)
Definition space (r : listR) (rows : list (option Z)) (vec : list value) : Prop :=
  length vec = length rows /\ (ls_present r = None -> Forall (fun v => Null v = false) vec).
End Session.

(** The elements of each row; for a row that is null, one null element. *)
Fixpoint shares {A} (rows : list (option Z)) (es : list (option A)) : list (list (option A)) :=
  match rows with
  | [] => []
  | None :: t => [None] :: shares t es
  | Some n :: t => firstn (Z.to_nat n) es :: shares t (skipn (Z.to_nat n) es)
  end.
(** Lengths that are in the range of int. *)
Definition lengths_ok (rows : list (option Z)) : Prop := Forall (fun n => 0 <= n < W63) (counts rows).
