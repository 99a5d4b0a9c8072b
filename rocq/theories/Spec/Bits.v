(** Bits, most significant first: the vocabulary of the packed integer forms. *)
From Verif.Model Require Import Go.

(** The [n] low bits of [v], most significant first. *)
Fixpoint bitsN (n : nat) (v : Z) : list bool :=
  match n with
  | O => []
  | S m => Z.testbit v (Z.of_nat m) :: bitsN m v
  end.

(** The number written by a bit list. *)
Definition valB (l : list bool) : Z :=
  fold_left (fun acc (b : bool) => 2 * acc + (if b then 1 else 0)) l 0.

(** The bits of a byte sequence. *)
Definition bitsOfBytes (i : list Z) : list bool := flat_map (bitsN 8) i.
