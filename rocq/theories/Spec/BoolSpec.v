(** Specification vocabulary for boolean streams. *)
From Verif.Model Require Import Go.

(** A boolean stream is stored in whole bytes: trailing padding is false. *)
Definition pad8 (l : list bool) : list bool :=
  l ++ repeat false (Nat.modulo (8 - Nat.modulo (length l) 8) 8).

(** Pointwise "or" of [s] onto the front of [l]. *)
Fixpoint or_onto (l s : list bool) : list bool :=
  match l, s with
  | x :: l', y :: s' => (x || y)%bool :: or_onto l' s'
  | _, _ => l
  end.

(** What the encoder of the code really stores when it is reused: [stale] are the
    bits left over from the byte that was incomplete at the previous flush. *)
Definition stored (stale seg : list bool) : list bool := or_onto (pad8 seg) stale.
Definition next_stale (stale seg : list bool) : list bool :=
  if Nat.eqb (Nat.modulo (length seg) 8) 0
  then match seg with [] => stale | _ => [] end
  else skipn (length (stored stale seg) - 8) (stored stale seg).
Fixpoint stored_all (stale : list bool) (segs : list (list bool)) : list (list bool) :=
  match segs with
  | [] => []
  | s :: t => stored stale s :: stored_all (next_stale stale s) t
  end.
