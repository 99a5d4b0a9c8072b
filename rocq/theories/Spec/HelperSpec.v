(** What C78-C80 say of the helper functions. *)
From Coq Require Import Sorted.
From Verif.Model Require Import Go Chunk Schema.
From Verif.Spec Require Import SchemaSpec.

(** One Read of a flate.Reader that keeps io.Reader's promises: at most the bytes asked
    for, and a prefix of the contents; not nothing when there is something ([reads]); all
    of it when it fits ([greedy], which io.Reader does not promise). *)
Definition reads (inflate : list Z -> res (list Z)) (read : list Z -> Z -> res (list Z)) : Prop :=
  (forall p n d, 0 <= n -> read p n = Ok d -> exists x, inflate p = Ok (d ++ x) /\ zlen d <= n /\ (d = [] -> n = 0 \/ x = [])) /\
  (forall p n x, 0 <= n -> inflate p = Ok x -> exists d, read p n = Ok d).
Definition greedy (inflate : list Z -> res (list Z)) (read : list Z -> Z -> res (list Z)) : Prop :=
  forall p n x, inflate p = Ok x -> zlen x <= n -> read p n = Ok x.

(** Every column has as many names as children. *)
Definition evenly_named (t : td) : Prop := forall s, Column t s -> length (td_names s) = length (td_children s).

(** The [c] values from position [s] on are a longest run of equal values of [l]. *)
Definition run_at (l : list Z) (s c : Z) : Prop :=
  0 <= s /\ 1 <= c /\ s + c <= zlen l /\
  exists v, (forall i, s <= i < s + c -> nth_error l (Z.to_nat i) = Some v) /\
    (forall x, s <> 0 -> nth_error l (Z.to_nat (s - 1)) = Some x -> x <> v) /\
    (forall x, nth_error l (Z.to_nat (s + c)) = Some x -> x <> v).
