(** Iterating a file to the end, and what it returns. *)
From Verif.Model Require Import Go Rows.

(** [Iter cap b out]: asking for the next batch again and again until the end is
    reported, starting in state [b], terminates and the batches together are [out].
    The batch that comes with the end report counts. *)
Inductive Iter {A} (cap : Z) : batchR A -> list A -> Prop :=
| IterEnd : forall b b' vec, Next cap b = Ok (b', vec, true) -> Iter cap b vec
| IterMore : forall b b' vec out, Next cap b = Ok (b', vec, false) -> Iter cap b' out ->
    Iter cap b (vec ++ out).

(** A stripe of [n] rows loses its last row when read in batches of [c] rows and
    another stripe follows. *)
Definition loses (c n : Z) : bool := (2 <=? n) && ((n - 1) mod c =? 0).

(** Rows of such a stripe that are delivered. *)
Definition delivered {A} (c : Z) (l : list A) : list A :=
  if loses c (zlen l) then ztake (zlen l - 1) l else l.

Definition lost {A} (c : Z) (ls : list (list A)) : nat := length (filter (fun l => loses c (zlen l)) ls).

(** The last stripe, when no row has been lost before. *)
Definition delivered_last {A} (c : Z) (l : list A) : list A :=
  if (zlen l - 1) mod c =? 0 then ztake (zlen l - 1) l else l.

(** Rows of a file whose stripes hold [ls]. *)
Definition total {A} (ls : list (list A)) : Z := zlen (concat ls).

(** A batch reader just opened on such a file. *)
Definition opened {A} (ls : list (list A)) : batchR A :=
  {| b_stripes := map newStripeR ls; b_index := 0; b_total := total ls; b_cursor := 0 |}.

(** The next batch begins with row [x]. *)
Definition starts_with {A} (cap : Z) (b : batchR A) (x : A) : Prop :=
  exists b' vec e, Next cap b = Ok (b', x :: vec, e).
