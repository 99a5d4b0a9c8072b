(** What C81-C83 say. *)
From Verif.Model Require Import Go Schema File Column.
From Verif.Spec Require Import SchemaSpec.

(** [Vector v id l]: [l] is the vector of the column [id] somewhere in the batch [v]. *)
Inductive Vector {V} : cvec V -> nat -> list V -> Prop :=
| VectorHere id l cs : Vector (CVec id (Some l) cs) id l
| VectorChild id vals cs c i l : In c cs -> Vector c i l -> Vector (CVec id vals cs) i l.

(** The column [id] has nulls. *)
Definition nullable (schemas : list td) (id : nat) : Prop := exists s, nth_error schemas id = Some s /\ td_hasNulls s = true.

(** Only structs and lists have children, and there are no maps and unions. *)
Definition plain (t : td) : Prop := forall s, Column t s ->
  td_kind s <> MAP /\ td_kind s <> UNION /\ (td_children s <> [] -> td_kind s = STRUCT \/ td_kind s = LIST).
(** No column but a last child has children. *)
Definition rightmost (t : td) : Prop := forall s, Column t s -> Forall (fun c => td_children c = []) (removelast (td_children s)).
