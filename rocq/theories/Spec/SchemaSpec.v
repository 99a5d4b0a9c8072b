(** What the schema properties say, without reference to the code's traversals. *)
From Verif.Model Require Import Go Schema.

(** Number of columns of a schema. *)
Fixpoint size (t : td) : Z :=
  1 + (let (_, _, _, _, _, cs) := t in fold_right (fun c n => size c + n) 0 cs).

(** The column reached by a path of child indices. *)
Fixpoint at_path (t : td) (p : list nat) : option td :=
  match p with
  | [] => Some t
  | j :: q => match nth_error (td_children t) j with Some c => at_path c q | None => None end
  end.

(** The number of columns before the column at a path, in preorder: the column's
    ancestors and the subtrees of its elder siblings and of its ancestors' ones. *)
Fixpoint before (t : td) (p : list nat) : Z :=
  match p with
  | [] => 0
  | j :: q => 1 + fold_right (fun c n => size c + n) 0 (firstn j (td_children t)) +
              match nth_error (td_children t) j with Some c => before c q | None => 0 end
  end.

(** Everything but the ids. *)
Fixpoint erase (t : td) : td :=
  let (_, k, ns, e, h, cs) := t in Td 0 k ns e h (map erase cs).

(** [s] is a column of [t]: [t] itself or a descendant. *)
Definition Column (t s : td) : Prop := exists p, at_path t p = Some s.

Definition no_union (t : td) : Prop := forall s, Column t s -> td_kind s <> UNION.

Fixpoint count_up (a : Z) (n : nat) : list Z :=
  match n with O => [] | S m => a :: count_up (a + 1) m end.

(** Every struct has a name for each child (AddChild keeps it so). *)
Definition named (t : td) : Prop :=
  forall s, Column t s -> td_kind s = STRUCT -> td_children s <> [] ->
  (length (td_children s) <= length (td_names s))%nat.

(** What the footer's type list keeps: ids, kinds, children, and the struct field
    names (as many as there are children). *)
Fixpoint stored_view (t : td) : td :=
  let (i, k, ns, _, _, cs) := t in
  Td i k (match k with STRUCT => firstn (length cs) ns | _ => map (fun _ => []) cs end)
     0 false (map stored_view cs).

(** A nullable struct with a nullable child. *)
Definition illegal_nulls (t : td) : Prop :=
  exists s c, Column t s /\ td_kind s = STRUCT /\ td_hasNulls s = true /\
              In c (td_children s) /\ td_hasNulls c = true.

(** A column is selected when it and all its ancestors are included. *)
Inductive Selected (inc : Z -> Prop) : td -> Z -> Prop :=
| SelHere : forall t, inc (td_id t) -> Selected inc t (td_id t)
| SelChild : forall t c i, inc (td_id t) -> In c (td_children t) -> Selected inc c i ->
    Selected inc t i.

Definition included (l : list Z) (i : Z) : Prop := l = [] \/ In i l.

(** The columns for which a batch has a vector, in the order of the batch. *)
Fixpoint vec_ids (v : vec) : list Z :=
  let (i, _, _, cs) := v in
  i :: flat_map (fun c => match c with Some w => vec_ids w | None => [] end) cs.
Definition ovec_ids (v : option vec) : list Z := match v with Some w => vec_ids w | None => [] end.

(** Columns of a schema in schema order. *)
Fixpoint schema_ids (t : td) : list Z :=
  let (i, _, _, _, _, cs) := t in i :: flat_map schema_ids cs.

Inductive sublist {A} : list A -> list A -> Prop :=
| SubNil : sublist [] []
| SubKeep : forall x l m, sublist l m -> sublist (x :: l) (x :: m)
| SubDrop : forall x l m, sublist l m -> sublist l (x :: m).

(** Schemas of the right shape: no unions, lists have one child, maps two, primitive
    columns none. *)
Definition well_shaped (t : td) : Prop :=
  forall s, Column t s ->
  match td_kind s with
  | STRUCT => True
  | LIST => length (td_children s) = 1%nat
  | MAP => length (td_children s) = 2%nat
  | UNION => False
  | _ => td_children s = []
  end.

(** A batch without nil children. *)
Fixpoint no_holes (v : vec) : bool :=
  let (_, _, _, cs) := v in
  forallb (fun c => match c with Some w => no_holes w | None => false end) cs.
