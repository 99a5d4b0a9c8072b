(** C31-C34, C47: schemas and batches. *)
From Verif.Model Require Import Go Schema.
From Verif.Spec Require Import SchemaSpec.
From Verif.Proofs Require Import Base SchemaP.

(** ** C31 *)
(** Normalising fails exactly on schemas with a UNION column (which the library does
    not implement). *)
Theorem C31_total : forall t, (exists t', NormalizeSchema t = Ok t') <-> no_union t.
Proof. exact normalize_iff. Qed.
Print Assumptions C31_total.

(** The id of a column is the number of columns before it in preorder, and nothing but
    ids changes. *)
Theorem C31_preorder : forall t t', size t <= 4294967296 -> NormalizeSchema t = Ok t' ->
  erase t' = erase t /\
  forall p s, at_path t p = Some s -> exists s', at_path t' p = Some s' /\ td_id s' = before t p.
Proof. exact normalize_preorder. Qed.
Print Assumptions C31_preorder.

(** Flattening lists every column once, in id order 0, 1, ..., n-1. *)
Theorem C31_flat : forall t t', size t <= 4294967296 -> NormalizeSchema t = Ok t' ->
  exists l, Flat t' = Ok l /\ (forall s, In s l <-> Column t' s) /\
            map td_id l = count_up 0 (Z.to_nat (size t)).
Proof. exact normalize_flat. Qed.
Print Assumptions C31_flat.

(** The ids of a subtree are an interval, and only its own columns are in it. *)
Theorem C31_subtree : forall t t', size t <= 4294967296 -> NormalizeSchema t = Ok t' ->
  forall s, Column t' s -> 0 <= td_id s /\ td_id s + size s <= size t /\
  (forall x, td_id s <= x < td_id s + size s <-> exists r, Column s r /\ td_id r = x) /\
  (forall r, Column t' r -> td_id s <= td_id r < td_id s + size s -> Column s r).
Proof. exact normalize_subtree. Qed.
Print Assumptions C31_subtree.

Definition leaf (k : tkind) (h : bool) : td := Td 0 k [] 0 h [].
Definition sample : td :=
  Td 0 STRUCT [[97]; [98]; [99]] 0 false
     [leaf INT true; Td 0 LIST [[]] 0 false [Td 0 STRUCT [[120]; [121]] 0 true [leaf LONG false; leaf STRING false]];
      Td 0 MAP [[]; []] 0 true [leaf STRING false; leaf DOUBLE false]].
Definition numbered_sample : td :=
  Td 0 STRUCT [[97]; [98]; [99]] 0 false
     [Td 1 INT [] 0 true [];
      Td 2 LIST [[]] 0 false [Td 3 STRUCT [[120]; [121]] 0 true [Td 4 LONG [] 0 false []; Td 5 STRING [] 0 false []]];
      Td 6 MAP [[]; []] 0 true [Td 7 STRING [] 0 false []; Td 8 DOUBLE [] 0 false []]].
Example C31_case : NormalizeSchema sample = Ok numbered_sample /\ size sample = 9 /\
  before sample [1; 0; 1]%nat = 5 /\ before sample [2; 0]%nat = 7.
Proof. vm_compute. auto. Qed.

(** ** C32 *)
(** Every pointer of the rebuilt schema leads to the stored view of the column with
    that id: same id, kind, children, and for structs the same field names. *)
Theorem C32_footer_types : forall t t' l, size t <= 4294967296 -> named t ->
  NormalizeSchema t = Ok t' -> Flat t' = Ok l ->
  exists ns, unmarshallSchema (SchemasToTypes l) = Ok ns /\
  (forall s, Column t' s -> pointed (Z.to_nat (size t)) ns (td_id s) = Some (stored_view s)) /\
  pointed (Z.to_nat (size t)) ns 0 = Some (stored_view t').
Proof. exact footer_roundtrip. Qed.
Print Assumptions C32_footer_types.

(** The premise [named] is needed: a struct with fewer names than children (which
    AddChild never builds) is written, and reading it panics. *)
Theorem C32_unnamed_panics : forall t t' l, size t <= 4294967296 ->
  NormalizeSchema t = Ok t' -> Flat t' = Ok l ->
  (exists s, Column t s /\ td_kind s = STRUCT /\ td_children s <> [] /\
             (length (td_names s) < length (td_children s))%nat) ->
  unmarshallSchema (SchemasToTypes l) = Panic.
Proof. exact footer_panic. Qed.
Print Assumptions C32_unnamed_panics.

Example C32_case : exists l ns, Flat numbered_sample = Ok l /\
  unmarshallSchema (SchemasToTypes l) = Ok ns /\
  pointed 4 ns 0 = Some (
  Td 0 STRUCT [[97]; [98]; [99]] 0 false
     [Td 1 INT [] 0 false [];
      Td 2 LIST [[]] 0 false [Td 3 STRUCT [[120]; [121]] 0 false [Td 4 LONG [] 0 false []; Td 5 STRING [] 0 false []]];
      Td 6 MAP [[]; []] 0 false [Td 7 STRING [] 0 false []; Td 8 DOUBLE [] 0 false []]]).
Proof. do 2 eexists. split; [reflexivity|]. split; reflexivity. Qed.

(** ** C33 *)
(** False: only the first child of each column is looked at. *)
Theorem C33_illegal_nulls_refuted : exists t o v, well_shaped t /\ illegal_nulls t /\
  RowSize o > 0 /\ CreateVector o t = Ok (Some v).
Proof.
  exists (Td 0 STRUCT [[97]; [98]] 0 true [Td 1 INT [] 0 false []; Td 2 INT [] 0 true []]).
  exists {| Includes := []; RowSize := 10; NotCreateVector := false |}.
  exists (Vec 0 STRUCT 10 [Some (Vec 1 INT 10 []); Some (Vec 2 INT 10 [])]).
  split; [|split; [|split; [vm_compute; reflexivity|reflexivity]]].
  - intros s Hs. apply flatten_Column in Hs. cbn in Hs.
    destruct Hs as [<-|[<-|[<-|[]]]]; cbn; auto.
  - exists (Td 0 STRUCT [[97]; [98]] 0 true [Td 1 INT [] 0 false []; Td 2 INT [] 0 true []]).
    exists (Td 2 INT [] 0 true []). split; [apply Column_refl|]. cbn. repeat split; auto.
Qed.
Print Assumptions C33_illegal_nulls_refuted.

(** What is rejected: a nullable column with a nullable first child on the chain of
    first children from the root.  Missing: every other child. *)
Theorem C33_rejected_iff_partial : forall o t, well_shaped t -> RowSize o <> 0 ->
  (CreateVector o t = Err <->
   exists n s c, at_path t (repeat 0%nat n) = Some s /\ nth_error (td_children s) 0 = Some c /\
                 td_hasNulls s = true /\ td_hasNulls c = true).
Proof. exact create_rejects. Qed.
Print Assumptions C33_rejected_iff_partial.

Example C33_case : CreateVector {| Includes := []; RowSize := 10; NotCreateVector := false |}
  (Td 0 STRUCT [[97]] 0 false [Td 1 STRUCT [[98]; [99]] 0 true [Td 2 INT [] 0 true []; Td 3 INT [] 0 false []]]) = Err.
Proof. reflexivity. Qed.

(** ** C34 *)
Theorem C34_projection : forall o t, well_shaped t ->
  exists v, createVector o t = Ok v /\
  (forall i, In i (ovec_ids v) <-> Selected (included (Includes o)) t i) /\
  sublist (ovec_ids v) (schema_ids t) /\
  (Includes o = [] -> ovec_ids v = schema_ids t).
Proof. exact projection. Qed.
Print Assumptions C34_projection.

Lemma sample_shaped : well_shaped numbered_sample.
Proof.
  intros s Hs. apply flatten_Column in Hs. cbn in Hs.
  repeat (destruct Hs as [<-|Hs]; [cbn; auto|]). destruct Hs.
Qed.
Definition some_ids : batchOption := {| Includes := [0; 2; 4; 5; 6; 8]; RowSize := 3; NotCreateVector := false |}.
(** Columns 4 and 5 are asked for but column 3 above them is not. *)
Example C34_case : CreateVector some_ids numbered_sample =
  Ok (Some (Vec 0 STRUCT 0 [Some (Vec 2 LIST 3 [None]); Some (Vec 6 MAP 3 [None; Some (Vec 8 DOUBLE 3 [])])])).
Proof. reflexivity. Qed.

(** ** C47 *)
(** False: a list or map whose child is not included gets a nil child. *)
Theorem C47_no_nil_children_refuted : exists t o v, well_shaped t /\
  CreateVector o t = Ok (Some v) /\ no_holes v = false.
Proof.
  exists numbered_sample, some_ids. eexists. split; [exact sample_shaped|]. split; reflexivity.
Qed.
Print Assumptions C47_no_nil_children_refuted.

(** Without holes if the element columns of every list and map are included. *)
Theorem C47_no_nil_children_partial : forall o t v, well_shaped t ->
  (forall s c, Column t s -> td_kind s = LIST \/ td_kind s = MAP -> In c (td_children s) ->
     included (Includes o) (td_id c)) ->
  createVector o t = Ok (Some v) -> no_holes v = true.
Proof. exact no_nil. Qed.
Print Assumptions C47_no_nil_children_partial.

Example C47_case : exists v, CreateVector
    {| Includes := [0; 2; 3; 5; 6; 7; 8]; RowSize := 3; NotCreateVector := false |} numbered_sample = Ok (Some v) /\
  no_holes v = true /\ vec_ids v = [0; 2; 3; 5; 6; 7; 8].
Proof. eexists. split; [reflexivity|]. split; reflexivity. Qed.
