(** C81: the check of batches nothing calls.  C82: the numbering nothing calls.  Also the
    check of the footer, for C30. *)
From Coq Require Import ZifyBool ZifyNat.
From Verif.Model Require Import Go Chunk Stream Schema Rows File Column Wire Assembled Check.
From Verif.Spec Require Import ChunkSpec SchemaSpec FileSpec AssemblySpec EndSpec CheckSpec.
From Verif.Proofs Require Import Base SchemaP CheckP.
From Verif.Properties Require Import Columns File End.

(** ** C81 *)
(** CheckBatch accepts exactly the batches whose nulls are all in columns with nulls, and
    does not panic if the columns of the batch are columns of the schema. *)
Theorem C81_accepts : forall schemas v, CheckBatch schemas v = Ok tt <->
  forall id l, Vector v id l -> Forall (fun x => Null x = true -> nullable schemas id) l.
Proof. intros schemas v. exact (check_ok schemas v). Qed.
Print Assumptions C81_accepts.
Theorem C81_no_panic : forall schemas v, (forall id l, Vector v id l -> (id < length schemas)%nat) -> CheckBatch schemas v <> Panic.
Proof. intros schemas v H. exact (check_fine schemas v H). Qed.
Print Assumptions C81_no_panic.
(** A null in a column the schema does not have panics. *)
Theorem C81_unknown_column_refuted : forall schemas id l cs, (length schemas <= id)%nat -> existsb Null l = true ->
  CheckBatch schemas (CVec id (Some l) cs) = Panic.
Proof.
  intros schemas id l cs Hid H. cbn [CheckBatch]. replace (checkValues schemas id l) with (@Panic unit); [reflexivity|].
  apply nth_error_None in Hid. symmetry. induction l as [|v l IH]; [discriminate|]. cbn [checkValues existsb] in *.
  destruct (Null v); [rewrite Hid; reflexivity|apply IH; exact H].
Qed.
Print Assumptions C81_unknown_column_refuted.
Example C81_unknown_ex : CheckBatch (flatten sample_schema) (CVec 3 (Some [vnull]) []) = Panic.
Proof. reflexivity. Qed.
(** Whoever calls it before every Write loses no null (C22): every null among the rows is in
    a column with nulls. *)
Theorem C81_no_null_lost_partial : forall schemas vs rows, Rows vs rows -> Forall (fun v => CheckBatch schemas v = Ok tt) vs ->
  forall c x, In (c, x) (concat rows) -> Null x = true -> nullable schemas c.
Proof. intros schemas vs rows H1 H2 c x H3 H4. exact (check_rows schemas vs rows H1 H2 c x H3 H4). Qed.
Print Assumptions C81_no_null_lost_partial.
Example C81_ex : CheckBatch (flatten sample_schema) (sample_batch sample_rows) = Ok tt /\
  existsb (fun p => Null (snd p)) sample_rows = true /\ nullable (flatten sample_schema) 2.
Proof. split; [reflexivity|]. split; [reflexivity|]. eexists. split; reflexivity. Qed.

(** Write does not call it: a batch it refuses is written without an error, the file is
    closed, and its rows do not come back. *)
Definition holed : list (value * value) := [(vnull, vnull); (val (GInt64 5), vnull); (val (GInt64 7), vnull)].
Theorem C81_uncalled_refuted : exists vs file, map (CheckBatch (flatten sample_schema)) vs = [Err] /\
  closed toy_deflate (columns toy_deflate fl zl64 10) wire zl64 1000 sample_schema vs file /\
  (let! (r, x) := openBatches toy_inflate three file in batchNext toy_inflate r x empty3) = Err.
Proof.
  exists [sample_batch holed], (the (make zl64 1000 sample_schema [sample_batch holed])). split; [reflexivity|].
  split; [apply make_closed; vm_compute; reflexivity|]. vm_compute. reflexivity.
Qed.
Print Assumptions C81_uncalled_refuted.
(** It refuses a batch that is written and read back as it is: a null behind the rows of the
    batch is never written. *)
Definition behind : cvec value :=
  CVec 0 None [CVec 2 (Some (map snd sample_rows)) []; CVec 1 (Some (map fst sample_rows ++ [vnull])) []].
Theorem C81_overcautious_refuted : exists v file, CheckBatch (flatten sample_schema) v = Err /\
  closed toy_deflate (columns toy_deflate fl zl64 10) wire zl64 1000 sample_schema [v] file /\
  (let! (r, x) := openBatches toy_inflate three file in
   let! (x1, v1, e1) := batchNext toy_inflate r x empty3 in
   Ok (held 1 v1, held 2 v1, e1)) = Ok (map fst sample_rows, map snd sample_rows, true).
Proof.
  exists behind, (the (make zl64 1000 sample_schema [behind])). split; [reflexivity|].
  split; [apply make_closed; vm_compute; reflexivity|]. vm_compute. reflexivity.
Qed.
Print Assumptions C81_overcautious_refuted.

(** ** C82 *)
(** setId gives the numbers NormalizeSchema gives (C31) exactly when no column but a last
    child has children. *)
Theorem C82_same_partial : forall t, plain t -> size t <= 2 ^ 32 -> (setId 0 t = NormalizeSchema t <-> rightmost t).
Proof.
  intros t Hp Hs. rewrite <- (setId_spec t Hp 0) by lia. unfold NormalizeSchema.
  assert (Hu : hasUnion t = false).
  { apply hasUnion_spec. intros s Hc. apply (Hp s Hc). }
  rewrite Hu. reflexivity.
Qed.
Print Assumptions C82_same_partial.
Definition leaf : td := Td 0 LONG [] 2 false [].
Definition inner_last : td := Td 0 STRUCT [[97]; [98]] 0 false [leaf; Td 0 STRUCT [[99]; [100]] 0 false [leaf; leaf]].
Example C82_ex : plain inner_last /\ rightmost inner_last /\ setId 0 inner_last = NormalizeSchema inner_last.
Proof.
  assert (Hp : plain inner_last).
  { intros s Hs. apply flatten_Column in Hs. cbn in Hs. repeat (destruct Hs as [<-|Hs]; [cbn; repeat split; try discriminate; intros; auto; contradiction|]). destruct Hs. }
  split; [exact Hp|]. assert (E : setId 0 inner_last = NormalizeSchema inner_last) by reflexivity. split; [|exact E].
  apply (C82_same_partial inner_last Hp); [cbn; lia|exact E].
Qed.
(** Otherwise two columns have the same number. *)
Definition inner_first : td := Td 0 STRUCT [[97]; [98]] 0 false [Td 0 STRUCT [[99]] 0 false [leaf]; leaf].
Theorem C82_unique_refuted : exists t t', plain t /\ setId 0 t = Ok t' /\ map td_id (flatten t') = [0; 1; 2; 2].
Proof.
  exists inner_first. eexists. split; [|split; reflexivity].
  intros s Hs. apply flatten_Column in Hs. cbn in Hs. repeat (destruct Hs as [<-|Hs]; [cbn; repeat split; try discriminate; intros; auto; contradiction|]). destruct Hs.
Qed.
Print Assumptions C82_unique_refuted.
(** A map is refused, though NormalizeSchema numbers it. *)
Theorem C82_map_refuted : exists t t', setId 0 t = Err /\ NormalizeSchema t = Ok t' /\ map td_id (flatten t') = [0; 1; 2].
Proof. exists (Td 0 MAP [] 0 false [leaf; leaf]). eexists. split; [reflexivity|]. split; reflexivity. Qed.
Print Assumptions C82_map_refuted.

(** ** C30 *)
(** ensureOrcFooter, which nothing calls, refuses every footer: it compares four bytes with
    the three of the magic. *)
Theorem C30_ensure_refuted : forall psLen buf, ensureOrcFooter psLen buf = Err.
Proof. intros psLen buf. exact (footer_refused psLen buf). Qed.
Print Assumptions C30_ensure_refuted.
