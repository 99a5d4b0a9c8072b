(** C66: closing a batch reader releases what it has opened. *)
From Coq Require Import ZifyBool ZifyNat.
From Verif.Model Require Import Go Chunk Stream Schema Rows Time File Column Wire Assembled Close.
From Verif.Spec Require Import ChunkSpec RowsSpec FileSpec ColumnSpec AssemblySpec EndSpec OrcColumn OrcFile ProjectSpec CloseSpec.
From Verif.Proofs Require Import Base SchemaP ProjectP CloseP OpenCloseP WrittenCloseP.
From Verif.Properties Require Import Columns File End Foreign ForeignFile Project.

(** When does Close, after any calls of Next and Seek that succeed, close every handle
    CreateBatchReader has opened?  Exactly if the footers of all stripes are such that
    [released] holds.  This is for all files, well-formed or not.
    Missing: that [released] always holds, which is refuted below; states after a call that
    has failed; the handles of a reader that is not created. *)
Theorem C66_released_partial : forall inflate bopt file schema r x xs y,
  opened_batches inflate bopt file schema r x xs -> Later inflate r x y ->
  batch_Close y = Ok (batchClones inflate bopt file) <-> Forall (fun f => released bopt f schema) xs.
Proof. intros inflate bopt file schema r x xs y H Hl. exact (proj2 (batch_bnd _ _ _ _ _ _ _ H y Hl)). Qed.
Print Assumptions C66_released_partial.

(** No handle is closed that was not opened, or twice. *)
Theorem C66_no_more : forall inflate bopt file schema r x xs y n,
  opened_batches inflate bopt file schema r x xs -> Later inflate r x y ->
  batch_Close y = Ok n -> n <= batchClones inflate bopt file.
Proof. intros inflate bopt file schema r x xs y n H Hl. exact (proj1 (batch_bnd _ _ _ _ _ _ _ H y Hl) n). Qed.
Print Assumptions C66_no_more.

(** Files without lists and maps whose columns have the streams the format gives them are
    fine, if the strings among them have PRESENT streams just when the statistics of the
    file say that they have nulls. *)
Theorem C66_without_lists_partial : forall inflate bopt file schema r x xs y,
  opened_batches inflate bopt file schema r x xs -> Later inflate r x y ->
  (forall f t, In f xs -> In t (flatten schema) -> read bopt t ->
     td_kind t <> LIST /\ td_kind t <> MAP /\ well_listed (td_kind t) (encoded f t) (listed f t) /\
     (td_kind t = STRING -> encoded f t <> 3 -> In 0 (listed f t) <-> td_hasNulls t = true)) ->
  batch_Close y = Ok (batchClones inflate bopt file).
Proof.
  intros inflate bopt file schema r x xs y H Hl Hf. apply (C66_released_partial _ _ _ _ _ _ _ _ H Hl). apply Forall_forall. intros f Hin.
  eapply plain; [exact H|]. intros t. apply Hf. exact Hin.
Qed.
Print Assumptions C66_without_lists_partial.

(** All files of this writer are fine: for all schemas and rows, and all columns that include
    the root. *)
Theorem C66_written_files : forall deflate inflate F o stride StripeSize schema rows file r bopt x y, flate_ok deflate inflate ->
  written_and_opened deflate inflate F o stride StripeSize schema rows file r ->
  openBatches inflate bopt file = Ok (r, x) -> IsInclude bopt 0 = true -> Later inflate r x y ->
  batch_Close y = Ok (batchClones inflate bopt file).
Proof. exact written_closes. Qed.
Print Assumptions C66_written_files.

(** A map that has a LENGTH stream in some stripe keeps the handle of it; a list keeps those
    of its elements.  They need not be on the top level. *)
Theorem C66_leaks : forall inflate bopt file schema r x xs y f t,
  opened_batches inflate bopt file schema r x xs -> Later inflate r x y ->
  In f xs -> In t (flatten schema) -> read bopt t ->
  (td_kind t = MAP /\ In 2 (listed f t)) \/
  (td_kind t = LIST /\ listed f t <> [] /\ exists c, In c (flat_map flatten (td_children t)) /\ read bopt c /\ listed f c <> []) ->
  batch_Close y <> Ok (batchClones inflate bopt file).
Proof. intros inflate bopt file schema r x xs y f t H Hl Hf Ht Hr Hc. exact (leaks _ _ _ _ _ _ _ H f t y Hf Ht Hr Hl Hc). Qed.
Print Assumptions C66_leaks.

(** ** Files *)
(** Proves [opened_batches] of a concrete file. *)
Ltac opened E :=
  match goal with |- exists r x xs, opened_batches ?inflate ?b ?f ?s r x xs /\ _ =>
    destruct (openBatches inflate b f) as [[r0 x0]| |] eqn:E; [|exfalso; vm_compute in E; discriminate E..];
    let Ef := fresh in
    destruct (CreateBatchReader inflate unmarshalSF (RowSize b) f r0) as [xs0| |] eqn:Ef;
      [exists r0, x0, xs0|exfalso..]; vm_compute in E; injection E as <- <-; vm_compute in Ef; [injection Ef as <-|discriminate Ef..]
  end;
  split; [split; [vm_compute; reflexivity|vm_compute; reflexivity| | |reflexivity];
    [split; [reflexivity|]; let t := fresh in let Ht := fresh in intros t Ht; vm_compute in Ht;
       repeat (destruct Ht as [<-|Ht]; [split; [vm_compute; discriminate|split; [eexists; split; [vm_compute; reflexivity|split; reflexivity]|vm_compute; reflexivity]]|]); contradiction
    |split; [vm_compute; repeat (constructor; [cbn [In]; intuition discriminate|]); constructor
            |let i := fresh in let Hi := fresh in intros i Hi; cbn [fr_nodes length] in Hi;
             repeat (destruct i as [|i]; [vm_compute; tauto|]); exfalso; cbn in Hi; lia]]|].


(** Proves [released] of concrete footers. *)
Ltac is_released :=
  vm_compute; repeat match goal with
  | |- ~ In _ _ => let H := fresh in intro H; cbn [In] in H
  | |- True => exact I
  | |- Forall _ _ => constructor
  | |- NoDup _ => constructor
  | |- _ /\ _ => split
  | |- _ <-> _ => split
  | |- _ -> _ => intro
  | |- forall _, _ => intro
  | H : False |- _ => destruct H
  | H : _ \/ _ |- _ => destruct H
  | H : ?a = ?b |- _ => first [discriminate H | is_var b; subst b]
  | H : ?a = ?a -> False |- _ => destruct (H eq_refl)
  | |- _ = _ => reflexivity
  | |- _ \/ _ => solve [repeat first [left; reflexivity | right]]
  end.

(** A struct with nulls around a string, and a bigint with nulls; two stripes.  Closed after
    Next, Seek and Next. *)
Example C66_ex : exists r x xs, opened_batches some_inflate by_three (foreign_file_with 10 nested nested_stripes) nested r x xs /\
  (exists y, Later some_inflate r x y /\ br_cursor y = 5 /\ batch_Close y = Ok 10) /\
  batchClones some_inflate by_three (foreign_file_with 10 nested nested_stripes) = 10 /\ Forall (fun f => released by_three f nested) xs.
Proof.
  opened E. split; [|split; [vm_compute; reflexivity|]].
  - eexists. split; [|split].
    + eapply (L_next _ _ _ (first_batch by_three nested)); [vm_compute; reflexivity|]. eapply (L_seek _ _ _ 3); [vm_compute; reflexivity|].
      eapply (L_next _ _ _ (first_batch by_three nested)); [vm_compute; reflexivity|]. apply L_now.
    + reflexivity.
    + vm_compute. reflexivity.
  - is_released.
Qed.

(** A list of bigints and a map from strings to bigints, as the format has them. *)
Definition listing : td := Td 0 STRUCT [[97]] 0 false [Td 1 LIST [] 2 false [Td 2 LONG [] 2 false []]].
Definition listing_stripes : list (list piece * list (row value)) := [([(1, 2, [0; 1]); (2, 1, [0; 14])], [[]; []; []])].
Definition mapping : td := Td 0 STRUCT [[97]] 0 false [Td 1 MAP [] 2 false [Td 2 STRING [] 2 false []; Td 3 LONG [] 2 false []]].
Definition mapping_stripes : list (list piece * list (row value)) := [([(1, 2, [0; 1]); (2, 2, [0; 1]); (2, 1, [97; 98; 99]); (3, 1, [0; 14])], [[]; []; []])].
(** The handle of the elements stays open: two are opened, one is closed. *)
Theorem C66_list_refuted : exists schema l r x xs, opened_batches some_inflate by_three (foreign_file schema l) schema r x xs /\
  Forall (fun f => forall t, In t (flatten schema) -> well_listed (td_kind t) (encoded f t) (listed f t)) xs /\
  batchClones some_inflate by_three (foreign_file schema l) = 2 /\ batch_Close x = Ok 1.
Proof. exists listing, listing_stripes. opened E. split; [is_released|split; vm_compute; reflexivity]. Qed.
Print Assumptions C66_list_refuted.
(** The handle of the lengths stays open: four are opened, three are closed. *)
Theorem C66_map_refuted : exists schema l r x xs, opened_batches some_inflate by_three (foreign_file schema l) schema r x xs /\
  Forall (fun f => forall t, In t (flatten schema) -> well_listed (td_kind t) (encoded f t) (listed f t)) xs /\
  batchClones some_inflate by_three (foreign_file schema l) = 4 /\ batch_Close x = Ok 3.
Proof. exists mapping, mapping_stripes. opened E. split; [is_released|split; vm_compute; reflexivity]. Qed.
Print Assumptions C66_map_refuted.
(** So C66_leaks is about something. *)
Example C66_leaks_ex : exists r x xs, opened_batches some_inflate by_three (foreign_file mapping mapping_stripes) mapping r x xs /\
  exists f t, In f xs /\ In t (flatten mapping) /\ read by_three t /\ td_kind t = MAP /\ In 2 (listed f t).
Proof. opened E. eexists. exists (Td 1 MAP [] 2 false [Td 2 STRING [] 2 false []; Td 3 LONG [] 2 false []]). split; [left; reflexivity|]. vm_compute. tauto. Qed.

Definition stringy : td := Td 0 STRUCT [[97]] 0 false [Td 1 STRING [] 2 true []].
(** A file of this library. *)
Example C66_written_ex : exists r x y, written_and_opened toy_deflate toy_inflate fl zl64 10 1000 sample_schema sample_tuples file1 r /\
  openBatches toy_inflate by_three file1 = Ok (r, x) /\ Later toy_inflate r x y /\ br_cursor y = 3 /\
  batchClones toy_inflate by_three file1 = 4 /\ batch_Close y = Ok 4.
Proof.
  destruct sample_wao as (r & Hw & _). assert (Er : newFileReader toy_inflate cs_hasNull unmarshalPS unmarshalFooter file1 = Ok r) by apply Hw.
  destruct (openBatches toy_inflate by_three file1) as [[r' x]| |] eqn:E; [|exfalso; vm_compute in E; discriminate E..].
  exists r, x. vm_compute in E. vm_compute in Er. injection E as <- <-. injection Er as <-. eexists. split; [exact Hw|]. split; [vm_compute; reflexivity|]. split.
  - eapply (L_next _ _ _ (first_batch by_three sample_schema)); [vm_compute; reflexivity|apply L_now].
  - split; [|split]; vm_compute; reflexivity.
Qed.

(** A string column of another writer that has nulls, but none in this stripe, where it has
    no PRESENT stream: Close panics. *)
Theorem C66_foreign_string_refuted : exists schema l r x xs, opened_batches some_inflate by_three (foreign_file schema l) schema r x xs /\
  Forall (fun f => forall t, In t (flatten schema) -> well_listed (td_kind t) (encoded f t) (listed f t)) xs /\
  batch_Close x = Panic.
Proof.
  exists stringy, [([(1, 0, [255; 160]); (1, 2, [66; 0; 64]); (1, 1, [97; 98])], [[]; []; []]); ([(1, 2, [0; 1]); (1, 1, [97; 98; 99])], [[]; []; []])].
  opened E. split; [is_released|vm_compute; reflexivity].
Qed.
Print Assumptions C66_foreign_string_refuted.

(** Creating a reader that fails: handles are opened, and nobody has them. *)
Theorem C66_failing_refuted : exists schema l, let file := foreign_file schema l in
  openBatches some_inflate by_three file = Err /\ batchClones some_inflate by_three file = 2.
Proof. exists full_long, [([(1, 1, [0; 14]); (1, 8, [1; 2; 3])], [[]; []; []])]. split; vm_compute; reflexivity. Qed.
Print Assumptions C66_failing_refuted.
(** None of the columns: there is no reader to close. *)
Theorem C66_nothing_included_refuted : exists schema l r x, openBatches some_inflate (asks [9]) (foreign_file schema l) = Ok (r, x) /\ batch_Close x = Panic.
Proof.
  exists full_long, bloom_stripes. destruct (openBatches some_inflate (asks [9]) (foreign_file full_long bloom_stripes)) as [[r x]| |] eqn:E; [|exfalso; vm_compute in E; discriminate E..].
  exists r, x. split; [reflexivity|]. vm_compute in E. injection E as <- <-. vm_compute. reflexivity.
Qed.
Print Assumptions C66_nothing_included_refuted.
