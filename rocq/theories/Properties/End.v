(** C50: what a client iterating over a file gets, from the rows given to the writer. *)
From Coq Require Import ZifyBool ZifyNat.
From Verif.Model Require Import Go Chunk Stream Schema Rows Time File Column Wire Assembled.
From Verif.Spec Require Import ChunkSpec StreamSpec SchemaSpec RowsSpec FileSpec ColumnSpec AssemblySpec EndSpec.
From Verif.Proofs Require Import Base OpenBatchP ChunkP EndClaimsP OrcCheckP.
From Verif.Properties Require Import Columns File.

(** The stripe directory cuts the rows into stripes. *)
Theorem C50_cut : forall deflate inflate F o stride StripeSize schema rows file r bopt,
  flate_ok deflate inflate -> written_and_opened deflate inflate F o stride StripeSize schema rows file r ->
  readable_schema bopt false schema = true -> IsInclude bopt 0 = true -> RowSize bopt <> 0 ->
  exists rss, rows = concat rss /\ map NumberOfRows (fr_stripes r) = map zlen rss.
Proof.
  intros deflate inflate F o stride StripeSize schema rows file r bopt Hfl (Hcs & (t0 & Hsz & Hn) & (vs & Hr & Hc) & Hf & Hl & Ho) H1 H2 H3.
  exact (cut deflate inflate F o stride StripeSize Hfl Hcs t0 schema vs rows file Hsz Hn Hc Hf Hr Hl r Ho bopt H1 H2 H3).
Qed.
Print Assumptions C50_cut.

(** All rows come back, in order and in every column read, exactly when no stripe has one
    row more than a multiple of the batch size (stripes of one row that are not the last
    excepted). *)
Theorem C50_all_rows_iff_partial : forall deflate inflate F o stride StripeSize schema rows file r bopt ls last,
  flate_ok deflate inflate -> written_and_opened deflate inflate F o stride StripeSize schema rows file r ->
  readable_schema bopt false schema = true -> IsInclude bopt 0 = true -> RowSize bopt <> 0 ->
  rows = concat (ls ++ [last]) -> map NumberOfRows (fr_stripes r) = map zlen (ls ++ [last]) ->
  Forall (fun l => l <> []) (ls ++ [last]) ->
  Forall (fun q => storable (fst q) (snd q) (ls ++ [last])) (columns_read bopt None schema) ->
  exists x, openBatches inflate bopt file = Ok (r, x) /\
    forall c v, 0 < c -> fits bopt c false schema v -> Cap v = c -> columns_read bopt None schema <> [] ->
      (delivers inflate bopt schema r x v rows <->
       Forall (fun l => zlen l = 1 \/ (zlen l - 1) mod c <> 0) ls /\ (zlen last - 1) mod c <> 0).
Proof.
  intros deflate inflate F o stride StripeSize schema rows file r bopt ls last Hfl (Hcs & (t0 & Hsz & Hn) & (vs & Hr & Hc) & Hf & Hl & Ho) H1 H2 H3 E1 E2 Hne Hst.
  destruct (client deflate inflate F o stride StripeSize Hfl Hcs t0 schema vs rows file Hsz Hn Hc Hf Hr Hl r Ho bopt H1 H2 H3 ls last E1 E2 Hne Hst) as (x & Hx & Hall).
  exists x. split; [exact Hx|]. intros c v Hc0 Hft Hcap. apply (Hall c v Hc0 Hft Hcap).
Qed.
Print Assumptions C50_all_rows_iff_partial.

(** What comes back in every case. *)
Theorem C50_outcome : forall deflate inflate F o stride StripeSize schema rows file r bopt ls last,
  flate_ok deflate inflate -> written_and_opened deflate inflate F o stride StripeSize schema rows file r ->
  readable_schema bopt false schema = true -> IsInclude bopt 0 = true -> RowSize bopt <> 0 ->
  rows = concat (ls ++ [last]) -> map NumberOfRows (fr_stripes r) = map zlen (ls ++ [last]) ->
  Forall (fun l => l <> []) (ls ++ [last]) ->
  Forall (fun q => storable (fst q) (snd q) (ls ++ [last])) (columns_read bopt None schema) ->
  exists x, openBatches inflate bopt file = Ok (r, x) /\
    forall c v, 0 < c -> fits bopt c false schema v -> Cap v = c ->
    ((lost c ls = 0)%nat -> delivers inflate bopt schema r x v (concat ls ++ delivered_last c last)) /\
    ((lost c ls = 1)%nat -> delivers inflate bopt schema r x v (concat (map (delivered c) ls) ++ last)) /\
    ((lost c ls >= 2)%nat -> forall out, ~ Batches inflate r x v out).
Proof.
  intros deflate inflate F o stride StripeSize schema rows file r bopt ls last Hfl (Hcs & (t0 & Hsz & Hn) & (vs & Hr & Hc) & Hf & Hl & Ho) H1 H2 H3 E1 E2 Hne Hst.
  destruct (client deflate inflate F o stride StripeSize Hfl Hcs t0 schema vs rows file Hsz Hn Hc Hf Hr Hl r Ho bopt H1 H2 H3 ls last E1 E2 Hne Hst) as (x & Hx & Hall).
  exists x. split; [exact Hx|]. intros c v Hc0 Hft Hcap. destruct (Hall c v Hc0 Hft Hcap) as (A & B & C & _). auto.
Qed.
Print Assumptions C50_outcome.

(** The batch CreateVector makes is one the theorems speak of, unless its capacity is 0:
    the leftmost path of its structs ends with one that has no column. *)
Theorem C50_created_batch_fits : forall bopt schema w,
  NotCreateVector bopt = false -> 0 < RowSize bopt -> readable_schema bopt false schema = true ->
  CreateVector bopt schema = Ok (Some w) ->
  fits bopt (RowSize bopt) false schema (batchOf w) /\ (Cap (batchOf w) = RowSize bopt \/ Cap (batchOf w) = 0).
Proof.
  intros bopt schema w H1 H2 H3 H4. unfold CreateVector in H4. destruct (_ =? _); [discriminate|]. destruct (verifySchema schema); [|discriminate].
  pose proof (createVector_fits bopt _ H1 H2 schema false w H3 H4) as H. split; [exact H|]. eapply fits_Cap. exact H.
Qed.
Print Assumptions C50_created_batch_fits.

(** *** A file of three rows, read three by three: everything comes back. *)
Definition three : batchOption := {| Includes := []; RowSize := 3; NotCreateVector := false |}.
Definition sample_tuples : list (row value) :=
  map (fun p => [(1%nat, fst p); (2%nat, snd p)]) sample_rows.
Definition empty3 : bvec :=
  match CreateVector three sample_schema with Ok (Some w) => batchOf w | _ => BVec 0 STRUCT None [] end.
Example C50_run : (let! (r, x) := openBatches toy_inflate three file1 in
  let! (x1, v1, e1) := batchNext toy_inflate r x empty3 in
  Ok (held 1 v1, held 2 v1, e1)) = Ok (map fst sample_rows, map snd sample_rows, true).
Proof. vm_compute. reflexivity. Qed.

Lemma sample_wao : exists r, written_and_opened toy_deflate toy_inflate fl zl64 10 1000 sample_schema sample_tuples file1 r /\
  map NumberOfRows (fr_stripes r) = [3].
Proof.
  destruct (newFileReader toy_inflate cs_hasNull unmarshalPS unmarshalFooter file1) as [r| |] eqn:E; [|exfalso; vm_compute in E; discriminate E..].
  exists r. split; [|vm_compute in E; injection E as <-; reflexivity]. split; [cbn; lia|]. split; [exists sample_schema; split; [vm_compute; discriminate|reflexivity]|].
  split; [exists [sample_batch sample_rows]; split; [|exact file1_closed]|].
  - assert (Hq : sample_tuples = sample_tuples ++ []) by reflexivity. rewrite Hq. constructor; [|constructor].
    repeat (constructor; [reflexivity|]). constructor.
  - split; [vm_compute; reflexivity|]. split; [vm_compute; reflexivity|]. exact E.
Qed.
Lemma sample_storable k rows : In (k, rows) [(3%nat, sample_tuples); (1%nat, firstn 1 sample_tuples)] ->
  Forall (fun q => storable (fst q) (snd q) [rows]) (columns_read three None sample_schema).
Proof.
  intros H.
  assert (H1 : int_carried true [5; -7; 9] /\ int_carried false [2; 1] /\ int_carried true [5] /\ int_carried false [2]).
  { split; [|split; [|split]]; (apply C45_carried_partial; [|vm_compute; reflexivity]); repeat (constructor; [cbn; unfold is_i64, is_u64; lia|]); constructor. }
  destruct H1 as (C1 & C2 & C3 & C4).
  assert (Hb : bytes [104; 105] /\ bytes [122]) by (split; repeat (constructor; [unfold is_u8; lia|]); constructor). destruct Hb as [B1 B2].
  assert (Hs : forall t p, td_kind t = LONG \/ td_kind t = STRING -> td_enc t = 2 ->
    Forall (fun r => length (column_of (col t) [r]) = 1%nat) rows ->
    (td_hasNulls t = false -> p = None /\ Forall (fun v => Null v = false) (column_of (col t) rows)) ->
    (td_kind t = LONG -> Forall (typed KLong) (nonnull (rows_of (column_of (col t) rows))) /\ carried KLong (nonnull (rows_of (column_of (col t) rows)))) ->
    (td_kind t = STRING -> Forall (typed KString) (nonnull (rows_of (column_of (col t) rows))) /\ carried KString (nonnull (rows_of (column_of (col t) rows)))) ->
    storable t p [rows]).
  { intros t p Hk He S1 S2 S3 S4. split; [cbn [concat]; rewrite app_nil_r; exact S1|]. split; [intros _; constructor|].
    split. { intros Hn. destruct (S2 Hn) as [-> Hq]. cbn [concat]. rewrite app_nil_r. exact Hq. }
    split; [|intros _; constructor]. intros kd Hkd _. constructor; [|constructor]. rewrite He in Hkd.
    destruct Hk as [Hk|Hk]; rewrite Hk in Hkd; vm_compute in Hkd; [assert (kd = KLong) as -> by congruence; apply S3, Hk|assert (kd = KString) as -> by congruence; apply S4, Hk]. }
  destruct H as [H|[H|[]]]; apply (f_equal snd) in H; cbn [snd] in H; subst rows.
  - change (columns_read three None sample_schema) with [(Td 1 LONG [] 2 false [], @None Z); (Td 2 STRING [] 2 true [], @None Z)].
    constructor; [|constructor; [|constructor]]; cbn [fst snd].
    + apply Hs; cbn [td_kind td_enc td_hasNulls]; [auto|reflexivity|repeat (constructor; [reflexivity|]); constructor| | |discriminate].
      * intros _. split; [reflexivity|]. repeat (constructor; [reflexivity|]); constructor.
      * intros _. split; [|exact C1]. match goal with |- Forall _ ?l => let l' := eval vm_compute in l in change l with l' end. repeat (constructor; [cbn [typed]; unfold is_i64; lia|]). constructor.
    + apply Hs; cbn [td_kind td_enc td_hasNulls]; [auto|reflexivity|repeat (constructor; [reflexivity|]); constructor|discriminate|discriminate|].
      intros _. split; [|exact C2]. match goal with |- Forall _ ?l => let l' := eval vm_compute in l in change l with l' end. repeat (constructor; [cbn [typed]; split; [assumption|reflexivity]|]). constructor.
  - change (columns_read three None sample_schema) with [(Td 1 LONG [] 2 false [], @None Z); (Td 2 STRING [] 2 true [], @None Z)].
    constructor; [|constructor; [|constructor]]; cbn [fst snd].
    + apply Hs; cbn [td_kind td_enc td_hasNulls]; [auto|reflexivity|repeat (constructor; [reflexivity|]); constructor| | |discriminate].
      * intros _. split; [reflexivity|]. repeat (constructor; [reflexivity|]); constructor.
      * intros _. split; [|exact C3]. match goal with |- Forall _ ?l => let l' := eval vm_compute in l in change l with l' end. repeat (constructor; [cbn [typed]; unfold is_i64; lia|]). constructor.
    + apply Hs; cbn [td_kind td_enc td_hasNulls]; [auto|reflexivity|repeat (constructor; [reflexivity|]); constructor|discriminate|discriminate|].
      intros _. split; [|exact C4]. match goal with |- Forall _ ?l => let l' := eval vm_compute in l in change l with l' end. repeat (constructor; [cbn [typed]; split; [assumption|reflexivity]|]). constructor.
Qed.
Lemma empty3_fits : fits three 3 false sample_schema empty3 /\ Cap empty3 = 3.
Proof. split; [|reflexivity]. apply (C50_created_batch_fits three sample_schema); try reflexivity. Qed.
(** The theorem applies to it. *)
Example C50_ex : exists r x, openBatches toy_inflate three file1 = Ok (r, x) /\
  delivers toy_inflate three sample_schema r x empty3 sample_tuples.
Proof.
  destruct sample_wao as (r & Hw & Hn).
  destruct (C50_all_rows_iff_partial toy_deflate toy_inflate fl zl64 10 1000 sample_schema sample_tuples file1 r three [] sample_tuples toy_ok Hw) as (x & Hx & Hall).
  - reflexivity.
  - reflexivity.
  - discriminate.
  - cbn [app concat]. rewrite app_nil_r. reflexivity.
  - exact Hn.
  - constructor; [discriminate|constructor].
  - apply (sample_storable 3). left. reflexivity.
  - exists r, x. split; [exact Hx|]. apply (Hall 3); [lia|apply empty3_fits|apply empty3_fits|discriminate|].
    split; [constructor|]. vm_compute. discriminate.
Qed.

(** *** The claim fails for a file of one row, whatever the size of the batches. *)
Definition fileOne : list Z := the (make zl64 1000 sample_schema [sample_batch (firstn 1 sample_rows)]).
Theorem C50_all_rows_refuted : exists rows file r x,
  written_and_opened toy_deflate toy_inflate fl zl64 10 1000 sample_schema rows file r /\
  openBatches toy_inflate three file = Ok (r, x) /\ rows <> [] /\
  forall c v, 0 < c -> fits three c false sample_schema v -> Cap v = c ->
    ~ delivers toy_inflate three sample_schema r x v rows /\ delivers toy_inflate three sample_schema r x v [].
Proof.
  set (rows := firstn 1 sample_tuples).
  destruct (newFileReader toy_inflate cs_hasNull unmarshalPS unmarshalFooter fileOne) as [r| |] eqn:E; [|exfalso; vm_compute in E; discriminate E..].
  assert (Hn : map NumberOfRows (fr_stripes r) = map zlen [rows]) by (vm_compute in E; injection E as <-; reflexivity).
  assert (Hw : written_and_opened toy_deflate toy_inflate fl zl64 10 1000 sample_schema rows fileOne r).
  { split; [cbn; lia|]. split; [exists sample_schema; split; [vm_compute; discriminate|reflexivity]|].
    split; [exists [sample_batch (firstn 1 sample_rows)]; split; [|apply make_closed; vm_compute; reflexivity]|].
    - assert (Hq : rows = rows ++ []) by reflexivity. rewrite Hq. constructor; [|constructor]. repeat (constructor; [reflexivity|]). constructor.
    - split; [vm_compute; reflexivity|]. split; [vm_compute; reflexivity|]. exact E. }
  assert (Hst : Forall (fun q => storable (fst q) (snd q) [rows]) (columns_read three None sample_schema)) by (apply (sample_storable 1); right; left; reflexivity).
  assert (Hne : Forall (fun l : list (row value) => l <> []) [rows]) by (constructor; [discriminate|constructor]).
  destruct (C50_all_rows_iff_partial toy_deflate toy_inflate fl zl64 10 1000 sample_schema rows fileOne r three [] rows toy_ok Hw) as (x & Hx & Hall);
    [reflexivity|reflexivity|discriminate|reflexivity|exact Hn|exact Hne|exact Hst|].
  destruct (C50_outcome toy_deflate toy_inflate fl zl64 10 1000 sample_schema rows fileOne r three [] rows toy_ok Hw) as (x' & Hx' & Hall');
    [reflexivity|reflexivity|discriminate|reflexivity|exact Hn|exact Hne|exact Hst|].
  assert (x' = x) as -> by congruence. exists rows, fileOne, r, x. split; [exact Hw|]. split; [exact Hx|]. split; [discriminate|].
  intros c v Hc Hf Hcap. change (zlen rows) with 1 in Hall. split.
  - intros Hd. apply (Hall c v Hc Hf Hcap) in Hd; [|discriminate]. destruct Hd as [_ Hd]. apply Hd. apply Zmod_0_l.
  - destruct (Hall' c v Hc Hf Hcap) as [H0 _]. specialize (H0 eq_refl). unfold delivered_last in H0. change (zlen rows - 1) with 0 in H0.
    rewrite Zmod_0_l in H0. exact H0.
Qed.
Print Assumptions C50_all_rows_refuted.

(** ** C46 *)
(** The rows of the second stripe do not come back, though no stripe has one row more than
    a multiple of the batch size: its PRESENT stream has the bits of the first (C21). *)
Definition full_row : value * value := (val (GInt64 5), val (GString [104; 105])).
Definition half_row : value * value := (val (GInt64 5), vnull).
Definition stripe1 : list (value * value) := [full_row; full_row; full_row].
Definition stripe2 : list (value * value) := [half_row; half_row; full_row].
Definition file33 : list Z := the (make zl64 5 sample_schema [sample_batch stripe1; sample_batch stripe2]).
Theorem C46_recovered_refuted : exists rows r x,
  rows = map (fun p => [(1%nat, fst p); (2%nat, snd p)]) (stripe1 ++ stripe2) /\
  written_and_opened toy_deflate toy_inflate fl zl64 10 5 sample_schema rows file33 r /\
  map NumberOfRows (fr_stripes r) = [3; 3] /\ openBatches toy_inflate three file33 = Ok (r, x) /\
  ~ delivers toy_inflate three sample_schema r x empty3 rows.
Proof.
  destruct (openBatches toy_inflate three file33) as [[r x]| |] eqn:Ex; [|exfalso; vm_compute in Ex; discriminate Ex..].
  exists (map (fun p => [(1%nat, fst p); (2%nat, snd p)]) (stripe1 ++ stripe2)), r, x. split; [reflexivity|].
  assert (E : newFileReader toy_inflate cs_hasNull unmarshalPS unmarshalFooter file33 = Ok r).
  { exact (openBatches_reader _ _ _ _ _ Ex). }
  split; [|split; [vm_compute in E; injection E as <-; reflexivity|split; [reflexivity|]]].
  - split; [cbn; lia|]. split; [exists sample_schema; split; [vm_compute; discriminate|reflexivity]|].
    split; [exists [sample_batch stripe1; sample_batch stripe2]; split; [|apply make_closed; vm_compute; reflexivity]|].
    + rewrite map_app, <- (app_nil_r (map _ stripe2)). do 2 (constructor; [repeat (constructor; [reflexivity|]); constructor|]). constructor.
    + split; [vm_compute; reflexivity|]. split; [vm_compute; reflexivity|]. exact E.
  - intros (vs & Hb & _). assert (Hq : batches toy_inflate 3 r x empty3 = Some None).
    { vm_compute in Ex. injection Ex as <- <-. vm_compute. reflexivity. }
    pose proof (batches_ok _ _ _ _ _ Hb _ _ Hq). discriminate.
Qed.
Print Assumptions C46_recovered_refuted.
