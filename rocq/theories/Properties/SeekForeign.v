(** C67: Seek on files that other writers made (Spec/OrcFile.v), which record a row index
    stride. *)
From Coq Require Import ZifyBool ZifyNat.
From Verif.Model Require Import Go Chunk Stream Schema Rows Time File Column Wire Assembled.
From Verif.Spec Require Import OrcInt ChunkSpec StreamSpec SchemaSpec RowsSpec FileSpec ColumnSpec EndSpec OrcColumn OrcFile SeekFileSpec.
From Verif.Proofs Require Import Base SchemaP OrcIntP EndClaimsP OrcFileP OrcCheckP OrcSeekP.
From Verif.Properties Require Import Columns File Foreign ForeignFile.

(** What C58 asks of a file. *)
Definition readable_file (inflate : list Z -> res (list Z)) (bopt : batchOption) (schema : td)
    (xs : list (stripeFooter * list (row value))) (file : list Z) (r : fileR colstats) : Prop :=
  orc_file orc_supported nonempty inflate bopt schema xs file r /\
  supported (readerOpts r) /\ zlen file < 2 ^ 62 /\ zlen (concat (map snd xs)) < 2 ^ 62 /\
  foreign_schema bopt schema = true /\ IsInclude bopt 0 = true /\ RowSize bopt <> 0 /\
  shallow bopt schema /\ no_floats bopt schema /\
  Forall (fun x => steady bopt schema (fst x) /\ no_bloom (fst x) /\ well_shaped bopt schema (snd x)) xs.
(** Moreover, no dates, and no empty streams in a compressed file. *)
Definition seekable (inflate : list Z -> res (list Z)) (bopt : batchOption) (schema : td)
    (xs : list (stripeFooter * list (row value))) (file : list Z) (r : fileR colstats) : Prop :=
  readable_file inflate bopt schema xs file r /\ no_dates bopt schema /\ Forall (fun x => rereadable (readerOpts r) bopt (fst x)) xs.

(** Any sequence of Seeks and Nexts that is possible on the stripes' rows (Rows.v, C28, C29)
    is possible on the file, and each batch shows the rows it would have there.
    Missing: the converse, for sequences that are not, and compressed files with empty
    streams, for which the claim is not refuted (an example is below).  Refuted below:
    columns of dates. *)
Theorem C67_session_partial : forall inflate bopt schema xs file r, seekable inflate bopt schema xs file r ->
  exists x, openBatches inflate bopt file = Ok (r, x) /\
    forall c v ms out, 0 < c -> fits bopt c false schema v -> Cap v = c ->
      Moves c (i64 (fr_stride r)) (opened (map snd xs)) ms out ->
      exists vs, Client inflate r x v ms vs /\ Forall2 (fun rows w => batch_shows bopt schema w rows) out vs.
Proof.
  intros inflate bopt schema xs file r ((H1 & H2 & H3 & H4 & H5 & H6 & H7 & H8 & H9 & H11) & H10 & H12).
  destruct (orc_stands inflate bopt schema xs file r H1 H2 H3 H4 H5 H6 H7 H8 H9 H10 H11 H12) as (x & Hx & Hi & Hf & Hn & Hs & Hst).
  exists x. split; [exact Hx|]. intros c v ms out Hc Hfit Hcap Hm. exact (client_moves inflate r bopt schema Hi Hf Hn Hs c _ ms out Hc Hm x v Hst Hfit Hcap).
Qed.
Print Assumptions C67_session_partial.

(** The first Seek to a row of the file succeeds, and the batch that follows comes from the
    first stripe: it starts with the row's remainder by the stride, or with row 0 if the row
    is in another stripe.
    Missing: batches that would run over the end of the stripe (C29: on rows, an error; on
    files padding bits may be read as rows). *)
Theorem C67_seek_partial : forall inflate bopt schema xs file r l ls, seekable inflate bopt schema xs file r ->
  map snd xs = l :: ls -> 2 <= zlen (concat (l :: ls)) -> 0 < fr_stride r < 2 ^ 63 ->
  exists x, openBatches inflate bopt file = Ok (r, x) /\
    forall row, 0 <= row < zlen (concat (l :: ls)) -> exists x1, batchSeek inflate r x row = Ok x1 /\
      forall c v, 0 < c -> fits bopt c false schema v -> Cap v = c ->
        lands (fr_stride r) (zlen l) row + Z.min c (zlen l) <= zlen l ->
        exists x2 v2 e, batchNext inflate r x1 v = Ok (x2, v2, e) /\
          batch_shows bopt schema v2 (ztake (Z.min c (zlen l)) (zdrop (lands (fr_stride r) (zlen l) row) l)).
Proof.
  intros inflate bopt schema xs file r l ls Hsk El Ht Hst. destruct (C67_session_partial _ _ _ _ _ _ Hsk) as (x & Hx & Hses).
  exists x. split; [exact Hx|]. intros row Hrow. destruct Hsk as ((H1 & H2 & H3 & H4 & H5 & H6 & H7 & H8 & H9 & H11) & H10 & H12).
  destruct (orc_stands inflate bopt schema xs file r H1 H2 H3 H4 H5 H6 H7 H8 H9 H10 H11 H12) as (x' & Hx' & Hi & Hf & Hn & Hs & Hstd).
  assert (x' = x) as -> by congruence. destruct (orc_file_rows _ _ _ _ _ _ _ _ H1 H11) as [Hne _]. rewrite El in *.
  assert (Ei : i64 (fr_stride r) = fr_stride r) by (apply i64_id; unfold is_i64; change W63 with (2 ^ 63); lia).
  assert (Hrow' : 0 <= row < W64) by (change W64 with (2 ^ 64); lia).
  destruct (moves_once 1 (fr_stride r) l ls row ltac:(lia) Hst Hne ltac:(lia) Hrow) as (y1 & Hy1 & _).
  destruct (seek_stands inflate (readerOpts r) bopt schema Hi Hs (i64 (fr_stride r)) x _ row y1 Hstd Hrow') as (x1 & E1 & _); [rewrite Ei; exact Hy1|].
  exists x1. split; [exact E1|]. intros c v Hc Hfit Hcap Hl.
  destruct (moves_once c (fr_stride r) l ls row Hc Hst Hne ltac:(lia) Hrow) as (y1' & Hy1' & Hnext & _). assert (y1' = y1) as -> by (rewrite Hy1 in Hy1'; clear - Hy1'; congruence).
  destruct (Hnext Hl) as (y2 & e & Hy2).
  destruct (Hses c v [MSeek row; MNext] _ Hc Hfit Hcap ltac:(econstructor; [change (2 ^ 64) with W64; exact Hrow'|rewrite Ei; exact Hy1|econstructor; [exact Hy2|constructor]])) as (vs & HC & HF).
  inversion HC as [| |? ? x1' ? ? ? E1' HC']; subst. assert (x1' = x1) as -> by (unfold batchSeek in E1'; congruence).
  inversion HC' as [|? ? x2 v2 e2 ? ? E2 _|]; subst. inversion HF as [|? ? ? ? Hsh _]; subst. eauto.
Qed.
Print Assumptions C67_seek_partial.

(** So the batch after Seek(row) starts with that row if the row is in the first stride, and
    the batch ends within the first stripe. *)
Theorem C67_seek_in_first_stride_partial : forall inflate bopt schema xs file r l ls, seekable inflate bopt schema xs file r ->
  map snd xs = l :: ls -> 2 <= zlen (concat (l :: ls)) -> 0 < fr_stride r < 2 ^ 63 ->
  exists x, openBatches inflate bopt file = Ok (r, x) /\
    forall row, 0 <= row < fr_stride r -> forall c v, 0 < c -> fits bopt c false schema v -> Cap v = c -> row + c <= zlen l ->
    exists x1 x2 v2 e, batchSeek inflate r x row = Ok x1 /\ batchNext inflate r x1 v = Ok (x2, v2, e) /\
      batch_shows bopt schema v2 (ztake c (zdrop row (concat (map snd xs)))).
Proof.
  intros inflate bopt schema xs file r l ls Hsk El Ht Hst.
  destruct (C67_seek_partial inflate bopt schema xs file r l ls Hsk El Ht Hst) as (x & Hx & H). exists x. split; [exact Hx|].
  intros row Hrow c v Hc Hf Hcap Hl. rewrite El.
  assert (Hlen : zlen (concat (l :: ls)) = zlen l + zlen (concat ls)) by (cbn [concat]; apply zlen_app). pose proof (zlen_nonneg (concat ls)).
  destruct (H row ltac:(lia)) as (x1 & E1 & H1). assert (EL : lands (fr_stride r) (zlen l) row = row).
  { unfold lands. destruct (Z.ltb_spec row (zlen l)); [apply Z.mod_small; lia|lia]. }
  rewrite EL in H1. destruct (H1 c v Hc Hf Hcap ltac:(lia)) as (x2 & v2 & e & E2 & H2). exists x1, x2, v2, e. split; [exact E1|]. split; [exact E2|].
  rewrite Z.min_l in H2 by lia. cbn [concat]. replace (ztake c (zdrop row (l ++ concat ls))) with (ztake c (zdrop row l)); [exact H2|].
  unfold ztake, zdrop, zlen in *. rewrite skipn_app. replace (Z.to_nat row - length l)%nat with O by lia. cbn [skipn].
  rewrite firstn_app. rewrite skipn_length. replace (Z.to_nat c - (length l - Z.to_nat row))%nat with O by lia. cbn [firstn]. rewrite app_nil_r. reflexivity.
Qed.
Print Assumptions C67_seek_in_first_stride_partial.

(** ** Files *)
Definition strided (stride : Z) (bopt : batchOption) (schema : td) (l : list (list piece * list (row value))) (r : fileR colstats) : Prop :=
  fr_stride r = stride /\ seekable some_inflate bopt schema (footers schema l) (foreign_file_with stride schema l) r.
Definition read_strided (stride : Z) (bopt : batchOption) (schema : td) (l : list (list piece * list (row value))) (r : fileR colstats) : Prop :=
  fr_stride r = stride /\ readable_file some_inflate bopt schema (footers schema l) (foreign_file_with stride schema l) r.
Ltac is_read_strided E :=
  let r := fresh "r" in
  match goal with |- exists r, read_strided ?st _ ?s ?l r =>
    destruct (newFileReader some_inflate cs_hasNull unmarshalPS unmarshalFooter (foreign_file_with st s l)) as [r| |] eqn:E;
      [|exfalso; vm_compute in E; discriminate E..];
    exists r; split; [vm_compute in E; injection E as <-; reflexivity|];
    split; [apply foreign_ok; [exact E|vm_compute in E; injection E as <-..]|vm_compute in E; injection E as <-];
    [reflexivity|vm_compute; auto 20|repeat (constructor; [split; reflexivity|]); constructor|reflexivity|reflexivity
    |repeat (constructor; [vm_compute; reflexivity|]); constructor|]
  end;
  split; [split; [left; reflexivity|vm_compute; split; [discriminate|reflexivity]]|];
  split; [vm_compute; reflexivity|]; split; [vm_compute; reflexivity|]; split; [reflexivity|]; split; [reflexivity|]; split; [discriminate|];
  split; [apply checkShallow_ok; vm_compute; reflexivity|];
  split; [apply checkFloats_ok; vm_compute; reflexivity|
          repeat (constructor; [split; [apply checkSteady_ok; vm_compute; reflexivity|]; split; [apply checkBloom_ok; vm_compute; reflexivity|apply checkShaped_ok; vm_compute; reflexivity]|]); constructor].
Lemma strided_ok stride bopt schema l : (exists r, read_strided stride bopt schema l r) -> no_dates bopt schema ->
  match newFileReader some_inflate cs_hasNull unmarshalPS unmarshalFooter (foreign_file_with stride schema l) with Ok r => fr_kind r = NONE | _ => True end ->
  exists r, strided stride bopt schema l r.
Proof.
  intros (r & Hs & Hr) Hd Hk. exists r. split; [exact Hs|]. split; [exact Hr|]. split; [exact Hd|].
  destruct Hr as ((H & _) & _). rewrite H in Hk. apply Forall_forall. intros x _. apply Forall_forall. intros s _ _ _. left.
  exact Hk.
Qed.
Ltac is_strided :=
  apply strided_ok; [let E := fresh in is_read_strided E
                    |intros t p Hin; vm_compute in Hin; repeat (destruct Hin as [Hin|Hin]; [injection Hin as <- <-; discriminate|]); contradiction
                    |vm_compute; reflexivity].
Definition by_two : batchOption := {| Includes := []; RowSize := 2; NotCreateVector := false |}.

(** The file of C58 with a stride of 10 rows: seeking to row 1 and reading two rows. *)
Lemma nested_strided : exists r, strided 10 by_two nested nested_stripes r.
Proof. is_strided. Qed.
Example C67_ex : exists r x x1 x2 v2 e, openBatches some_inflate by_two (foreign_file_with 10 nested nested_stripes) = Ok (r, x) /\
  batchSeek some_inflate r x 1 = Ok x1 /\ batchNext some_inflate r x1 (first_batch by_two nested) = Ok (x2, v2, e) /\
  batch_shows by_two nested v2 [tuple vnull vnull vnull; tuple (val (GInt64 7)) (val GNil) (str [99])].
Proof.
  destruct nested_strided as (r & Es & Hs).
  destruct (C67_seek_in_first_stride_partial _ _ _ _ _ r (nth 0 (map snd nested_stripes) []) [nth 1 (map snd nested_stripes) []] Hs eq_refl) as (x & Hx & H); [vm_compute; discriminate|rewrite Es; lia|].
  destruct (H 1 ltac:(rewrite Es; lia) 2 (first_batch by_two nested)) as (x1 & x2 & v2 & e & E1 & E2 & E3); [lia|apply first_fits; reflexivity|reflexivity|vm_compute; discriminate|].
  exists r, x, x1, x2, v2, e. split; [exact Hx|]. split; [exact E1|]. split; [exact E2|exact E3].
Qed.

(** What Seek and Next give on a file: the values in column 1 of the batch after Seek(row). *)
Definition after_seek (bopt : batchOption) (schema : td) (file : list Z) (row : Z) : res (list (option gval)) :=
  let! (r, x) := openBatches some_inflate bopt file in
  let! x1 := batchSeek some_inflate r x row in
  let! (_, v, _) := batchNext some_inflate r x1 (first_batch bopt schema) in Ok (rows_of (held 1 v)).

(** Six rows in two stripes. *)
Definition six_stripes : list (list piece * list (row value)) :=
  [([(1, 1, [70; 3; 36; 104])], map (fun n => lone (val (GInt64 n))) [1; 2; 3; 4]);
   ([(1, 1, [70; 1; 172])], map (fun n => lone (val (GInt64 n))) [5; 6])].
Lemma six_strided : exists r, strided 2 by_two full_long six_stripes r.
Proof. is_strided. Qed.
(** With strides of two rows, seeking to row 3 leads to row 1, and seeking to row 4, in the
    second stripe, to row 0. *)
Theorem C67_seek_refuted : exists r, strided 2 by_two full_long six_stripes r /\
  rows_of (column_of 1 (rows_in six_stripes)) = map (fun n => Some (GInt64 n)) [1; 2; 3; 4; 5; 6] /\
  after_seek by_two full_long (foreign_file_with 2 full_long six_stripes) 3 = Ok [Some (GInt64 2); Some (GInt64 3)] /\
  after_seek by_two full_long (foreign_file_with 2 full_long six_stripes) 4 = Ok [Some (GInt64 1); Some (GInt64 2)].
Proof. destruct six_strided as (r & Hr). exists r. split; [exact Hr|]. repeat split; vm_compute; reflexivity. Qed.
Print Assumptions C67_seek_refuted.

(** A column of dates has no row index entry to start from, not even that of the first row. *)
Definition dated : td := Td 0 STRUCT [[97]] 0 false [Td 1 DATE [] 2 false []].
Definition dated_stripes : list (list piece * list (row value)) :=
  [([(1, 1, [70; 3; 36; 104])], map (fun n => lone (val (GDate (FromDays n)))) [1; 2; 3; 4])].
Theorem C67_dates_refuted : exists r, read_strided 10 by_two dated dated_stripes r /\
  forall row, 0 <= row < 4 -> after_seek by_two dated (foreign_file_with 10 dated dated_stripes) row = Err.
Proof.
  assert (H : exists r, read_strided 10 by_two dated dated_stripes r) by is_read_strided E. destruct H as (r & Hr). exists r. split; [exact Hr|].
  intros row H. assert (row = 0 \/ row = 1 \/ row = 2 \/ row = 3) as [ -> | [ -> | [ -> | -> ]]] by lia; vm_compute; reflexivity.
Qed.
Print Assumptions C67_dates_refuted.

(** A compressed file (its chunks are stored as they are) with a column of nulls, whose DATA
    stream is empty: [seekable] excludes it, but seeking works here. *)
Definition stored (b : list Z) : list Z := match b with [] => [] | _ => [(2 * zlen b + 1) mod 256; (2 * zlen b + 1) / 256; 0] ++ b end.
Definition stored_file (stride : Z) (schema : td) (ps : list piece) (rows : Z) : list Z :=
  let ps := map (fun p : piece => (fst p, stored (snd p))) ps in
  let data := concat (map snd ps) in
  let sf := stored (the (marshalSF (footer_of schema ps))) in
  let fb := stored (the (marshalFooter {| f_headerLength := 3; f_contentLength := zlen (data ++ sf);
              f_stripes := [{| Offset := 3; IndexLength := 0; DataLength := zlen data; FooterLength := zlen sf; NumberOfRows := rows |}];
              f_types := SchemasToTypes (flatten schema); f_rows := rows;
              f_stats := map (fun t => nulls_of (td_hasNulls t)) (flatten schema); f_stride := stride |})) in
  let pb := the (marshalPS {| p_footerLength := zlen fb; p_compression := ZLIB; p_blockSize := 64; p_metadataLength := 0 |}) in
  [79; 82; 67] ++ data ++ sf ++ fb ++ pb ++ [zlen pb].
Definition nulls_file (data : list Z) : list Z := stored_file 10 one_long [(1, 0, [255; 0]); (1, 1, data)] 4.
Example C67_empty_stream_ex :
  (let! (r, x) := openBatches some_inflate by_two (nulls_file []) in
   Ok (option_map (option_map (fun vs => rows_of (flat_map (held 1) vs))) (batches some_inflate 10 r x (first_batch by_two one_long))))
    = Ok (Some (Some [None; None; None; None])) /\
  after_seek by_two one_long (nulls_file []) 0 = Ok [None; None].
Proof. split; vm_compute; reflexivity. Qed.

(** Going forward and back, with the row after the seek in the first stride. *)
Example C67_session_ex : exists r x vs, openBatches some_inflate by_two (foreign_file_with 2 full_long six_stripes) = Ok (r, x) /\
  Client some_inflate r x (first_batch by_two full_long) [MSeek 1; MNext; MSeek 0; MNext] vs /\
  map (fun v => rows_of (held 1 v)) vs = [[Some (GInt64 2); Some (GInt64 3)]; [Some (GInt64 1); Some (GInt64 2)]].
Proof.
  destruct six_strided as (r & Es & Hs). destruct (C67_session_partial _ _ _ _ _ _ Hs) as (x & Hx & H). exists r, x.
  destruct (H 2 (first_batch by_two full_long) [MSeek 1; MNext; MSeek 0; MNext]
    [map (fun n => lone (val (GInt64 n))) [2; 3]; map (fun n => lone (val (GInt64 n))) [1; 2]]) as (vs & HC & HF); [lia|apply first_fits; reflexivity|reflexivity| |].
  - rewrite Es. change (i64 2) with 2. eapply MovesSeek; [lia|vm_compute; reflexivity|]. eapply MovesNext; [vm_compute; reflexivity|].
    eapply MovesSeek; [lia|vm_compute; reflexivity|]. eapply MovesNext; [vm_compute; reflexivity|]. constructor.
  - exists vs. split; [exact Hx|]. split; [exact HC|].
    assert (G : forall rows w, batch_shows by_two full_long w rows -> rows_of (held 1 w) = rows_of (column_of 1 rows)).
    { intros rows w Hw. apply (Hw (Td 1 LONG [] 2 false []) None). vm_compute. left. reflexivity. }
    inversion HF as [|? a ? q Ha Hq]; subst. inversion Hq as [|? b ? q' Hb Hq']; subst. inversion Hq'; subst. cbn [map]. rewrite (G _ _ Ha), (G _ _ Hb). reflexivity.
Qed.
