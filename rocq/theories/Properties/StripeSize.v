(** C68: the stripe size bounds what a writer holds in memory, and every stripe but the
    last reaches it. *)
From Coq Require Import ZifyBool ZifyNat.
From Verif.Model Require Import Go Chunk Stream Schema Rows Time File Column Wire Assembled.
From Verif.Spec Require Import SchemaSpec ChunkSpec FileSpec AssemblySpec StripeSizeSpec.
From Verif.Proofs Require Import Base SchemaP ChunkP FileP FileClaimsP AssembledP StripeSizeP.
From Verif.Properties Require Import Columns File.

(** ** Memory *)
(** Between two calls of Write the streams of a writer hold fewer bytes than StripeSize,
    however much was written; the schema has no dictionary-encoded strings. *)
Theorem C68_memory_partial : forall deflate F o stride P StripeSize schema vs w0 w,
  0 < StripeSize -> (forall t, Column schema t -> ~ dictionary t) ->
  newFileWriter (i_New (columns deflate F o stride)) schema = Ok w0 ->
  writeBatches (write1 deflate (columns deflate F o stride) P o StripeSize) w0 vs = Ok w ->
  total (map buffered (sw_cols w)) < StripeSize.
Proof.
  intros deflate F o stride P StripeSize schema vs w0 w Hpos Hd Hn Hw.
  pose proof (file_level deflate _ _ _ (columns deflate F o stride) P o StripeSize Hpos (new_size o) (reset_size o) _ _ _ _ Hn Hw) as Hl.
  assert (Hdir : Forall (direct o) (sw_cols w0)).
  { unfold newFileWriter in Hn. apply rbind_inv in Hn. destruct Hn as (l & Hfl & Hn). apply rbind_inv in Hn. destruct Hn as (cs & Hcs & Hn).
    match type of Hn with Ok ?x = _ => assert (w0 = x) as -> by congruence end. cbn [sw_cols].
    assert (Hall : forall t, In t l -> ~ dictionary t).
    { unfold Flat in Hfl. destruct (CheckId schema); [|discriminate]. destruct (hasUnion schema); [discriminate|].
      assert (l = flatten schema) as -> by congruence. intros t Ht. apply Hd. apply flatten_Column. exact Ht. }
    clear - Hcs Hall. revert cs Hcs. induction l as [|t r IH]; intros cs H; cbn [mapM] in H; [assert (cs = []) as -> by congruence; constructor|].
    apply rbind_inv in H. destruct H as (c & Hc & H). apply rbind_inv in H. destruct H as (cs' & Hr & H).
    assert (cs = c :: cs') as -> by congruence. constructor; [|apply IH; [|exact Hr]; intros x Hx; apply Hall; right; exact Hx].
    exact (direct_new o t c (Hall t (or_introl eq_refl)) Hc). }
  pose proof (batches_keep deflate _ _ _ (columns deflate F o stride) P o StripeSize (direct o)
    (direct_write deflate F o stride) (direct_flush deflate o) (direct_out o) (direct_reset o) _ _ _ Hw Hdir) as Hk.
  eapply Z.le_lt_trans; [|exact Hl]. rewrite sw_size_sum. apply Z.eq_le_incl. unfold total. f_equal.
  clear - Hk. induction Hk as [|c l Hc _ IH]; cbn [map]; [reflexivity|]. rewrite IH. f_equal. apply direct_size. exact Hc.
Qed.
Print Assumptions C68_memory_partial.

(** 3 rows of 22 bytes with a stripe size of 100: one chunk is compressed to 6 bytes, 2 bytes are left. *)
Definition memory_case : Z :=
  match (let! w0 := newFileWriter (i_New (columns toy_deflate fl zl64 10)) sample_schema in
         writeBatches (write1 toy_deflate (columns toy_deflate fl zl64 10) wire zl64 100) w0
           (repeat (sample_batch [(val (GInt64 5), val (GString (repeat 104 22)))]) 3)) with
  | Ok w => total (map buffered (sw_cols w)) | _ => -1 end.
Example C68_memory_case : memory_case = 8 /\ (forall t, Column sample_schema t -> ~ dictionary t).
Proof.
  split; [vm_compute; reflexivity|]. intros t Ht [_ He]. apply flatten_Column in Ht. cbn [flatten sample_schema flat_map app] in Ht.
  repeat (destruct Ht as [<-|Ht]; [discriminate He|]). destruct Ht.
Qed.

(** The strings of a dictionary-encoded column are collected outside the streams: with a
    stripe size of one byte any number of them is held, and no stripe is ever written. *)
Definition dict_schema : td := Td 0 STRUCT [[97]] 0 false [Td 1 STRING [] 3 false []].
Definition dict_batch : cvec value := CVec 0 None [CVec 1 (Some [val (GString [97])]) []].
Notation cols := (columns toy_deflate fl zl64 10).
Definition dict_column (k : nat) (c : colW) : Prop :=
  cw_kind c = KDict /\ cw_present c = None /\
  cw_data c = map (fun p => (fst p, newWriter (snd p))) (dataStreams KDict zl64) /\ cw_pending c = repeat [97] k /\
  exists mn mx sum lo up, cs_detail (cw_stats c) = Some (DString (Some mn) (Some mx) sum (Some lo) (Some up)).
Definition collecting (k : nat) (w : stripeW colW) : Prop :=
  exists c0 c, sw_cols w = [c0; c] /\ dict_column k c /\ cw_present c0 = None /\ cw_data c0 = [] /\ cw_pending c0 = [].
Lemma dict_write k c : dict_column k c ->
  exists c', c_Write toy_deflate fl zl64 10 c (val (GString [97])) = Ok c' /\ dict_column (S k) c'.
Proof.
  intros (E1 & E2 & E3 & E4 & mn & mx & sum & lo & up & E5). unfold c_Write, addStats. rewrite E1, E2, E3, E4, E5.
  cbn [isKStruct andb optM rbind val Null V puts addDetail]. change (1024 <=? zlen [97]) with false.
  cbn [writeEach dataStreams map rbind WriteIndex zl64 andb fst snd].
  eexists. split; [reflexivity|]. unfold dict_column. cbn [cw_kind cw_present cw_data cw_pending cw_stats cs_detail].
  do 3 (split; [reflexivity|]). split; [rewrite <- repeat_cons; reflexivity|]. do 5 eexists. reflexivity.
Qed.
Lemma collecting_step k w : collecting k w ->
  exists w', write1 toy_deflate cols wire zl64 1 w dict_batch = Ok w' /\ collecting (S k) w' /\ sw_infos w' = sw_infos w.
Proof.
  intros (c0 & c & E & Hc & E1 & E2 & E3). destruct (dict_write _ _ Hc) as (c' & Hw & Hc').
  assert (Ev : writeValue (i_Write cols) 0 dict_batch (sw_cols w) = Ok [c0; c']).
  { rewrite E. change (i_Write cols) with (c_Write toy_deflate fl zl64 10). unfold dict_batch. cbn [writeValue nth_error rbind].
    rewrite Hw. reflexivity. }
  assert (Es : sw_size (i_Size cols) [c0; c'] = 0).
  { destruct Hc' as (_ & F2 & F3 & _). unfold sw_size. cbn [fold_right i_Size columns]. unfold c_Size. rewrite E1, E2, F2, F3. reflexivity. }
  unfold write1, Write. change (vlen dict_batch) with 1%nat. cbn [writeLoop]. rewrite Ev. cbn [rbind]. rewrite Es. change (1 <=? 0) with false. cbv iota.
  eexists. split; [reflexivity|]. split; [|reflexivity]. exists c0, c'. auto.
Qed.
Theorem C68_memory_refuted : exists schema w0, newFileWriter (i_New cols) schema = Ok w0 /\ forall n : nat, exists vs w,
  writeBatches (write1 toy_deflate cols wire zl64 1) w0 vs = Ok w /\
  total (map buffered (sw_cols w)) = Z.of_nat n /\ sw_infos w = [].
Proof.
  exists dict_schema. eexists. split; [vm_compute; reflexivity|]. intros n. exists (repeat dict_batch n).
  match goal with |- exists w, writeBatches _ ?w0 _ = _ /\ _ => assert (H0 : collecting 0 w0 /\ sw_infos w0 = []) end.
  { split; [|reflexivity]. unfold collecting. cbn [sw_cols]. do 2 eexists. split; [reflexivity|]. split; [|auto]. split; [reflexivity|]. do 3 (split; [reflexivity|]). do 5 eexists. reflexivity. }
  assert (G : forall n k w, collecting k w /\ sw_infos w = [] -> exists w',
     writeBatches (write1 toy_deflate cols wire zl64 1) w (repeat dict_batch n) = Ok w' /\ collecting (k + n) w' /\ sw_infos w' = []).
  { clear. induction n as [|n IH]; intros k w (Hc & Hi); cbn [repeat writeBatches].
    - exists w. rewrite Nat.add_0_r. auto.
    - destruct (collecting_step _ _ Hc) as (w1 & -> & Hc1 & Hi1). cbn [rbind].
      destruct (IH (S k) w1 (conj Hc1 (eq_trans Hi1 Hi))) as (w' & H). exists w'. replace (k + S n)%nat with (S k + n)%nat by lia. exact H. }
  destruct (G n O _ H0) as (w & Hw & Hc & Hi). exists w. split; [exact Hw|]. split; [|exact Hi].
  destruct Hc as (c0 & c & E & (_ & F2 & F3 & F4 & _) & E1 & E2 & E3). rewrite E.
  cbn [map]. unfold total at 1. cbn [fold_right]. unfold buffered, col_streams. rewrite E1, E2, E3, F2, F3, F4. cbn [cw_present cw_data cw_pending app map total fold_right].
  change (map snd _) with [newWriter (EInt (IntRle.NewIntRLV2 false false)); newWriter EString; newWriter (EInt (IntRle.NewIntRLV2 false false))].
  cbn [map newWriter w_buf w_cbuf]. change (zlen (@nil Z)) with 0. cbn [Z.add fold_right].
  rewrite Nat.add_0_l. clear. unfold total. induction n as [|n IH]; [reflexivity|]. cbn [repeat map fold_right]. change (zlen [97]) with 1. lia.
Qed.
Print Assumptions C68_memory_refuted.

(** ** The sizes of the stripes *)
(** Every stripe but the last has at least StripeSize bytes of data, up to what was not
    yet compressed when the stripe was cut: at most one chunk for each stream. *)
Theorem C68_stripe_size_partial : forall deflate F o stride P StripeSize schema vs file,
  closed deflate (columns deflate F o stride) P o StripeSize schema vs file ->
  zlen file < W64 -> (forall rows, Rows vs rows -> zlen rows < W64) -> 1 <= ChunkSize o ->
  exists ft raw rest pre fb psb,
    file = pre ++ fb ++ psb ++ [u8 (zlen psb)] /\
    pb_Footer P ft = Ok raw /\ CompressingAllInChunks deflate ZLIB (ChunkSize o) raw = Ok (fb, rest) /\
    pb_PS P {| p_footerLength := zlen fb; p_compression := ZLIB; p_blockSize := u64 (ChunkSize o);
               p_metadataLength := 0 |} = Ok psb /\
    Forall (fun i => StripeSize <= DataLength i + schema_streams schema * ChunkSize o) (removelast (f_stripes ft)).
Proof.
  intros deflate F o stride P StripeSize schema vs file Hc Hf Hr Hcs.
  destruct (closed_facts deflate _ _ _ _ P o StripeSize _ _ _ (columns_contract deflate F o stride) Hc Hf Hr)
    as (schemas & cs & rows & rss & ms & csf & raw & fb & psb & H1 & H2 & H3 & H4 & H5 & H6 & H7 & H8 & Hz & (rest & H10) & H11).
  exists (closedFooter colW value colstats (i_Stats (columns deflate F o stride)) schemas rss ms csf), raw, rest,
    (Magic ++ filedata ms), fb, psb.
  split; [rewrite H7, <- app_assoc; reflexivity|]. split; [exact H8|]. split; [exact H10|]. split; [exact H11|].
  cbn [closedFooter f_stripes].
  assert (Es : total (map column_streams schemas) = schema_streams schema).
  { unfold Flat in H1. destruct (CheckId schema); [|discriminate]. destruct (hasUnion schema); [discriminate|].
    assert (schemas = flatten schema) as -> by congruence. apply flatten_total. }
  rewrite <- Es.
  pose proof (stripes_sized deflate F o stride Hz Hcs (pb_SF P) StripeSize _ _ _ _ _ _ H5 (widths_new o Hcs _ _ H2)) as H.
  assert (G : Forall (fun n => StripeSize <= n + total (map column_streams schemas) * ChunkSize o)
                (removelast (map DataLength (directory 3 rss ms)))).
  { rewrite (directory_data rss 3 ms H6), removelast_map. apply Forall_map. exact H. }
  rewrite removelast_map in G. rewrite Forall_map in G. exact G.
Qed.
Print Assumptions C68_stripe_size_partial.

(** Eight doubles at a time reach 64 bytes, which compress to 6. *)
Definition zeros_schema : td := Td 0 STRUCT [[97]] 0 false [Td 1 DOUBLE [] 0 false []].
Definition zeros_batch (n : nat) : cvec value := CVec 0 None [CVec 1 (Some (repeat (val (GDouble 0)) n)) []].
Definition zeros_file : list Z := the (make zl64 64 zeros_schema [zeros_batch 20]).
Lemma zeros_closed : closed toy_deflate cols wire zl64 64 zeros_schema [zeros_batch 20] zeros_file.
Proof. apply make_closed. vm_compute. reflexivity. Qed.
Theorem C68_stripe_size_refuted : flate_ok toy_deflate toy_inflate /\ exists schema vs file r i,
  closed toy_deflate cols wire zl64 64 schema vs file /\
  newFileReader toy_inflate cs_hasNull unmarshalPS unmarshalFooter file = Ok r /\
  In i (removelast (fr_stripes r)) /\ DataLength i = 6.
Proof.
  split; [exact toy_ok|]. exists zeros_schema, [zeros_batch 20], zeros_file.
  destruct (newFileReader toy_inflate cs_hasNull unmarshalPS unmarshalFooter zeros_file) as [r| |] eqn:E;
    [|exfalso; vm_compute in E; discriminate E..].
  exists r. vm_compute in E. injection E as <-. eexists. split; [exact zeros_closed|]. split; [reflexivity|].
  split; [left; reflexivity|reflexivity].
Qed.
Print Assumptions C68_stripe_size_refuted.

(** The rows are cut by 8, 8 and 4; the bound of the theorem is met exactly: 6 + 1 * 64. *)
Example C68_stripe_case :
  (let! r := newFileReader toy_inflate cs_hasNull unmarshalPS unmarshalFooter zeros_file in
   Ok (map (fun i => (DataLength i, NumberOfRows i)) (fr_stripes r))) = Ok [(6, 8); (6, 8); (6, 4)] /\
  schema_streams zeros_schema = 1.
Proof. split; vm_compute; reflexivity. Qed.
