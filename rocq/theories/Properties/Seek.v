(** C24: seeking a column reader to a stride of the row index. *)
From Coq Require Import ZifyBool ZifyNat.
From Verif.Model Require Import Go Codec ByteBool IntRle Chunk Stream Time File Column.
From Verif.Spec Require Import BoolSpec Session ChunkSpec StreamSpec IntSpec ColumnSpec SeekSpec.
From Verif.Proofs Require Import Base StreamP ReadP ColumnP ColumnReadP StatsP SeekP.
From Verif.Properties Require Import Columns Stats.

(** Every recorded stride [s], and 0, leads to row [s * m], from wherever the reader is;
    a following Skip counts from there.  Missing: the streams for which positions do not
    lead back ([seekable], see the refutations below), integer sequences outside C12
    ([ints_ok]), and stride 0 of a date column. *)
Theorem C24_seek_partial : forall deflate inflate o F m id k hn vs bs infos c3,
  supported o -> flate_ok deflate inflate -> WriteIndex o = true -> (1 <= m)%nat -> readable k = true ->
  writeColumn deflate F o (Z.of_nat m) (newColW o id k hn) vs = Ok (bs, infos, c3) ->
  Forall (typed k) (nonnull (rows_of vs)) -> ints_ok k (nonnull (rows_of vs)) -> zlen vs < W63 ->
  (hn = false -> Forall (fun v => Null v = false) vs) -> Forall (seekable o) infos ->
  length (cw_index c3) = (length vs / m)%nat /\
  forall pre post, zlen (pre ++ bs ++ post) < W64 ->
  exists r, InitStreams (pre ++ bs ++ post) (newColR k hn) (offsets (zlen pre) infos) = Ok r /\
  forall ops r1, rops inflate o (setIndex (map fst (cw_index c3)) r) ops = Ok r1 ->
  forall s n, (s <= length (cw_index c3))%nat -> (s = 0%nat -> k <> KDate) -> (s * m + n <= length vs)%nat ->
  exists r2 r3, SeekStride inflate o (Z.of_nat s) r1 = Ok r2 /\ Skip inflate o (Z.of_nat n) r2 = Ok r3 /\
    delivers_from inflate o hn r3 (skipn (s * m + n) (rows_of vs)).
Proof.
  intros deflate inflate o F m id k hn vs bs infos c3 Ho Hok Hwi Hm Hr Hw Hty Hint Hlen Hnn Hsk.
  assert (Hil : length (cw_index c3) = (length vs / m)%nat).
  { pose proof Hw as Hw'. unfold writeColumn in Hw'. apply rbind_inv in Hw'. destruct Hw' as (c1 & H1 & Hw'). apply rbind_inv in Hw'. destruct Hw' as (c2 & H2 & Hw').
    apply rbind_inv in Hw'. destruct Hw' as ([[bs' n] c3'] & H3 & Hw'). assert (c3' = c3) as -> by congruence.
    rewrite (c_WriteOut_index _ _ _ _ _ H3), (c_Flush_index _ _ _ _ H2).
    apply (index_entries deflate F o m Hm Hwi id k hn ltac:(destruct k; try discriminate Hr; reflexivity) vs c1 H1). }
  split; [exact Hil|]. intros pre post Hfile.
  destruct (SeekStride_recorded deflate inflate o Ho Hok Hwi F m Hm id k hn vs bs infos c3 Hr Hw Hty Hint Hlen Hnn Hsk pre post Hfile)
    as (r & Hi & Hall).
  exists r. split; [exact Hi|]. intros ops r1 Hops s n Hs Hs0 Hn. rewrite Hil in Hs.
  destruct (Hall ops r1 Hops s Hs Hs0) as (r2 & rest & H2 & Hk2 & Hp2 & Hy). exists r2.
  assert (Hlr : length (rows_of vs) = length vs) by (unfold rows_of; apply map_length).
  destruct (skipRows_yields inflate o n r2 _ ltac:(rewrite Hk2; exact Hr) Hy) as (r3 & H3 & Hy3).
  { rewrite app_length, skipn_length, Hlr. lia. }
  exists r3. split; [exact H2|]. split.
  { unfold Skip. rewrite i64_id by (unfold is_i64, zlen in *; lia). rewrite Nat2Z.id. exact H3. }
  assert (Hb3 : Same r2 r3) by (eapply skipRows_base; exact H3).
  assert (Hk3 : cr_kind r3 = k) by (rewrite (same_kind _ _ Hb3); exact Hk2).
  assert (Hp3 : cr_present r3 = None -> hn = false).
  { intros E. apply Hp2. pose proof (same_present _ _ Hb3) as Hpp. rewrite E in Hpp. destruct (cr_present r2); [discriminate|reflexivity]. }
  assert (Hrw : skipn n (skipn (s * m) (rows_of vs) ++ rest) = skipn (s * m + n) (rows_of vs) ++ rest).
  { rewrite skipn_app. replace (n - length (skipn (s * m) (rows_of vs)))%nat with 0%nat by (rewrite skipn_length, Hlr; lia).
    cbn [skipn]. f_equal. clear. revert n. generalize (rows_of vs). induction (s * m)%nat as [|x IH]; intros l n; [reflexivity|].
    destruct l; [rewrite !skipn_nil; reflexivity|]. cbn [skipn Nat.add]. apply IH. }
  rewrite Hrw in Hy3. intros vecs Hvl Hvn.
  destruct (readBatches_rows inflate o vecs r3 _ ltac:(rewrite Hk3; exact Hr) ltac:(auto) Hy3) as (outs & c' & Ho' & Hm').
  { rewrite app_length. lia. }
  exists outs, c'. split; [exact Ho'|]. rewrite Hm'. clear - Hvl. revert Hvl. generalize (skipn (s * m + n) (rows_of vs)).
  induction vecs as [|v t IH]; intros l Hvl; [reflexivity|]. cbn [cut concat] in *. rewrite app_length in Hvl.
  rewrite firstn_app, skipn_app. replace (length v - length l)%nat with 0%nat by lia. cbn [firstn skipn]. rewrite app_nil_r. f_equal.
  apply IH. rewrite skipn_length. lia.
Qed.
Print Assumptions C24_seek_partial.

(** With compression: whenever there is a value, and among strings one that is not empty,
    all streams are seekable. *)
Theorem C24_seek_compressed_partial : forall deflate inflate o F m id k hn vs bs infos c3,
  supported o -> flate_ok deflate inflate -> WriteIndex o = true -> CompressionKind o = ZLIB -> (1 <= m)%nat -> readable k = true ->
  writeColumn deflate F o (Z.of_nat m) (newColW o id k hn) vs = Ok (bs, infos, c3) ->
  Forall (typed k) (nonnull (rows_of vs)) -> ints_ok k (nonnull (rows_of vs)) -> zlen vs < W63 ->
  (hn = false -> Forall (fun v => Null v = false) vs) -> stocked k (nonnull (rows_of vs)) ->
  forall pre post, zlen (pre ++ bs ++ post) < W64 ->
  exists r, InitStreams (pre ++ bs ++ post) (newColR k hn) (offsets (zlen pre) infos) = Ok r /\
  forall ops r1, rops inflate o (setIndex (map fst (cw_index c3)) r) ops = Ok r1 ->
  forall s n, (s <= length vs / m)%nat -> (s = 0%nat -> k <> KDate) -> (s * m + n <= length vs)%nat ->
  exists r2 r3, SeekStride inflate o (Z.of_nat s) r1 = Ok r2 /\ Skip inflate o (Z.of_nat n) r2 = Ok r3 /\
    delivers_from inflate o hn r3 (skipn (s * m + n) (rows_of vs)).
Proof.
  intros deflate inflate o F m id k hn vs bs infos c3 Ho Hok Hwi Hz Hm Hr Hw Hty Hint Hlen Hnn Hst pre post Hfile.
  pose proof (stocked_seekable deflate inflate o Ho Hok Hwi Hz F (Z.of_nat m) id k hn vs bs infos c3 Hr Hw Hty Hint Hlen Hst) as Hsk.
  destruct (C24_seek_partial deflate inflate o F m id k hn vs bs infos c3 Ho Hok Hwi Hm Hr Hw Hty Hint Hlen Hnn Hsk) as [Hil Hall].
  rewrite Hil in Hall. exact (Hall pre post Hfile).
Qed.
Print Assumptions C24_seek_compressed_partial.

(** A stride that is not recorded: an error below 0 and without an index, and a panic
    beyond the end of the index. *)
Theorem C24_out_of_range : forall inflate o c stride l, cr_index c = Some l -> zlen l < stride ->
  SeekStride inflate o stride c = Panic.
Proof.
  intros inflate o c stride l Hi Hs. unfold SeekStride. pose proof (zlen_nonneg l).
  replace (stride =? 0) with false by lia. cbn [andb]. unfold strideEntry. rewrite Hi.
  replace (stride <? 1) with false by lia.
  destruct (nth_error l (Z.to_nat (stride - 1))) eqn:E; [|reflexivity].
  assert (Z.to_nat (stride - 1) < length l)%nat by (apply nth_error_Some; congruence). unfold zlen in *. lia.
Qed.
Print Assumptions C24_out_of_range.
Theorem C24_no_entry : forall inflate o c stride, stride < 0 \/ (stride <> 0 /\ cr_index c = None) ->
  SeekStride inflate o stride c = Err.
Proof.
  intros inflate o c stride H. unfold SeekStride. replace (stride =? 0) with false by lia. cbn [andb]. unfold strideEntry.
  destruct (cr_index c) as [l|]; [|reflexivity]. destruct H as [H|[_ H]]; [|discriminate].
  replace (stride <? 1) with true by lia. reflexivity.
Qed.
Print Assumptions C24_no_entry.
(** Stride 0 of a date column is always an error. *)
Theorem C24_date_first_stride : forall inflate o c, cr_kind c = KDate -> SeekStride inflate o 0 c = Err.
Proof. intros inflate o c H. unfold SeekStride. rewrite H. cbn [Z.eqb andb negb]. unfold strideEntry. destruct (cr_index c); reflexivity. Qed.
Print Assumptions C24_date_first_stride.

(** Write the rows with an index of stride 2, read a batch of one row, seek, read. *)
Definition seek_trip (o : opts) (k : ckind) (hn : bool) (vs : list value) (stride : Z) (n : nat) : res (list (option gval)) :=
  let! (bs, infos, c) := writeColumn toy_deflate fl o 2 (newColW o 3 k hn) vs in
  let! r := InitStreams ([1; 2; 3] ++ bs ++ [4]) (newColR k hn) (offsets 3 infos) in
  let! r1 := rops toy_inflate o (setIndex (map fst (cw_index c)) r) [RRead (blank 1)] in
  let! r2 := SeekStride toy_inflate o stride r1 in
  let! (outs, _) := readBatches toy_inflate o r2 [blank n] in Ok (concat (map rows_of outs)).
Definition ni64 : opts := {| CompressionKind := NONE; ChunkSize := 64; WriteIndex := true |}.
Definition ni4 : opts := {| CompressionKind := NONE; ChunkSize := 4; WriteIndex := true |}.
Definition some_rows : list value := [val (GInt32 7); vnull; val (GInt32 8); val (GInt32 9); vnull; val (GInt32 7); val (GInt32 1)].

Example C24_case : ints_ok KInt (nonnull (rows_of some_rows)) /\ Forall (typed KInt) (nonnull (rows_of some_rows)) /\
  stocked KInt (nonnull (rows_of some_rows)) /\
  seek_trip zi64 KInt true some_rows 2 3 = Ok [None; Some (GInt32 7); Some (GInt32 1)] /\
  seek_trip ni64 KInt true some_rows 3 1 = Ok [Some (GInt32 1)] /\
  seek_trip zi64 KInt true some_rows 0 7 = Ok (rows_of some_rows).
Proof.
  split; [vm_compute; reflexivity|]. split.
  { cbn [some_rows rows_of row_of map nonnull flat_map app Null V val vnull]. repeat (apply Forall_cons; [hnf; lia|]). apply Forall_nil. }
  split; [split; [discriminate|discriminate]|]. split; [vm_compute; reflexivity|]. split; vm_compute; reflexivity.
Qed.
Example C24_case_string :
  seek_trip zi64 KString true [val (GString [1; 2]); vnull; val (GString []); val (GString [3]); val (GString [4; 5])] 1 3
    = Ok [Some (GString []); Some (GString [3]); Some (GString [4; 5])] /\
  seek_trip ni64 KBool false (map (fun b => val (GBool b)) [true; true; false; true; true; false; false]) 2 3
    = Ok [Some (GBool true); Some (GBool false); Some (GBool false)].
Proof. split; vm_compute; reflexivity. Qed.

Theorem C24_out_of_range_refuted : seek_trip zi64 KInt true some_rows 4 1 = Panic.
Proof. vm_compute. reflexivity. Qed.
Print Assumptions C24_out_of_range_refuted.
(** Without compression, strides after the first chunk of a stream are lost. *)
Theorem C24_uncompressed_refuted : exists vs s, (1 <= s <= length vs / 2)%nat /\ zlen vs < 20 /\
  Forall (typed KDouble) (nonnull (rows_of vs)) /\
  seek_trip ni4 KDouble false vs 0 (length vs) = Ok (rows_of vs) /\
  seek_trip ni4 KDouble false vs (Z.of_nat s) 1 = Ok [Some (GDouble 8589934592)] /\
  firstn 1 (skipn (2 * s) (rows_of vs)) = [Some (GDouble 3)].
Proof.
  exists (map (fun x => val (GDouble x)) [1; 2; 3; 4]), 1%nat.
  split; [vm_compute; lia|]. split; [vm_compute; reflexivity|]. split.
  { cbn [rows_of row_of map nonnull flat_map app Null V val vnull]. repeat (apply Forall_cons; [hnf; lia|]). apply Forall_nil. }
  split; [vm_compute; reflexivity|]. split; vm_compute; reflexivity.
Qed.
Print Assumptions C24_uncompressed_refuted.
(** With compression, a column whose rows are all null cannot be positioned: the seek
    reads what follows the empty stream. *)
Theorem C24_all_null_refuted : seek_trip zi64 KInt true (repeat vnull 4) 1 2 = Err /\
  trip zi64 KInt true (repeat vnull 4) [blank 4] = Ok [repeat None 4].
Proof. split; vm_compute; reflexivity. Qed.
Print Assumptions C24_all_null_refuted.
