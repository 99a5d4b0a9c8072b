(** C21, C22, C37, C39, C40, C43, C45: columns written row by row and read back.

    Assumption on the DEFLATE library: flate_ok (and flate_total for the claims that
    writing succeeds), Spec/ChunkSpec.v.  Assumption on values: [typed] (the Go type) and,
    for columns stored with the integer codec, [carried] (the codec loses nothing, C12). *)
From Coq Require Import Sorted.
From Verif.Model Require Import Go Codec ByteBool IntRle Chunk Stream Time File Column.
From Verif.Spec Require Import BoolSpec Session Bits IntSpec OrcInt ChunkSpec StreamSpec ColumnSpec OrcColumn.
From Verif.Proofs Require Import Base IntStreamP IntClaimsP ChunkP StreamP StreamClaimsP ReadP ColumnP ColumnReadP ColumnTotalP ColumnFaultsP OrcIntP OrcColumnP OrcCheckP IntNearP.

Definition zl64 : opts := {| CompressionKind := ZLIB; ChunkSize := 64; WriteIndex := false |}.
Definition no64 : opts := {| CompressionKind := NONE; ChunkSize := 64; WriteIndex := false |}.
(** Some float64 arithmetic, for the examples. *)
Definition fl : floats := {| f_add := Z.add; f_lt := Z.ltb; f_widen := fun x => x; f_parse := fun _ => Err;
  f_format := fun _ => []; f_decimal := fun p _ => p; f_text := fun _ _ => [] |}.
Definition vnull : value := {| Null := true; V := GNil |}.
Definition val (g : gval) : value := {| Null := false; V := g |}.

(** ** C45 *)
(** Whatever a column writer stores comes back, in batches of any sizes, through a reader
    opened at the offsets of its streams, wherever in the file the column is. *)
Theorem C45_round_trip_partial : forall deflate inflate o, supported o -> flate_ok deflate inflate ->
  forall F stride id k hn vs bs infos c3, readable k = true ->
  Forall (typed k) (nonnull (rows_of vs)) ->
  (hn = false -> Forall (fun v => Null v = false) vs) ->
  carried k (nonnull (rows_of vs)) ->
  writeColumn deflate F o stride (newColW o id k hn) vs = Ok (bs, infos, c3) ->
  reads_back inflate o k hn bs infos (rows_of vs).
Proof. exact column_round_trip. Qed.
Print Assumptions C45_round_trip_partial.

(** And it is stored: no option makes the writer fail, except a row index on a float32
    column. *)
Theorem C45_write_total_partial : forall deflate o, supported o -> flate_total deflate ->
  forall F stride id k hn vs, readable k = true -> (WriteIndex o = true -> k <> KFloat) ->
  Forall (typed k) (nonnull (rows_of vs)) -> carried k (nonnull (rows_of vs)) ->
  exists bs infos c3, writeColumn deflate F o stride (newColW o id k hn) vs = Ok (bs, infos, c3).
Proof. exact column_total. Qed.
Print Assumptions C45_write_total_partial.

(** Later stripes of the same writer: the rows come back if every stripe before the last
    has a multiple of eight rows (or the column has no nulls) and, in a boolean column,
    a multiple of eight values. *)
Theorem C45_stripes_partial : forall deflate inflate o, supported o -> flate_ok deflate inflate ->
  forall F stride id k hn segs out, readable k = true ->
  Forall (fun vs => Forall (typed k) (nonnull (rows_of vs)) /\ carried k (nonnull (rows_of vs))) segs ->
  (hn = false -> Forall (fun vs => Forall (fun v => Null v = false) vs) segs) ->
  (hn = true -> Forall (fun vs => (length vs mod 8 = 0)%nat) (removelast segs)) ->
  (k = KBool -> Forall (fun vs => (length (nonnull (rows_of vs)) mod 8 = 0)%nat) (removelast segs)) ->
  writeStripes deflate F o stride (newColW o id k hn) segs = Ok out ->
  Forall2 (fun q vs => reads_back inflate o k hn (fst q) (snd q) (rows_of vs)) out segs.
Proof. exact column_stripes_round_trip. Qed.
Print Assumptions C45_stripes_partial.

(** When the integer codec carries a column: the condition of C12, and its two families. *)
Theorem C45_carried_partial : forall (signed : bool) xs, Forall (is_int signed) xs ->
  stream_ok (NewIntRLV2 signed false) xs = true -> int_carried signed xs.
Proof.
  intros signed xs Hi Hok.
  destruct (int_lossless_all signed false [xs]) as (os & Hseg & Hd); [constructor; [exact Hi|constructor]|constructor; [exact Hok|constructor]|].
  inversion Hd as [|b vs os' t Hb Ht]; subst. inversion Ht; subst.
  cbn [Session.segments] in Hseg. apply rbind_inv in Hseg. destruct Hseg as ([e b'] & Hs & Hseg). exists e, b'. split; [exact Hs|].
  cbn [rbind] in Hseg. assert (b' = b) as -> by congruence. exact Hb.
Qed.
Print Assumptions C45_carried_partial.

(** Write the rows as one stripe, place it at offset 3 of a file, open it, read the
    batches [vecs]. *)
Definition trip (o : opts) (k : ckind) (hn : bool) (vs : list value) (vecs : list (list value))
  : res (list (list (option gval))) :=
  let! (bs, infos, _) := writeColumn toy_deflate fl o 10 (newColW o 3 k hn) vs in
  let! r := InitStreams ([1; 2; 3] ++ bs ++ [4]) (newColR k hn) (offsets 3 infos) in
  let! (outs, _) := readBatches toy_inflate o r vecs in Ok (map rows_of outs).
(** The same for the second of two stripes. *)
Definition trip2 (o : opts) (k : ckind) (hn : bool) (vs1 vs2 : list value) (vecs : list (list value))
  : res (list (list (option gval))) :=
  let! out := writeStripes toy_deflate fl o 10 (newColW o 3 k hn) [vs1; vs2] in
  match out with
  | [_; (bs, infos)] =>
      let! r := InitStreams ([1; 2; 3] ++ bs ++ [4]) (newColR k hn) (offsets 3 infos) in
      let! (outs, _) := readBatches toy_inflate o r vecs in Ok (map rows_of outs)
  | _ => Err
  end.
Definition blank (n : nat) : list value := repeat (val GNil) n.

(** A concrete nullable int column, read in two batches, one with leftovers in it. *)
Example C45_case :
  let vs := [val (GInt32 7); vnull; val (GInt32 (-9)); val (GInt32 70000); vnull] in
  stream_ok (NewIntRLV2 true false) [7; -9; 70000] = true /\ supported zl64 /\
  trip zl64 KInt true vs [blank 2; [vnull; val (GInt32 5); val GNil]]
    = Ok [[Some (GInt32 7); None]; [Some (GInt32 (-9)); Some (GInt32 70000); None]].
Proof. split; [vm_compute; reflexivity|]. split; [split; [right; reflexivity|cbn; lia]|]. vm_compute. reflexivity. Qed.

(** Outside these bounds it is false: the second stripe after a stripe of one row, and
    the kinds of C37, C40, C43. *)
Theorem C45_round_trip_refuted : exists vs1 vs2,
  Forall (typed KInt) (nonnull (rows_of vs2)) /\ carried KInt (nonnull (rows_of vs2)) /\
  rows_of vs2 = [None; Some (GInt32 5)] /\
  trip2 zl64 KInt true vs1 vs2 [blank 1] = Ok [[Some (GInt32 5)]].
Proof.
  exists [val (GInt32 7)], [vnull; val (GInt32 5)]. split; [constructor; [cbn; lia|constructor]|].
  split; [apply C45_carried_partial; [constructor; [cbn; unfold is_i64; lia|constructor]|vm_compute; reflexivity]|].
  split; [reflexivity|]. vm_compute. reflexivity.
Qed.
Print Assumptions C45_round_trip_refuted.

(** ** C21 *)
(** Nulls in place: a nullable column of any readable kind, first stripe (the general
    case is C45_round_trip_partial with [hn = true]). *)
Theorem C21_nulls_in_place_partial : forall deflate inflate o, supported o -> flate_ok deflate inflate -> flate_total deflate ->
  forall F stride id k vs, readable k = true -> (WriteIndex o = true -> k <> KFloat) ->
  Forall (typed k) (nonnull (rows_of vs)) -> carried k (nonnull (rows_of vs)) ->
  exists bs infos c3, writeColumn deflate F o stride (newColW o id k true) vs = Ok (bs, infos, c3) /\
    reads_back inflate o k true bs infos (rows_of vs).
Proof.
  intros deflate inflate o Ho Hok Htot F stride id k vs Hr Hwi Hty Hca.
  destruct (column_total deflate o Ho Htot F stride id k true vs Hr Hwi Hty Hca) as (bs & infos & c3 & Hw).
  exists bs, infos, c3. split; [exact Hw|].
  apply (column_round_trip deflate inflate o Ho Hok F stride id k true vs bs infos c3); auto. discriminate.
Qed.
Print Assumptions C21_nulls_in_place_partial.

(** Every stripe, whatever the number of rows: what comes back is the rows merged from
    the stored presence bits, in which the bits left over from the previous stripe's
    last byte are set as well. *)
Theorem C21_stripes_exact_partial : forall deflate inflate o, supported o -> flate_ok deflate inflate ->
  forall F stride segs id k hn out, readable k = true ->
  Forall (fun vs => Forall (typed k) (nonnull (rows_of vs)) /\ carried k (nonnull (rows_of vs))) segs ->
  writeStripes deflate F o stride (newColW o id k hn) segs = Ok out ->
  Forall2 (fun q rows => reads_back inflate o k hn (fst q) (snd q) rows) out (stripesBack k hn [] [] segs).
Proof.
  intros deflate inflate o Ho Hok F stride segs id k hn out Hr Hall H.
  destruct (Clean_new o id k hn Hr) as (its & Hc & Hsp & Hsd).
  assert (Hhn : hasNulls (newColW o id k hn) = hn) by (destruct hn; reflexivity).
  pose proof (stripes_read_back deflate inflate o Ho Hok F stride segs _ its out Hc Hr Hall H) as H1.
  rewrite Hhn in H1. cbn [newColW cw_kind] in H1. rewrite Hsp, Hsd in H1. exact H1.
Qed.
Print Assumptions C21_stripes_exact_partial.

Theorem C21_nulls_in_place_refuted : exists vs1 vs2,
  trip2 zl64 KByte true vs1 vs2 [blank 1] = Ok [[Some (GByte 9)]] /\
  rows_of vs2 = [None; Some (GByte 9)] /\
  trip zl64 KByte true vs2 [blank 2] = Ok [[None; Some (GByte 9)]].
Proof. exists [val (GByte 1)], [vnull; val (GByte 9)]. split; [vm_compute; reflexivity|]. split; vm_compute; reflexivity. Qed.
Print Assumptions C21_nulls_in_place_refuted.

Example C21_case : trip no64 KString true [vnull; vnull; val (GString [104; 105]); vnull; val (GString [106; 106; 106])] [blank 1; blank 4]
  = Ok [[None]; [None; Some (GString [104; 105]); None; Some (GString [106; 106; 106])]].
Proof. vm_compute. reflexivity. Qed.

(** ** C22 *)
(** In a column without HasNulls a null row is dropped: the column stores exactly what it
    would store without that row, and no error is reported. *)
Theorem C22_null_dropped : forall deflate F o stride c v, WriteIndex o = false -> hasNulls c = false ->
  isKStruct (cw_kind c) = false -> Null v = true -> exists c', c_Write deflate F o stride c v = Ok c' /\
  streams c' = streams c /\ cw_stats c' = cw_stats c.
Proof.
  intros deflate F o stride c v Hi Hn Hk Hv. unfold c_Write. rewrite Hk, Hi, Hv. cbn [andb].
  unfold hasNulls in Hn. destruct (cw_present c) eqn:Ep; [discriminate|]. cbn [optM rbind].
  eexists. split; [reflexivity|]. split; [|reflexivity]. unfold streams. cbn [cw_present cw_data]. rewrite Ep. reflexivity.
Qed.
Print Assumptions C22_null_dropped.
Theorem C22_null_lost_refuted : exists vs, rows_of vs = [None; Some (GByte 9)] /\
  trip zl64 KByte false vs [blank 1] = Ok [[Some (GByte 9)]] /\
  trip zl64 KByte false vs [blank 2] = Err.
Proof. exists [vnull; val (GByte 9)]. split; [reflexivity|]. split; vm_compute; reflexivity. Qed.
Print Assumptions C22_null_lost_refuted.
(** With HasNulls every null is stored in its row, and as many rows as were written (first
    stripe: C21_nulls_in_place_partial). *)
Theorem C22_null_stored_partial : forall deflate inflate o, supported o -> flate_ok deflate inflate -> flate_total deflate ->
  forall F stride id k vs, readable k = true -> (WriteIndex o = true -> k <> KFloat) ->
  Forall (typed k) (nonnull (rows_of vs)) -> carried k (nonnull (rows_of vs)) ->
  exists bs infos c3, writeColumn deflate F o stride (newColW o id k true) vs = Ok (bs, infos, c3) /\
    forall pre post, zlen (pre ++ bs ++ post) < W64 ->
    exists r out r', InitStreams (pre ++ bs ++ post) (newColR k true) (offsets (zlen pre) infos) = Ok r /\
      NextBatch inflate o r (blank (length vs)) = Ok (out, r') /\ map Null out = map Null vs.
Proof.
  intros deflate inflate o Ho Hok Htot F stride id k vs Hr Hwi Hty Hca.
  destruct (C21_nulls_in_place_partial deflate inflate o Ho Hok Htot F stride id k vs Hr Hwi Hty Hca) as (bs & infos & c3 & Hw & Hb).
  exists bs, infos, c3. split; [exact Hw|]. intros pre post Hl. destruct (Hb pre post Hl) as (r & Hi & Hv).
  destruct (Hv [blank (length vs)]) as (outs & r' & Ho' & Hm).
  { cbn [concat]. rewrite app_nil_r. unfold blank, rows_of. rewrite repeat_length, map_length. apply le_n. }
  { discriminate. }
  cbn [readBatches] in Ho'. apply rbind_inv in Ho'. destruct Ho' as ([out r1] & Hn & Ho'). cbn [rbind] in Ho'.
  assert (outs = [out]) as -> by congruence. exists r, out, r1. split; [exact Hi|]. split; [exact Hn|].
  cbn [map cut] in Hm. unfold blank in Hm. rewrite repeat_length in Hm.
  assert (E : rows_of out = rows_of vs).
  { rewrite firstn_all2 in Hm by (unfold rows_of; rewrite map_length; apply le_n). congruence. }
  assert (Hnull : forall l, map Null l = map (fun x => match x with None => true | _ => false end) (rows_of l)).
  { intros l. unfold rows_of. rewrite map_map. apply map_ext. intros v. unfold row_of. destruct (Null v); reflexivity. }
  rewrite !Hnull, E. reflexivity.
Qed.
Print Assumptions C22_null_stored_partial.
Example C22_case : trip zl64 KByte true [vnull; val (GByte 9)] [blank 2] = Ok [[None; Some (GByte 9)]].
Proof. vm_compute. reflexivity. Qed.

(** ** C37 *)
(** No batch ever receives a value from a timestamp or decimal column: what is in V
    afterwards is what was there before. *)
Theorem C37_never_stored : forall inflate o vec c out c', (cr_kind c = KTimestamp \/ cr_kind c = KDecimal) ->
  NextBatch inflate o c vec = Ok (out, c') -> map V out = map V vec.
Proof. exact never_stored. Qed.
Print Assumptions C37_never_stored.
Theorem C37_values_refuted : exists t vec, 
  V (val (GTimestamp t)) <> V vec /\
  trip zl64 KTimestamp false [val (GTimestamp t)] [[vec]] = Ok [[Some (V vec)]] /\
  trip zl64 KTimestamp false [val (GTimestamp t)] [blank 1] = Panic /\
  trip zl64 KDecimal false [val (GDecimal 12345 2)] [[val (GDecimal 1 1)]] = Ok [[Some (GDecimal 1 1)]].
Proof.
  exists {| ts_loc := 0; ts_seconds := 77; ts_nanos := 5 |}, (val (GTimestamp {| ts_loc := 0; ts_seconds := 1; ts_nanos := 1 |})).
  split; [discriminate|]. split; [vm_compute; reflexivity|]. split; vm_compute; reflexivity.
Qed.
Print Assumptions C37_values_refuted.

(** ** C39 *)
Theorem C39_strings_partial : forall deflate inflate o, supported o -> flate_ok deflate inflate -> flate_total deflate ->
  forall F stride id ss, Forall (fun s => bytes s /\ zlen s < W63) ss -> int_carried false (map zlen ss) ->
  exists bs infos c3,
    writeColumn deflate F o stride (newColW o id KString false) (map (fun s => val (GString s)) ss) = Ok (bs, infos, c3) /\
    reads_back inflate o KString false bs infos (map (fun s => Some (GString s)) ss).
Proof.
  intros deflate inflate o Ho Hok Htot F stride id ss Hs Hca. set (vs := map (fun s => val (GString s)) ss).
  assert (Hrows : rows_of vs = map (fun s => Some (GString s)) ss) by (unfold rows_of, vs; rewrite map_map; reflexivity).
  assert (Hnn : nonnull (rows_of vs) = map GString ss).
  { rewrite Hrows. clear. induction ss as [|s t IH]; [reflexivity|]. cbn. f_equal. exact IH. }
  assert (Hty : Forall (typed KString) (nonnull (rows_of vs))) by (rewrite Hnn; apply Forall_map; exact Hs).
  assert (Hc : carried KString (nonnull (rows_of vs))) by (rewrite Hnn; cbn [carried]; rewrite map_map; exact Hca).
  destruct (column_total deflate o Ho Htot F stride id KString false vs eq_refl ltac:(discriminate) Hty Hc) as (bs & infos & c3 & Hw).
  exists bs, infos, c3. split; [exact Hw|]. rewrite <- Hrows.
  apply (column_round_trip deflate inflate o Ho Hok F stride id KString false vs bs infos c3); auto.
  intros _. unfold vs. apply Forall_map. apply Forall_forall. reflexivity.
Qed.
Print Assumptions C39_strings_partial.
(** Two families for which nothing need be assumed about the codec: strings all of one
    length (between 1 and 255), and strings of increasing lengths. *)
Theorem C39_equal_lengths_partial : forall deflate inflate o, supported o -> flate_ok deflate inflate -> flate_total deflate ->
  forall F stride id n ss, 1 <= n < 256 -> Forall (fun s => bytes s /\ zlen s = n) ss ->
  exists bs infos c3,
    writeColumn deflate F o stride (newColW o id KString false) (map (fun s => val (GString s)) ss) = Ok (bs, infos, c3) /\
    reads_back inflate o KString false bs infos (map (fun s => Some (GString s)) ss).
Proof.
  intros deflate inflate o Ho Hok Htot F stride id n ss Hn Hs. apply C39_strings_partial; auto.
  - eapply Forall_impl; [|exact Hs]. cbv beta. intros s [Hb Hl]. split; [exact Hb|]. lia.
  - assert (E : map zlen ss = repeat n (length ss)).
    { clear - Hs. induction Hs as [|s t [_ Hl] Ht IH]; [reflexivity|]. cbn. rewrite Hl, IH. reflexivity. }
    rewrite E. apply (int_constant false false n (length ss)).
    + cbn. unfold is_u64. lia.
    + cbv zeta. split; [lia|]. intros j Hj Hle.
      assert (j = 0) as ->. { destruct (Z.eq_dec j 0); [assumption|]. assert (256 ^ 1 <= 256 ^ j) by (apply Z.pow_le_mono_r; lia). lia. }
      rewrite Z.pow_0_r, Z.div_1_r, Z.mod_small; lia.
    + cbv zeta. lia.
Qed.
Print Assumptions C39_equal_lengths_partial.

Theorem C39_increasing_lengths_partial : forall deflate inflate o, supported o -> flate_ok deflate inflate -> flate_total deflate ->
  forall F stride id ss, Forall bytes ss -> Sorted (fun a b => 0 < b - a < 2048) (map zlen ss) ->
  Forall (fun s => 0 < zlen s < 2 ^ 56) ss ->
  exists bs infos c3,
    writeColumn deflate F o stride (newColW o id KString false) (map (fun s => val (GString s)) ss) = Ok (bs, infos, c3) /\
    reads_back inflate o KString false bs infos (map (fun s => Some (GString s)) ss).
Proof.
  intros deflate inflate o Ho Hok Htot F stride id ss Hb Hs Hl. apply C39_strings_partial; auto.
  - rewrite Forall_forall in *. intros s Hin. split; [apply Hb; exact Hin|]. specialize (Hl s Hin). cbv beta in Hl. lia.
  - apply (int_increasing false false (map zlen ss) Hs). apply Forall_map. exact Hl.
Qed.
Print Assumptions C39_increasing_lengths_partial.

(** Up to 512 strings in any order, each of another length than the one before it. *)
Theorem C39_neighbours_partial : forall deflate inflate o, supported o -> flate_ok deflate inflate -> flate_total deflate ->
  forall F stride id ss, Forall bytes ss -> Sorted (fun a b => a <> b /\ Z.abs (b - a) < 2048) (map zlen ss) ->
  Forall (fun s => 0 < zlen s < 2 ^ 56) ss -> (length ss <= 512)%nat ->
  exists bs infos c3,
    writeColumn deflate F o stride (newColW o id KString false) (map (fun s => val (GString s)) ss) = Ok (bs, infos, c3) /\
    reads_back inflate o KString false bs infos (map (fun s => Some (GString s)) ss).
Proof.
  intros deflate inflate o Ho Hok Htot F stride id ss Hb Hs Hl Hn. apply C39_strings_partial; auto.
  - rewrite Forall_forall in *. intros s Hin. split; [apply Hb; exact Hin|]. specialize (Hl s Hin). cbv beta in Hl. lia.
  - apply (int_apart false (map zlen ss) Hs); [apply Forall_map; exact Hl|]. rewrite map_length. exact Hn.
Qed.
Print Assumptions C39_neighbours_partial.
Example C39_neighbours_ex : Sorted (fun a b => a <> b /\ Z.abs (b - a) < 2048) (map zlen [[1; 2]; [3]; [4; 5; 6]]) /\
  trip zl64 KString false [val (GString [1; 2]); val (GString [3]); val (GString [4; 5; 6])] [blank 3]
  = Ok [[Some (GString [1; 2]); Some (GString [3]); Some (GString [4; 5; 6])]].
Proof. split; [repeat constructor; discriminate|]. vm_compute. reflexivity. Qed.

(** One empty string: its length, a single zero, is lost by the codec. *)
Theorem C39_empty_string_refuted : trip zl64 KString false [val (GString [])] [blank 1] = Err /\
  is_ok (writeColumn toy_deflate fl zl64 10 (newColW zl64 3 KString false) [val (GString [])]) = true.
Proof. split; vm_compute; reflexivity. Qed.
Print Assumptions C39_empty_string_refuted.
Example C39_case : trip zl64 KString false [val (GString [1; 2]); val (GString []); val (GString [3])] [blank 3]
  = Ok [[Some (GString [1; 2]); Some (GString []); Some (GString [3])]].
Proof. vm_compute. reflexivity. Qed.

(** ** C40 *)
(** A binary column never reads back: as soon as a batch reaches the first non-null row
    (row [m]), reading is an error, because the lengths were never written. *)
Theorem C40_unreadable : forall deflate inflate F o stride, supported o -> flate_ok deflate inflate ->
  forall id hn vs bs infos c3 m,
  writeColumn deflate F o stride (newColW o id KBinary hn) vs = Ok (bs, infos, c3) ->
  Forall (fun v => Null v = true) (firstn m vs) -> (exists v, nth_error vs m = Some v /\ Null v = false) ->
  (hn = false -> m = O) ->
  forall pre post, zlen (pre ++ bs ++ post) < W64 ->
  exists r, InitStreams (pre ++ bs ++ post) (newColR KBinary hn) (offsets (zlen pre) infos) = Ok r /\
    forall vec, (m < length vec)%nat -> (hn = false -> Forall (fun v => Null v = false) vec) ->
      NextBatch inflate o r vec = Err.
Proof. exact binary_unreadable. Qed.
Print Assumptions C40_unreadable.
Theorem C40_binary_refuted : exists vs, rows_of vs = [None; Some (GBytes [1; 2; 3])] /\
  is_ok (writeColumn toy_deflate fl zl64 10 (newColW zl64 3 KBinary true) vs) = true /\
  trip zl64 KBinary true vs [blank 1] = Ok [[None]] /\
  trip zl64 KBinary true vs [blank 2] = Err.
Proof.
  exists [vnull; val (GBytes [1; 2; 3])]. split; [reflexivity|]. split; [vm_compute; reflexivity|].
  split; vm_compute; reflexivity.
Qed.
Print Assumptions C40_binary_refuted.

(** ** C43 *)
(** A dictionary column cannot be flushed once it holds a string. *)
Theorem C43_flush_panics : forall deflate F o stride id hn vs c,
  writeRows deflate F o stride (newColW o id KDict hn) vs = Ok c -> nonnull (rows_of vs) <> [] ->
  c_Flush deflate o c = Panic.
Proof. exact dict_flush_panics. Qed.
Print Assumptions C43_flush_panics.
Theorem C43_dictionary_refuted : exists vs, rows_of vs = [Some (GString [97])] /\
  is_ok (writeRows toy_deflate fl zl64 10 (newColW zl64 3 KDict false) vs) = true /\
  (let! c := writeRows toy_deflate fl zl64 10 (newColW zl64 3 KDict false) vs in c_Flush toy_deflate zl64 c) = Panic.
Proof. exists [val (GString [97])]. split; [reflexivity|]. split; vm_compute; reflexivity. Qed.
Print Assumptions C43_dictionary_refuted.
(** The reader does reproduce the strings of a column that has its dictionary as the ORC
    specification describes it, in batches of any sizes: the bytes of the strings one after
    the other, their lengths, and for each row that is not null the index of its string.
    Missing, as for every column (C57): integer runs outside [orc_supported], empty
    chunks. *)
Theorem C43_reader_partial : forall inflate o, supported o -> forall file, zlen file < W64 ->
  forall l hn rows, (In 0 (kinds l) -> hn = true) ->
  orc_column orc_supported (fun d => d <> []) inflate o file l KDict rows ->
  dictionary_reads inflate o file l hn rows.
Proof. intros inflate o Ho file Hf l hn rows. apply (orc_reads_dictionary inflate o Ho file Hf). Qed.
Print Assumptions C43_reader_partial.
(** Four rows and two strings: PRESENT, DATA, LENGTH and DICTIONARY_DATA. *)
Definition dict_file : list Z := [255; 208] ++ [66; 2; 68] ++ [66; 1; 144] ++ [97; 98; 99].
Definition dict_streams : list (strm * Z) :=
  [({| st_kind := 0; st_column := 1; st_length := 2 |}, 0); ({| st_kind := 1; st_column := 1; st_length := 3 |}, 2);
   ({| st_kind := 2; st_column := 1; st_length := 3 |}, 5); ({| st_kind := 3; st_column := 1; st_length := 3 |}, 8)].
Definition dict_rows : list (option gval) := [Some (GString [99]); Some (GString [97; 98]); None; Some (GString [99])].
Example C43_case : orc_column orc_supported (fun d => d <> []) toy_inflate no64 dict_file dict_streams KDict dict_rows /\
  (let! r := dict_InitStreams dict_file (newDictR true) dict_streams in
   let! (outs, _) := dict_batches toy_inflate no64 r [blank 1; blank 3] in Ok (map rows_of outs))
  = Ok [firstn 1 dict_rows; skipn 1 dict_rows].
Proof. split; [apply checkLeaf_ok; [reflexivity|vm_compute; reflexivity]|vm_compute; reflexivity]. Qed.
