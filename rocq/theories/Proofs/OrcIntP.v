(** The run decoder against Spec/OrcInt.v. *)
From Verif.Model Require Import Codec IntRle.
From Verif.Spec Require Import Bits Session IntSpec OrcInt.
From Verif.Proofs Require Import Base CodecP SessionP BitsP IntRunsP IntDeltaP IntPatchP IntStreamP.

(** ** Ingredients *)

Lemma unzig_UnZigzag u : is_u64 u -> unzig true u = UnZigzag u.
Proof.
  intros H. rewrite UnZigzag_spec by exact H. unfold unzig. unfold is_u64 in H.
  destruct (Z.even u) eqn:E; [reflexivity|].
  assert (u mod 2 <> 0) by (rewrite <- Zeven_dbl; congruence). zlia.
Qed.

Lemma varint_spec left : forall i v r acc s,
  varint i = Some (v, r) -> bytes i -> s = 7 * (10 - Z.of_nat left) -> (left <= 10)%nat ->
  (length i - length r <= left)%nat -> 0 <= acc < 2 ^ s -> acc + v * 2 ^ s < W64 ->
  run (read_uvarint left acc s) i = Ok (acc + v * 2 ^ s, r) /\ 0 <= v /\
  exists c, i = c ++ r /\ c <> [].
Proof.
  induction left as [|l IH]; intros i v r acc s Hv Hb Hs Hl Hlen Hacc Hlt.
  - exfalso. destruct i as [|b t]; [discriminate|]. cbn [varint] in Hv.
    assert (Hr : (length r <= length t)%nat).
    { clear - Hv. revert b v r Hv. induction t as [|b' t IH]; intros b v r Hv; cbn [varint] in Hv.
      - destruct (b <? 128); [injection Hv as <- <-; cbn; lia|discriminate].
      - destruct (b <? 128); [injection Hv as <- <-; cbn; lia|].
        destruct (if b' <? 128 then _ else _) as [[v' r']|] eqn:E; [|discriminate].
        injection Hv as <- <-. specialize (IH b' v' r' E). cbn [length]. lia. }
    cbn [length] in Hlen. lia.
  - destruct i as [|b t]; [discriminate|]. cbn [varint] in Hv.
    inversion Hb as [|? ? Hb0 Hbt]; subst.
    assert (Hs0 : 0 <= 7 * (10 - Z.of_nat (S l))) by lia.
    set (s := 7 * (10 - Z.of_nat (S l))) in *. pose proof (pow2_pos s Hs0) as Hp.
    unfold is_u8 in Hb0.
    cbn [read_uvarint]. rewrite run_byte. destruct (Z.ltb_spec b 128) as [Hlt128|Hge].
    + injection Hv as <- <-.
      rewrite shiftl_mul by exact Hs0.
      assert (Hbu : is_u64 (b * 2 ^ s)) by (unfold is_u64; nia).
      rewrite u64_id by exact Hbu. rewrite lor_add' by lia.
      assert (Hc : (l =? 0)%nat && (1 <? b) = false).
      { destruct (Nat.eqb_spec l 0) as [->|]; [|reflexivity]. cbn [andb]. apply Z.ltb_ge.
        unfold s in Hlt. change (7 * (10 - Z.of_nat 1)) with 63 in Hlt.
        change (2 ^ 63) with W63 in Hlt. nia. }
      rewrite Hc, run_ret. split; [f_equal; f_equal; lia|]. split; [lia|].
      exists [b]. split; [reflexivity|discriminate].
    + destruct (varint t) as [[v' r']|] eqn:E; [|discriminate].
      assert (v = b - 128 + 128 * v') by congruence. assert (r' = r) by congruence. subst v r'. clear Hv.
      assert (Hland : Z.land b 127 = b - 128) by (rewrite land_127; zlia).
      rewrite Hland, shiftl_mul by exact Hs0.
      assert (Hps : 2 ^ (s + 7) = 2 ^ s * 128) by (rewrite Z.pow_add_r by lia; reflexivity).
      assert (Hv'0 : 0 <= v').
      { clear - E Hbt. revert v' r E. induction t as [|c t IHt]; intros v' r E; [discriminate|].
        inversion Hbt as [|? ? Hc Ht]; subst. unfold is_u8 in Hc. cbn [varint] in E. destruct (Z.ltb_spec c 128).
        - injection E as <- <-. lia.
        - destruct (varint t) as [[w q]|]; [|discriminate]. specialize (IHt Ht w q eq_refl).
          assert (v' = c - 128 + 128 * w) by congruence. lia. }
      assert (Hu : is_u64 ((b - 128) * 2 ^ s)) by (unfold is_u64; nia).
      rewrite u64_id by exact Hu. rewrite lor_add' by lia.
      destruct (IH t v' r ((b - 128) * 2 ^ s + acc) (s + 7)) as (H1 & H2 & c & H3 & H4).
      * exact E.
      * exact Hbt.
      * unfold s. lia.
      * lia.
      * cbn [length] in Hlen. assert (length r < S (length t))%nat; [|lia].
        clear - E. revert v' r E. induction t as [|c t IHt]; intros v' r E; [discriminate|].
        cbn [varint] in E. destruct (c <? 128); [injection E as <- <-; cbn; lia|].
        destruct (varint t) as [[w q]|]; [|discriminate]. specialize (IHt w q eq_refl).
        assert (q = r) by congruence. subst q. cbn [length]. lia.
      * rewrite Hps. nia.
      * rewrite Hps. nia.
      * rewrite H1, Hps. split; [f_equal; f_equal; lia|]. split; [lia|].
        exists (b :: c). split; [cbn [app]; f_equal; exact H3|discriminate].
Qed.

Lemma varint64_spec i v r : varint64 i = Some (v, r) -> bytes i ->
  run ReadUvarint i = Ok (v, r) /\ is_u64 v /\ bytes r.
Proof.
  intros H Hb. unfold varint64 in H. destruct (varint i) as [[v' r']|] eqn:E; [|discriminate].
  destruct (_ && _) eqn:Ec; [|discriminate]. apply andb_prop in Ec. destruct Ec as [E1 E2].
  injection H as <- <-. apply Z.ltb_lt in E1. apply Nat.leb_le in E2.
  destruct (varint_spec 10 i v' r' 0 0 E Hb eq_refl ltac:(lia) E2) as (H1 & H2 & c & H3 & _);
    [cbn; lia|change (2 ^ 0) with 1; lia|].
  unfold ReadUvarint. rewrite H1. change (2 ^ 0) with 1.
  split; [f_equal; f_equal; lia|]. split; [unfold is_u64; lia|].
  rewrite H3 in Hb. apply bytes_app in Hb. apply Hb.
Qed.

Lemma varint64_signed i v r : varint64 i = Some (v, r) -> bytes i ->
  run ReadVarint i = Ok (unzig true v, r) /\ is_i64 (unzig true v) /\ bytes r.
Proof.
  intros H Hb. destruct (varint64_spec i v r H Hb) as (H1 & H2 & H3).
  rewrite unzig_UnZigzag by exact H2. split; [|split; [apply UnZigzag_range; exact H2|exact H3]].
  unfold ReadVarint. rewrite run_bind, H1. cbn [rbind]. rewrite run_ret.
  rewrite <- Convert_UnZigzag by exact H2. reflexivity.
Qed.

Lemma numbers_spec w n : forall bs, (n * w <= length bs)%nat ->
  length (numbers w n bs) = n /\ Forall (fun v => 0 <= v < 2 ^ Z.of_nat w) (numbers w n bs) /\
  flat_map (bitsN w) (numbers w n bs) = firstn (n * w) bs.
Proof.
  induction n as [|n IH]; intros bs H; cbn [numbers length flat_map]; [repeat split; constructor|].
  assert (Hf : length (firstn w bs) = w) by (apply firstn_length_le; lia).
  destruct (IH (skipn w bs)) as (H1 & H2 & H3); [rewrite skipn_length; lia|].
  split; [f_equal; exact H1|]. split.
  - constructor; [|exact H2]. pose proof (valB_range (firstn w bs)) as Hr. rewrite Hf in Hr. exact Hr.
  - rewrite H3. pose proof (bits_valB (firstn w bs)) as Hb. rewrite Hf in Hb. rewrite Hb.
    replace (S n * w)%nat with (w + n * w)%nat by lia.
    rewrite <- (firstn_skipn w bs) at 3. rewrite firstn_app, Hf.
    replace (w + n * w - w)%nat with (n * w)%nat by lia. f_equal.
    rewrite firstn_firstn. f_equal. lia.
Qed.

Lemma packed_spec w n i vs r : packed w n i = Some (vs, r) -> 0 <= w -> 0 <= n -> bytes i ->
  exists o pad, i = o ++ r /\ bytes o /\ bytes r /\ length vs = Z.to_nat n /\
    Forall (fun v => 0 <= v < 2 ^ w) vs /\ (length pad < 8)%nat /\
    bitsOfBytes o = packedBits w vs ++ pad.
Proof.
  intros H Hw Hn Hb. unfold packed in H. set (size := Z.to_nat ((n * w + 7) / 8)) in *.
  destruct (Nat.ltb_spec (length i) size) as [|Hlen]; [discriminate|]. injection H as <- <-.
  set (o := firstn size i).
  assert (Hlo : length o = size) by (apply firstn_length_le; lia).
  assert (Hsz : (Z.to_nat n * Z.to_nat w <= 8 * size < Z.to_nat n * Z.to_nat w + 8)%nat).
  { unfold size. rewrite <- Z2Nat.inj_mul by lia.
    assert (0 <= n * w) by nia. zlia. }
  destruct (numbers_spec (Z.to_nat w) (Z.to_nat n) (bitsOfBytes o)) as (H1 & H2 & H3).
  { rewrite length_bitsOfBytes. lia. }
  exists o, (skipn (Z.to_nat n * Z.to_nat w) (bitsOfBytes o)).
  assert (Hbs : bytes (o ++ skipn size i)) by (unfold o; rewrite firstn_skipn; exact Hb).
  apply bytes_app in Hbs. destruct Hbs as [Hbo Hbr].
  split; [symmetry; apply firstn_skipn|]. split; [exact Hbo|]. split; [exact Hbr|].
  split; [exact H1|]. rewrite Z2Nat.id in H2 by lia. split; [exact H2|].
  split; [rewrite skipn_length, length_bitsOfBytes; lia|].
  unfold packedBits. rewrite H3. symmetry. apply firstn_skipn.
Qed.

Lemma big_endian_spec n i v r : big_endian n i = Some (v, r) -> bytes i ->
  i = be_bytes n v ++ r /\ 0 <= v < 2 ^ (8 * Z.of_nat n) /\ bytes r.
Proof.
  intros H Hb. unfold big_endian in H. destruct (Nat.ltb_spec (length i) n) as [|Hl]; [discriminate|].
  injection H as <- <-. assert (Hf : length (firstn n i) = n) by (apply firstn_length_le; lia).
  assert (Hbs : bytes (firstn n i ++ skipn n i)) by (rewrite firstn_skipn; exact Hb).
  apply bytes_app in Hbs. destruct Hbs as [Hbo Hbr].
  assert (E : be_bytes n (valB (bitsOfBytes (firstn n i))) = firstn n i).
  { apply bitsOfBytes_inj; [apply bytes_be|exact Hbo|]. rewrite bits_be.
    pose proof (bits_valB (bitsOfBytes (firstn n i))) as Hv. rewrite length_bitsOfBytes, Hf in Hv. exact Hv. }
  rewrite E. split; [symmetry; apply firstn_skipn|]. split; [|exact Hbr].
  pose proof (valB_range (bitsOfBytes (firstn n i))) as Hr. rewrite length_bitsOfBytes, Hf in Hr.
  replace (Z.of_nat (8 * n)) with (8 * Z.of_nat n) in Hr by lia. exact Hr.
Qed.

Lemma code_table c : 0 <= c < 32 ->
  widthDecoding c false = Ok (orc_width c) /\ (c <> 0 -> widthDecoding c true = Ok (orc_width c)) /\
  1 <= orc_width c <= 64 /\ (orc_width c <= 56 \/ orc_width c = 64).
Proof.
  intros Hc.
  pose (f := fun c =>
    match widthDecoding c false with Ok w => w =? orc_width c | _ => false end &&
    ((c =? 0) || match widthDecoding c true with Ok w => w =? orc_width c | _ => false end) &&
    (1 <=? orc_width c) && (orc_width c <=? 64) && ((orc_width c <=? 56) || (orc_width c =? 64))).
  assert (H : f c = true) by (apply (sweep 32 f); [vm_compute; reflexivity|exact Hc]).
  unfold f in H. apply andb_prop in H. destruct H as [H H5]. apply andb_prop in H. destruct H as [H H4].
  apply andb_prop in H. destruct H as [H H3]. apply andb_prop in H. destruct H as [H1 H2].
  destruct (widthDecoding c false) as [w| |]; try discriminate. apply Z.eqb_eq in H1. subst w.
  split; [reflexivity|]. split; [|lia].
  intros H0. destruct (Z.eqb_spec c 0); [contradiction|]. cbn [orb] in H2.
  destruct (widthDecoding c true) as [w| |]; try discriminate. apply Z.eqb_eq in H2. subst w. reflexivity.
Qed.

Lemma fits_code c n : 0 <= c < 32 -> fits 0 (orc_width c) n = true.
Proof.
  intros Hc. destruct (code_table c Hc) as (_ & _ & H & [Hs| ->]).
  - apply fits_small. lia.
  - apply fits_64. reflexivity.
Qed.

Lemma u64_of_width w vs : 0 <= w <= 64 -> Forall (fun v => 0 <= v < 2 ^ w) vs -> Forall is_u64 vs.
Proof.
  intros Hw. apply Forall_impl. intros v Hv. assert (2 ^ w <= 2 ^ 64) by (apply Z.pow_le_mono_r; lia).
  change (2 ^ 64) with W64 in *. unfold is_u64. lia.
Qed.

(** Header fields of the first byte. *)
Lemma head_fields h : is_u8 h ->
  Z.shiftr h 6 = h / 64 /\ Z.land (Z.shiftr h 1) 31 = (h / 2) mod 32 /\ Z.land h 1 = h mod 2 /\
  0 <= (h / 2) mod 32 < 32 /\ 0 <= h / 64 < 4.
Proof.
  intros H. unfold is_u8 in H. rewrite !shiftr_div by lia.
  rewrite IntRunsP.land_31, land_1. change (2 ^ 6) with 64. change (2 ^ 1) with 2. zlia.
Qed.
Lemma length_field h h1 : is_u8 h -> is_u8 h1 ->
  Z.lor (Z.shiftl (Z.land h 1) 8) h1 + 1 = orc_length h h1 /\ 1 <= orc_length h h1 <= 512.
Proof.
  intros H H1. unfold is_u8 in *. unfold orc_length. rewrite land_1, shiftl_mul by lia.
  rewrite lor_add by (change (2 ^ 8) with 256; lia). change (2 ^ 8) with 256. split; [reflexivity|]. zlia.
Qed.

(** What each case establishes. *)
Definition decodes (signed : bool) (p : prog (list Z)) (i vs r : list Z) : Prop :=
  exists us, run p i = Ok (us, r) /\ Forall is_u64 us /\ map (unzig signed) us = vs.

(** ** Short repeat and direct *)

Lemma short_spec signed h i vs r : is_u8 h -> bytes i -> orc_short signed h i = Some (vs, r) ->
  decodes signed (readShortRepeat h) i vs r.
Proof.
  intros Hh Hb H. unfold orc_short in H. unfold is_u8 in Hh.
  destruct (big_endian _ i) as [[v i']|] eqn:E; [|discriminate]. injection H as <- <-.
  apply big_endian_spec in E; [|exact Hb]. destruct E as (-> & Hv & Hbr).
  unfold decodes, readShortRepeat. rewrite shiftr_div, !land_7 by lia. change (2 ^ 3) with 8.
  set (n := (h / 8) mod 8) in *. assert (Hn : 0 <= n < 8) by (unfold n; zlia).
  replace (1 + n) with (n + 1) by lia. rewrite run_bind.
  assert (Hpow : 2 ^ (8 * Z.of_nat (Z.to_nat (n + 1))) <= W64).
  { rewrite Z2Nat.id by lia. change W64 with (2 ^ 64). apply Z.pow_le_mono_r; lia. }
  rewrite read_be_spec; [|lia|apply Zmod_0_l|lia|rewrite Z.mod_small by lia; lia].
  rewrite Z.mod_small by lia. cbn [rbind]. rewrite run_ret, Z.add_0_l. eexists. split; [reflexivity|].
  replace (3 + h mod 8) with (h mod 8 + 3) by lia.
  split; [apply Forall_forall; intros x Hx; apply repeat_spec in Hx; subst x; unfold is_u64; lia|].
  generalize (Z.to_nat (h mod 8 + 3)). intros k. induction k as [|k IH]; cbn; [reflexivity|]. f_equal. exact IH.
Qed.

Lemma direct_spec signed h i vs r : is_u8 h -> h / 64 = 1 -> bytes i ->
  orc_direct signed h i = Some (vs, r) -> decodes signed (readDirect h) i vs r.
Proof.
  intros Hh H64 Hb H. destruct i as [|h1 i]; [discriminate|]. cbn [orc_direct] in H.
  inversion Hb as [|? ? Hh1 Hbi]; subst.
  destruct (packed _ _ i) as [[us i']|] eqn:E; [|discriminate]. injection H as <- <-.
  set (c := (h / 2) mod 32) in *. assert (Hc : 0 <= c < 32) by (unfold c; zlia).
  destruct (length_field h h1 Hh Hh1) as [_ Hlen].
  destruct (code_table c Hc) as (Hw & _ & Hwr & _).
  apply packed_spec in E; [|lia|lia|exact Hbi].
  destruct E as (o & pad & -> & Hbo & Hbr & Hl & Hfit & Hp & Hbits).
  unfold decodes, readDirect. rewrite run_byte.
  unfold is_u8 in Hh, Hh1.
  assert (Hhead : Z.lor (Z.shiftl h 8) h1 = h * 256 + h1).
  { rewrite shiftl_mul by lia. rewrite lor_add by (change (2 ^ 8) with 256; lia). reflexivity. }
  cbv zeta. rewrite Hhead, shiftr_div, IntRunsP.land_31, land_511 by lia.
  replace ((h * 256 + h1) / 2 ^ 9 mod 32) with c by (unfold c; change (2 ^ 9) with 512; zlia).
  rewrite run_bind, run_plift, Hw. cbn [rbind].
  replace ((h * 256 + h1) mod 512 + 1) with (orc_length h h1) by (unfold orc_length; zlia).
  rewrite <- Hl. rewrite (read_packed (orc_width c) us o pad i'); auto; [|lia|apply fits_code; exact Hc].
  exists us. split; [reflexivity|]. split; [|reflexivity]. eapply u64_of_width; [|exact Hfit]. lia.
Qed.

(** ** Delta *)

Lemma unzig_raw signed v : is_int signed v -> unzig signed (rawv signed v) = v.
Proof.
  destruct signed; intros H; [|reflexivity]. cbn [rawv]. rewrite unzig_UnZigzag by (apply Zigzag_range; exact H).
  apply UnZigzag_Zigzag. exact H.
Qed.
Lemma wrap_int signed v : is_int signed (wrap signed v).
Proof. destruct signed; [apply i64_range|apply u64_range]. Qed.
Lemma unzig_int signed u : is_u64 u -> is_int signed (unzig signed u).
Proof. intros H. destruct signed; [rewrite unzig_UnZigzag by exact H; apply UnZigzag_range; exact H|exact H]. Qed.
Lemma raw_unzig signed u : is_u64 u -> rawv signed (unzig signed u) = u.
Proof. intros H. destruct signed; [|reflexivity]. rewrite unzig_UnZigzag by exact H. apply Zigzag_UnZigzag. exact H. Qed.

Lemma sums_spec signed delta dir : dir = (if delta <? 0 then -1 else 1) -> forall ds prev,
  Forall is_u64 ds -> is_int signed prev ->
  undelta signed delta (rawv signed prev) ds = map (rawv signed) (orc_sums signed dir prev ds) /\
  Forall (is_int signed) (orc_sums signed dir prev ds).
Proof.
  intros Hdir. induction ds as [|d t IH]; intros prev Hds Hp; cbn [undelta orc_sums map]; [split; constructor|].
  inversion Hds as [|? ? Hd Ht]; subst.
  assert (E : addDelta signed delta (rawv signed prev) d
              = rawv signed (wrap signed (prev + (if delta <? 0 then -1 else 1) * d))).
  { unfold addDelta. destruct signed; cbn [rawv wrap].
    - rewrite UnZigzag_Zigzag by exact Hp. destruct (Z.leb_spec 0 delta), (Z.ltb_spec delta 0); try lia.
      + f_equal. rewrite i64_add_r. f_equal. lia.
      + f_equal. rewrite i64_sub_r. f_equal; lia.
    - destruct (Z.leb_spec 0 delta), (Z.ltb_spec delta 0); try lia; f_equal; lia. }
  rewrite E. destruct (IH (wrap signed (prev + (if delta <? 0 then -1 else 1) * d)) Ht (wrap_int _ _)) as [H1 H2].
  rewrite H1. split; [reflexivity|]. constructor; [apply wrap_int|exact H2].
Qed.

Lemma second_spec signed ubase delta : is_u64 ubase -> is_i64 delta ->
  secondValue signed ubase (if signed then unzig true ubase else 0) delta
  = rawv signed (wrap signed (unzig signed ubase + delta)).
Proof.
  intros Hu Hd. unfold secondValue. destruct signed; cbn [rawv wrap unzig]; [reflexivity|].
  unfold is_i64 in Hd. destruct (Z.leb_spec 0 delta).
  - rewrite u64_add_r. reflexivity.
  - rewrite u64_i64, u64_sub_r. f_equal. lia.
Qed.

Lemma first_spec signed i ubase r : varint64 i = Some (ubase, r) -> bytes i ->
  run (readFirst signed) i = Ok ((ubase, if signed then unzig true ubase else 0), r).
Proof.
  intros H Hb. unfold readFirst. destruct signed; rewrite run_bind.
  - destruct (varint64_spec i ubase r H Hb) as (_ & Hu & _).
    destruct (varint64_signed i ubase r H Hb) as (H1 & _ & _). rewrite H1. cbn [rbind]. rewrite run_ret.
    rewrite unzig_UnZigzag, Zigzag_UnZigzag by exact Hu. reflexivity.
  - destruct (varint64_spec i ubase r H Hb) as (H1 & _ & _). rewrite H1. reflexivity.
Qed.

Lemma map_unzig_raw signed vs : Forall (is_int signed) vs -> map (unzig signed) (map (rawv signed) vs) = vs.
Proof.
  intros H. rewrite map_map. rewrite <- (map_id vs) at 2. apply map_ext_in. intros v Hv.
  rewrite Forall_forall in H. apply unzig_raw. apply H. exact Hv.
Qed.

(** The fixed delta form repeats the second value; the other form follows the text. *)
Lemma delta_spec signed h i vs r : is_u8 h -> bytes i ->
  orc_delta signed h i = Some (vs, r) ->
  ((h / 2) mod 32 <> 0 -> decodes signed (readDelta signed h) i vs r) /\
  ((h / 2) mod 32 = 0 -> exists a b t, vs = a :: b :: t /\
     decodes signed (readDelta signed h) i (a :: b :: repeat b (length t)) r).
Proof.
  intros Hh Hb H. destruct i as [|h1 i]; [discriminate|]. cbn [orc_delta] in H.
  inversion Hb as [|? ? Hh1 Hbi]; subst. cbv zeta in H.
  destruct (length_field h h1 Hh Hh1) as [Hlen0 Hlen].
  set (len := orc_length h h1) in *.
  destruct (Z.ltb_spec len 2) as [|Hlen2]; [discriminate|].
  destruct (varint64 i) as [[ubase i1]|] eqn:E1; [|discriminate].
  destruct (varint64 i1) as [[udelta i2]|] eqn:E2; [|discriminate].
  destruct (varint64_spec i ubase i1 E1 Hbi) as (_ & Hub & Hb1).
  destruct (varint64_signed i1 udelta i2 E2 Hb1) as (Hrd & Hdi & Hb2).
  pose proof (first_spec signed i ubase i1 E1 Hbi) as Hrf.
  set (base := unzig signed ubase) in *. set (delta := unzig true udelta) in *.
  set (c := (h / 2) mod 32) in *.
  destruct (head_fields h Hh) as (_ & Hcode & _ & Hc & _). fold c in Hcode, Hc.
  assert (Hbase : is_int signed base) by (apply unzig_int; exact Hub).
  assert (Hrun : run (readDelta signed h) (h1 :: i) =
    (let! width := widthDecoding c true in
     let! (rest, i3) := run (if width =? 0 then Ret (repeat (rawv signed (wrap signed (base + delta))) (Z.to_nat (len - 2)))
        else readDeltas signed delta (0, 0) (Z.to_nat (len - 2)) width (rawv signed (wrap signed (base + delta)))) i2 in
     Ok (ubase :: rawv signed (wrap signed (base + delta)) :: rest, i3))).
  { unfold readDelta. rewrite run_byte. rewrite run_bind, run_plift, Hcode.
    destruct (widthDecoding c true) as [width| |]; cbn [rbind]; try reflexivity.
    cbv zeta. rewrite Hlen0. fold len.
    change (if signed then do! b := ReadVarint in Ret (Zigzag b, b) else do! u := ReadUvarint in Ret (u, 0))
      with (readFirst signed).
    rewrite run_bind, Hrf. cbn [rbind]. rewrite run_bind, Hrd. cbn [rbind].
    rewrite second_spec by assumption. fold base. rewrite run_bind.
    destruct (run _ i2) as [[rest i3]| |]; reflexivity. }
  split; intros Hc0.
  - destruct (Z.eqb_spec c 0); [contradiction|].
    destruct (packed _ _ i2) as [[ds i3]|] eqn:E3; [|discriminate]. injection H as <- <-.
    destruct (code_table c Hc) as (_ & Hw & Hwr & _). specialize (Hw Hc0).
    apply packed_spec in E3; [|lia|lia|exact Hb2].
    destruct E3 as (o & pad & -> & Hbo & Hbr & Hl & Hfit & Hp & Hbits).
    assert (Hdu : Forall is_u64 ds) by (eapply u64_of_width; [|exact Hfit]; lia).
    destruct (sums_spec signed delta _ eq_refl ds (wrap signed (base + delta)) Hdu (wrap_int _ _)) as [Hs1 Hs2].
    pose proof (read_packedDeltas signed delta (orc_width c) ds o pad (rawv signed (wrap signed (base + delta)))
      ltac:(lia) Hfit (fits_code c _ Hc) Hbo Hp Hbits) as Hrp.
    apply run_closed with (t := i3) in Hrp. rewrite Hl, Hs1 in Hrp.
    eexists. split; [rewrite Hrun, Hw; cbn [rbind];
      destruct (Z.eqb_spec (orc_width c) 0); [lia|]; rewrite Hrp; cbn [rbind]; reflexivity|].
    split.
    + constructor; [exact Hub|]. constructor; [apply rawv_u64, wrap_int|].
      apply Forall_map. eapply Forall_impl; [|exact Hs2]. intros a Ha. apply rawv_u64. exact Ha.
    + cbn [map]. rewrite unzig_raw by apply wrap_int. rewrite map_unzig_raw by exact Hs2. reflexivity.
  - destruct (Z.eqb_spec c 0) as [|]; [|contradiction]. injection H as <- <-.
    assert (Hn : Z.to_nat (len - 1) = S (Z.to_nat (len - 2))) by lia. rewrite Hn. cbn [orc_steps].
    eexists. eexists. eexists. split; [reflexivity|].
    assert (Hls : forall n prev, length (orc_steps signed delta prev n) = n).
    { induction n as [|n IH]; intros prev; cbn [orc_steps length]; [reflexivity|]. f_equal. apply IH. }
    rewrite Hls. rewrite Hc0 in Hrun. change (widthDecoding 0 true) with (Ok 0) in Hrun. cbn [rbind Z.eqb] in Hrun.
    rewrite run_ret in Hrun. cbn [rbind] in Hrun.
    eexists. split; [exact Hrun|]. split.
    + constructor; [exact Hub|]. constructor; [apply rawv_u64, wrap_int|].
      apply Forall_forall. intros x Hx. apply repeat_spec in Hx. subst x. apply rawv_u64, wrap_int.
    + cbn [map]. rewrite unzig_raw by apply wrap_int. f_equal. f_equal.
      generalize (Z.to_nat (len - 2)). intros k. induction k as [|k IHk]; cbn [repeat map]; [reflexivity|].
      rewrite unzig_raw by apply wrap_int. f_equal. exact IHk.
Qed.

(** ** Patched base *)

Lemma patchv_add base w d p : 0 <= d < 2 ^ w -> (0 <= w < 63 \/ w = 64) ->
  patchv base w (offv base d) p = offv base (d + p * 2 ^ w).
Proof.
  intros Hd Hw. unfold patchv. rewrite UnZigzag_offv, i64_sub_l.
  replace (base + d - base) with d by lia. rewrite shiftl_mul by lia.
  destruct Hw as [Hw| ->].
  - assert (Hlt : 2 ^ w <= 2 ^ 62) by (apply Z.pow_le_mono_r; lia).
    change (2 ^ 62) with 4611686018427387904 in Hlt.
    rewrite (i64_id d) by (unfold is_i64; lia).
    destruct (i64_multiple p w ltac:(lia)) as (b & Hb). rewrite Hb, lor_add' by lia. rewrite <- Hb.
    unfold offv. f_equal. rewrite <- Z.add_assoc, i64_add_l, i64_add_r. f_equal. lia.
  - assert (E : i64 (p * 2 ^ 64) = 0).
    { change 0 with (i64 0). apply i64_eq_mod. unfold u64. change (2 ^ 64) with W64. rewrite Z.mod_mul by lia. reflexivity. }
    rewrite E, Z.lor_0_r, i64_add_l. unfold offv. f_equal. rewrite i64_add_r.
    apply i64_eq_mod. unfold u64. change (2 ^ 64) with W64.
    replace (base + (d + p * W64)) with (d + base + p * W64) by lia. rewrite Z.mod_add by lia. reflexivity.
Qed.

Lemma bump_spec (f : Z -> Z) x : forall l n d, nth_error l n = Some d ->
  set_nth (map f l) n (f (d + x)) = map f (bump l n x).
Proof.
  induction l as [|a t IH]; intros n d H; destruct n as [|n]; try discriminate; cbn [map set_nth bump].
  - injection H as ->. reflexivity.
  - f_equal. apply IH. exact H.
Qed.
Lemma length_bump x : forall l n, length (bump l n x) = length l.
Proof. induction l as [|a t IH]; intros n; destruct n; cbn; try reflexivity. f_equal. apply IH. Qed.
Lemma nth_bump x : forall l n m, n <> m -> nth_error (bump l n x) m = nth_error l m.
Proof.
  induction l as [|a t IH]; intros n m H; destruct n, m; cbn; try reflexivity; try congruence.
  apply IH. congruence.
Qed.

Lemma orc_patch_spec base w pw : (0 <= w < 63 \/ w = 64) -> 0 <= pw -> forall es pos data out,
  -1 <= pos -> Forall (fun e => 0 <= e) es ->
  (forall m d, pos < Z.of_nat m -> nth_error data m = Some d -> 0 <= d < 2 ^ w) ->
  orc_patch w pw pos es data = Some out ->
  applyAll base w pos (map (fun e => e / 2 ^ pw) es) (map (fun e => e mod 2 ^ pw) es) (map (offv base) data)
  = Ok (map (offv base) out).
Proof.
  intros Hw Hpw. induction es as [|e t IH]; intros pos data out Hpos Hes Hd H; cbn [orc_patch] in H.
  - injection H as <-. reflexivity.
  - cbv zeta in H. cbn [map applyAll]. inversion Hes as [|? ? He Ht]; subst.
    set (pos' := pos + e / 2 ^ pw) in *. destruct ((pos <? pos') && (pos' <? zlen data)) eqn:Ec; [|discriminate].
    apply andb_prop in Ec. destruct Ec as [Ec1 Ec2]. apply Z.ltb_lt in Ec1, Ec2. unfold zlen in Ec2.
    destruct (nth_error data (Z.to_nat pos')) as [d|] eqn:En.
    2: { apply nth_error_None in En. lia. }
    rewrite applyPatch_spec, nth_error_map, En. cbn [option_map].
    rewrite patchv_add; [|apply (Hd (Z.to_nat pos')); [lia|exact En]|exact Hw].
    rewrite (bump_spec _ _ _ _ _ En). cbn [rbind].
    apply IH; [lia|exact Ht| |exact H].
    intros m d' Hm Hn. rewrite nth_bump in Hn by lia. apply (Hd m); [lia|exact Hn].
Qed.

Lemma zip_entries pw es : 0 <= pw -> Forall (fun e => 0 <= e < W64) es ->
  zipPatch pw (map (fun e => e / 2 ^ pw) es) (map (fun e => e mod 2 ^ pw) es) = es.
Proof.
  intros Hpw. pose proof (pow2_pos pw Hpw) as Hp.
  induction es as [|e t IH]; intros H; cbn [map zipPatch]; [reflexivity|].
  inversion H as [|? ? He Ht]; subst. rewrite IH by exact Ht. f_equal.
  rewrite shiftl_mul by exact Hpw.
  pose proof (Z.div_mod e (2 ^ pw) ltac:(lia)) as Hdm. pose proof (Z.mod_pos_bound e (2 ^ pw) Hp).
  assert (0 <= e / 2 ^ pw) by (apply Z.div_pos; lia).
  rewrite u64_id by (unfold is_u64; nia). rewrite lor_add by lia. lia.
Qed.

Lemma patched_spec h i vs r : is_u8 h -> bytes i -> orc_patched true h i = Some (vs, r) ->
  (forall h1 h2 h3 t, i = h1 :: h2 :: h3 :: t -> h3 / 32 + 1 + orc_width (h2 mod 32) <= 57) ->
  decodes true (readPatched h) i vs r.
Proof.
  intros Hh Hb H H57. destruct i as [|h1 [|h2 [|h3 i]]]; try discriminate. cbn [orc_patched] in H.
  specialize (H57 h1 h2 h3 i eq_refl).
  inversion Hb as [|? ? Hh1 Hb1]; subst. inversion Hb1 as [|? ? Hh2 Hb2]; subst.
  inversion Hb2 as [|? ? Hh3 Hbi]; subst. cbv zeta in H.
  destruct (length_field h h1 Hh Hh1) as [Hlen0 Hlen]. set (len := orc_length h h1) in *.
  destruct (head_fields h Hh) as (_ & Hcode & _ & Hc & _). set (c := (h / 2) mod 32) in *.
  unfold is_u8 in Hh2, Hh3.
  set (bw := h2 / 32 + 1) in *. assert (Hbw : 1 <= bw <= 8) by (unfold bw; zlia).
  set (pc := h2 mod 32) in *. assert (Hpc : 0 <= pc < 32) by (unfold pc; zlia).
  set (pgw := h3 / 32 + 1) in *. assert (Hpgw : 1 <= pgw <= 8) by (unfold pgw; zlia).
  set (pll := h3 mod 32) in *. assert (Hpll : 0 <= pll < 32) by (unfold pll; zlia).
  destruct (code_table c Hc) as (Hw & _ & Hwr & Hwc).
  destruct (code_table pc Hpc) as (Hpw & _ & Hpwr & _).
  set (w := orc_width c) in *. set (pw := orc_width pc) in *.
  destruct (Z.ltb_spec 64 (pgw + pw)) as [|_]; [discriminate|].
  destruct (big_endian _ i) as [[b i1]|] eqn:E1; [|discriminate].
  apply big_endian_spec in E1; [|exact Hbi]. destruct E1 as (-> & Hbv & Hbi1).
  rewrite Z2Nat.id in Hbv by lia.
  destruct (packed w len i1) as [[data i2]|] eqn:E2; [|discriminate].
  apply packed_spec in E2; [|lia|lia|exact Hbi1].
  destruct E2 as (o1 & pad1 & -> & Hbo1 & Hbi2 & Hl1 & Hfit1 & Hp1 & Hbits1).
  destruct (packed (pgw + pw) pll i2) as [[es i3]|] eqn:E3; [|discriminate].
  apply packed_spec in E3; [|lia|lia|exact Hbi2].
  destruct E3 as (o2 & pad2 & -> & Hbo2 & Hbi3 & Hl2 & Hfit2 & Hp2 & Hbits2).
  destruct (orc_patch w pw (-1) _ data) as [out|] eqn:E4; [|discriminate]. injection H as <- <-.
  set (sign := 2 ^ (8 * bw - 1)) in *.
  assert (Hsign : 0 < sign) by (apply pow2_pos; lia).
  assert (Hpow : 2 ^ (8 * bw) = 2 * sign).
  { unfold sign. rewrite <- Z.pow_succ_r by lia. f_equal. lia. }
  assert (Hs63 : sign <= W63).
  { unfold sign. change W63 with (2 ^ 63). apply Z.pow_le_mono_r; lia. }
  set (neg := sign <=? b) in *. set (m := if neg then b - sign else b).
  assert (Hm : 0 <= m < sign) by (unfold m, neg; destruct (Z.leb_spec sign b); lia).
  destruct (base_bytes (Z.to_nat bw) m neg) as (Hbb1 & Hbb2 & Hbb3).
  { lia. }
  { rewrite Z2Nat.id by lia. exact Hm. }
  cbv zeta in Hbb1, Hbb2, Hbb3. rewrite Z2Nat.id in Hbb1, Hbb2, Hbb3 by lia.
  assert (Hb' : (if neg then Z.lor m (u64 (Z.shiftl 1 ((bw - 1) * 8 + 7))) else m) = b).
  { unfold m. destruct neg eqn:En; [|reflexivity]. rewrite shiftl_mul by lia.
    replace ((bw - 1) * 8 + 7) with (8 * bw - 1) by lia. fold sign.
    rewrite u64_id by (unfold is_u64; lia). unfold m in Hm. unfold sign at 2.
    rewrite lor_add' by (fold sign; lia). fold sign. lia. }
  rewrite Hb' in Hbb1, Hbb2, Hbb3.
  set (base := if neg then - (b - sign) else b) in *.
  assert (Hbase : (if neg then i64 (- i64 m) else i64 m) = base).
  { unfold base. rewrite (i64_id m) by (unfold is_i64; lia). unfold m. unfold m in Hm. destruct neg.
    - rewrite i64_id by (unfold is_i64; lia). reflexivity.
    - reflexivity. }
  assert (Hwc' : 0 <= w < 63 \/ w = 64) by lia.
  pose proof (pow2_pos pw ltac:(lia)) as Hppw.
  assert (Hesu : Forall (fun e => 0 <= e < W64) es).
  { eapply Forall_impl; [|exact Hfit2]. cbv beta. intros e He.
    assert (2 ^ (pgw + pw) <= 2 ^ 64) by (apply Z.pow_le_mono_r; lia). change (2 ^ 64) with W64 in *. lia. }
  assert (Happ : applyAll base w 0 (map (fun e => e / 2 ^ pw) es) (map (fun e => e mod 2 ^ pw) es)
     (map (offv base) data) = Ok (map (offv base) out)).
  { apply (orc_patch_spec base) in E4; [|exact Hwc'|lia|lia| |].
    - destruct es as [|e t]; [exact E4|]. cbn [map applyAll] in *.
      replace ((e + 2 ^ pw) / 2 ^ pw) with (e / 2 ^ pw + 1) in E4
        by (replace (e + 2 ^ pw) with (e + 1 * 2 ^ pw) by lia; rewrite Z.div_add by lia; reflexivity).
      replace ((e + 2 ^ pw) mod 2 ^ pw) with (e mod 2 ^ pw) in E4
        by (replace (e + 2 ^ pw) with (e + 1 * 2 ^ pw) by lia; rewrite Z.mod_add by lia; reflexivity).
      replace (-1 + (e / 2 ^ pw + 1)) with (0 + e / 2 ^ pw) in E4 by lia. exact E4.
    - destruct es as [|e t]; [constructor|]. pose proof (Forall_inv Hesu) as He. pose proof (Forall_inv_tail Hesu) as Ht. cbv beta in He.
      constructor; [lia|]. eapply Forall_impl; [|exact Ht]. cbv beta. lia.
    - intros k d _ Hk. apply nth_error_In in Hk. rewrite Forall_forall in Hfit1. apply Hfit1. exact Hk. }
  unfold decodes, readPatched.
  change (h1 :: h2 :: h3 :: be_bytes (Z.to_nat bw) b ++ o1 ++ o2 ++ i3)
    with ([h1; h2; h3] ++ be_bytes (Z.to_nat bw) b ++ o1 ++ o2 ++ i3).
  rewrite run_full by reflexivity. cbn [nth]. cbv zeta.
  rewrite Hcode, run_bind, run_plift, Hw. cbn [rbind].
  replace (Z.land h2 31) with pc by (rewrite IntRunsP.land_31; reflexivity).
  rewrite run_bind, run_plift, Hpw. cbn [rbind].
  replace (Z.land (Z.shiftr h3 5) 7 + 1) with pgw
    by (rewrite shiftr_div, land_7 by lia; change (2 ^ 5) with 32; unfold pgw; zlia).
  replace (Z.land (Z.shiftr h2 5) 7 + 1) with bw
    by (rewrite shiftr_div, land_7 by lia; change (2 ^ 5) with 32; unfold bw; zlia).
  replace (Z.land h3 31) with pll by (rewrite IntRunsP.land_31; reflexivity).
  destruct (Z.leb_spec 64 (pw + pgw)); [lia|].
  rewrite run_full by exact Hbb1. cbv zeta. rewrite Hbb2, Hbb3, Hbase, Hlen0. fold len.
  rewrite run_bind, <- Hl1.
  rewrite (read_packed w data o1 pad1 (o2 ++ i3)); auto;
    [|lia|apply fits_code; exact Hc].
  cbn [rbind].
  change (map (fun d => Zigzag (i64 (base + i64 d))) data) with (map (offv base) data).
  assert (Hrp : run (readPatches (0, 0) (Z.to_nat pll) pgw pw base w 0 (map (offv base) data)) o2
     = Ok (map (offv base) out, [])).
  { rewrite <- Hl2.
    replace (length es) with (length (map (fun e => e mod 2 ^ pw) es)) by apply map_length.
    eapply read_packedPatches with (gs := map (fun e => e / 2 ^ pw) es) (pad := pad2); try lia.
    - rewrite !map_length. reflexivity.
    - apply Forall_map. eapply Forall_impl; [|exact Hfit2]. cbv beta. intros e He.
      split; [apply Z.div_pos; lia|]. apply Z.div_lt_upper_bound; [lia|].
      rewrite Z.pow_add_r in He by lia. lia.
    - apply Forall_map. eapply Forall_impl; [|exact Hfit2]. cbv beta. intros e He.
      apply Z.mod_pos_bound. lia.
    - exact Happ.
    - apply fits_small. lia.
    - exact Hbo2.
    - rewrite zip_entries by (assumption || lia). exact Hbits2. }
  apply run_closed with (t := i3) in Hrp. rewrite Hrp. eexists. split; [reflexivity|].
  split; [apply Forall_map, Forall_forall; intros; apply offv_u64|].
  rewrite map_map. apply map_ext. intros v. rewrite unzig_UnZigzag by apply offv_u64.
  rewrite UnZigzag_offv. reflexivity.
Qed.

(** ** Any run *)

Lemma decodes_for signed h i vs r : bytes (h :: i) ->
  decodes signed (if h / 64 =? 0 then readShortRepeat h else if h / 64 =? 1 then readDirect h
    else if h / 64 =? 2 then (if signed then readPatched h else Fail)
    else if h / 64 =? 3 then readDelta signed h else Fail) i vs r ->
  run (DecodeFor signed) (h :: i) = Ok (vs, r).
Proof.
  intros Hb (us & Hr & Hu & Hm). inversion Hb as [|? ? Hh _]; subst.
  assert (Hd : run (decode signed) (h :: i) = Ok (us, r)).
  { unfold decode. rewrite run_byte. destruct (head_fields h Hh) as (E & _). rewrite E. exact Hr. }
  destruct signed; cbn [DecodeFor].
  - unfold DecodeInt. rewrite run_bind, Hd. cbn [rbind]. rewrite run_ret. do 2 f_equal.
    apply map_ext_in. intros u Hin. symmetry. rewrite Forall_forall in Hu. apply unzig_UnZigzag. apply Hu. exact Hin.
  - unfold DecodeUInt. rewrite Hd. do 2 f_equal. symmetry. apply map_id.
Qed.

Lemma orc_agrees signed i vs r : bytes i -> orc_run signed i = Some (vs, r) ->
  orc_supported signed i vs -> run (DecodeFor signed) i = Ok (vs, r).
Proof.
  intros Hb H Hsup. destruct i as [|h i]; [discriminate|]. apply decodes_for; [exact Hb|].
  inversion Hb as [|? ? Hh Hbi]; subst. cbn [orc_run orc_supported] in *.
  destruct (head_fields h Hh) as (_ & _ & _ & Hc & Hf).
  destruct (Z.eqb_spec (h / 64) 0); [apply short_spec; assumption|].
  destruct (Z.eqb_spec (h / 64) 1); [apply direct_spec; assumption|].
  destruct (Z.eqb_spec (h / 64) 2).
  - destruct Hsup as [-> H57]. apply patched_spec; assumption.
  - destruct (Z.eqb_spec (h / 64) 3); [|lia].
    destruct (delta_spec signed h i vs r Hh Hbi H) as [H1 H2].
    destruct (Z.eq_dec ((h / 2) mod 32) 0) as [E|E]; [|apply H1; exact E].
    destruct Hsup as [Hsup|(a & b & k & Hsup)]; [contradiction|].
    destruct (H2 E) as (a' & b' & t & -> & Hd). destruct k as [|k]; [discriminate|].
    cbn [repeat] in Hsup. injection Hsup as -> -> ->. rewrite repeat_length in Hd. exact Hd.
Qed.

(** What the decoder makes of a fixed delta run. *)
Lemma orc_fixed_delta signed h i vs r : bytes (h :: i) -> h / 64 = 3 -> (h / 2) mod 32 = 0 ->
  orc_run signed (h :: i) = Some (vs, r) ->
  exists a b t, vs = a :: b :: t /\
    run (DecodeFor signed) (h :: i) = Ok (a :: b :: repeat b (length t), r).
Proof.
  intros Hb H64 Hc H. inversion Hb as [|? ? Hh Hbi]; subst. cbn [orc_run] in H. rewrite H64 in H. cbn [Z.eqb Pos.eqb] in H.
  destruct (delta_spec signed h i vs r Hh Hbi H) as [_ H2].
  destruct (H2 Hc) as (a & b & t & -> & Hd). exists a, b, t. split; [reflexivity|].
  apply decodes_for; [exact Hb|]. rewrite H64. cbn [Z.eqb Pos.eqb]. exact Hd.
Qed.

(** ** No crash *)

Inductive NoCrash {A} : prog A -> Prop :=
| NCRet a : NoCrash (Ret a)
| NCFail : NoCrash Fail
| NCByte k : (forall b, NoCrash (k b)) -> NoCrash (RdByte k)
| NCFull n k : (forall bs, NoCrash (k bs)) -> NoCrash (RdFull n k).

Lemma NoCrash_run {A} (p : prog A) : NoCrash p -> forall i, run p i <> Panic.
Proof.
  induction 1 as [a| |k Hk IH|n k Hk IH]; intros i; try discriminate.
  - destruct i as [|b i]; [discriminate|]. rewrite run_byte. apply IH.
  - cbn. unfold lrf. destruct (length i <? n)%nat; [discriminate|]. cbn [rbind]. apply IH.
Qed.
Lemma NoCrash_bind {A B} (p : prog A) (f : A -> prog B) :
  NoCrash p -> (forall a, NoCrash (f a)) -> NoCrash (pbind p f).
Proof. intros H Hf. induction H; cbn [pbind]; try constructor; auto. Qed.
Lemma NoCrash_lift {A} (r : res A) : r <> Panic -> NoCrash (plift r).
Proof. intros H. destruct r; cbn; [constructor|constructor|congruence]. Qed.

Lemma widthDecoding_total w d : widthDecoding w d <> Panic.
Proof.
  unfold widthDecoding. repeat match goal with |- context [if ?c then _ else _] => destruct c end; discriminate.
Qed.
Lemma NC_uvarint left : forall x s, NoCrash (read_uvarint left x s).
Proof.
  induction left as [|l IH]; intros x s; cbn [read_uvarint]; constructor. intros b.
  destruct (b <? 128); [|apply IH]. destruct (_ && _); constructor.
Qed.
Lemma NC_varint : NoCrash ReadVarint.
Proof. unfold ReadVarint. apply NoCrash_bind; [apply NC_uvarint|]. intros; constructor. Qed.
Lemma NC_be n : forall v, NoCrash (read_be n v).
Proof. induction n as [|n IH]; intros v; cbn [read_be]; constructor. intros; apply IH. Qed.
Lemma NC_rb fuel : forall b h d, NoCrash (rb_loop fuel b h d).
Proof.
  induction fuel as [|f IH]; intros b h d; cbn [rb_loop]; [constructor|].
  destruct (h <? b); constructor. intros; apply IH.
Qed.
Lemma NC_readBits st b : NoCrash (readBits st b).
Proof.
  destruct st as [l r]. unfold readBits. apply NoCrash_bind; [apply NC_rb|]. intros [d h]. constructor.
Qed.
Lemma NC_readBitsAll n : forall st b, NoCrash (readBitsAll st n b).
Proof.
  induction n as [|n IH]; intros st b; cbn [readBitsAll]; [constructor|].
  apply NoCrash_bind; [apply NC_readBits|]. intros [v st']. apply NoCrash_bind; [apply IH|]. intros; constructor.
Qed.
Lemma NC_readDeltas signed db n : forall st w p, NoCrash (readDeltas signed db st n w p).
Proof.
  induction n as [|n IH]; intros st w p; cbn [readDeltas]; [constructor|].
  apply NoCrash_bind; [apply NC_readBits|]. intros [v st']. cbv zeta. apply NoCrash_bind; [apply IH|]. intros; constructor.
Qed.
Lemma NC_short h : NoCrash (readShortRepeat h).
Proof. unfold readShortRepeat. apply NoCrash_bind; [apply NC_be|]. intros; constructor. Qed.
Lemma NC_direct h : NoCrash (readDirect h).
Proof.
  unfold readDirect. constructor. intros b. apply NoCrash_bind; [apply NoCrash_lift, widthDecoding_total|].
  intros; apply NC_readBitsAll.
Qed.
Lemma NC_delta signed h : NoCrash (readDelta signed h).
Proof.
  unfold readDelta. constructor. intros b. apply NoCrash_bind; [apply NoCrash_lift, widthDecoding_total|].
  intros w. apply NoCrash_bind.
  - destruct signed; apply NoCrash_bind; try apply NC_varint; try apply NC_uvarint; intros; constructor.
  - intros [u bs]. apply NoCrash_bind; [apply NC_varint|]. intros d. apply NoCrash_bind.
    + destruct (w =? 0); [constructor|apply NC_readDeltas].
    + intros; constructor.
Qed.

Lemma decode_no_crash signed i : bytes i ->
  (signed = true -> hd 0 i / 64 <> 2) -> run (decode signed) i <> Panic.
Proof.
  intros Hb Hs. destruct i as [|h i]; [discriminate|]. inversion Hb as [|? ? Hh _]; subst.
  unfold decode. rewrite run_byte. destruct (head_fields h Hh) as (E & _ & _ & _ & Hr). rewrite E.
  cbn [hd] in Hs.
  destruct (Z.eqb_spec (h / 64) 0); [apply NoCrash_run, NC_short|].
  destruct (Z.eqb_spec (h / 64) 1); [apply NoCrash_run, NC_direct|].
  destruct (Z.eqb_spec (h / 64) 2).
  { destruct signed; [exfalso; apply Hs; [reflexivity|assumption]|discriminate]. }
  destruct (Z.eqb_spec (h / 64) 3); [apply NoCrash_run, NC_delta|discriminate].
Qed.

(** A decoded run is never empty. *)
Lemma readBitsAll_length n : forall st w i vs r, run (readBitsAll st n w) i = Ok (vs, r) -> length vs = n.
Proof.
  induction n as [|n IH]; intros st w i vs r H; cbn [readBitsAll] in H.
  - rewrite run_ret in H. injection H as <- <-. reflexivity.
  - rewrite run_bind in H. apply rbind_inv in H. destruct H as ([[v st'] i1] & _ & H).
    rewrite run_bind in H. apply rbind_inv in H. destruct H as ([t i2] & Ht & H).
    rewrite run_ret in H. injection H as <- <-. cbn [length]. f_equal. eapply IH. exact Ht.
Qed.
Lemma set_nth_length v : forall l n, length (set_nth l n v) = length l.
Proof. induction l as [|a t IH]; intros n; destruct n; cbn; try reflexivity. f_equal. apply IH. Qed.
Lemma readPatches_length n : forall st pgw pw base w mark uvs i vs r,
  run (readPatches st n pgw pw base w mark uvs) i = Ok (vs, r) -> length vs = length uvs.
Proof.
  induction n as [|n IH]; intros st pgw pw base w mark uvs i vs r H; cbn [readPatches] in H.
  - rewrite run_ret in H. injection H as <- <-. reflexivity.
  - rewrite run_bind in H. apply rbind_inv in H. destruct H as ([[v st'] i1] & _ & H). cbv zeta in H.
    rewrite run_bind, run_plift in H. apply rbind_inv in H. destruct H as ([u2 i2] & Hu & H).
    apply rbind_inv in Hu. destruct Hu as (u3 & Hu & E). injection E as <- <-.
    rewrite applyPatch_spec in Hu. destruct (nth_error uvs _); [|discriminate]. injection Hu as <-.
    apply IH in H. rewrite set_nth_length in H. exact H.
Qed.

Lemma run_full_inv {A} n (k : list Z -> prog A) i v r : run (RdFull n k) i = Ok (v, r) ->
  exists a i', i = a ++ i' /\ length a = n /\ run (k a) i' = Ok (v, r).
Proof.
  unfold run. cbn [runS]. unfold lrf. destruct (Nat.ltb_spec (length i) n); [discriminate|].
  cbn [rbind]. intros H'. exists (firstn n i), (skipn n i). split; [symmetry; apply firstn_skipn|].
  split; [apply firstn_length_le; lia|exact H'].
Qed.

Lemma decode_nonempty signed i vs r : bytes i -> run (decode signed) i = Ok (vs, r) -> vs <> [].
Proof.
  intros Hb H. destruct i as [|h i]; [discriminate|]. inversion Hb as [|? ? Hh Hbi]; subst.
  unfold decode in H. rewrite run_byte in H. destruct (head_fields h Hh) as (E & _ & _ & _ & Hr).
  rewrite E in H.
  destruct (Z.eqb_spec (h / 64) 0).
  { unfold readShortRepeat in H. rewrite run_bind in H. apply rbind_inv in H. destruct H as ([v i1] & _ & H).
    rewrite run_ret in H. intros ->.
    apply (f_equal (fun r => match r with Ok (l, _) => length l | _ => O end)) in H.
    cbv beta iota in H. rewrite repeat_length, land_7 in H. cbn [length] in H. unfold is_u8 in Hh. zlia. }
  destruct (Z.eqb_spec (h / 64) 1).
  { unfold readDirect in H. destruct i as [|h1 i]; [discriminate|]. rewrite run_byte in H. cbv zeta in H.
    rewrite run_bind in H. apply rbind_inv in H. destruct H as ([w i1] & _ & H).
    apply readBitsAll_length in H. rewrite land_511 in H. intros ->. cbn [length] in H. zlia. }
  destruct (Z.eqb_spec (h / 64) 2).
  { destruct signed; [|discriminate]. unfold readPatched in H.
    apply run_full_inv in H. destruct H as (hh & i0 & -> & Hl3 & H). cbv zeta in H.
    rewrite run_bind in H. apply rbind_inv in H. destruct H as ([w i1] & _ & H).
    rewrite run_bind in H. apply rbind_inv in H. destruct H as ([pw i2] & _ & H).
    destruct (64 <=? _); [discriminate|].
    apply run_full_inv in H. destruct H as (bb & i3 & _ & _ & H). cbv zeta in H.
    rewrite run_bind in H. apply rbind_inv in H. destruct H as ([ds i4] & Hds & H).
    apply readBitsAll_length in Hds. apply readPatches_length in H. rewrite map_length, Hds in H.
    intros ->. cbn [length] in H.
    apply bytes_app in Hbi. destruct Hbi as [Hbh _].
    destruct hh as [|h1 hh]; [discriminate|]. inversion Hbh as [|? ? Hh1 _]; subst. cbn [nth] in H.
    destruct (length_field h h1 Hh Hh1) as [E1 E2]. rewrite E1 in H. lia. }
  destruct (Z.eqb_spec (h / 64) 3); [|discriminate].
  unfold readDelta in H. destruct i as [|h1 i]; [discriminate|]. rewrite run_byte in H.
  rewrite run_bind in H. apply rbind_inv in H. destruct H as ([w i1] & _ & H). cbv zeta in H.
  rewrite run_bind in H. apply rbind_inv in H. destruct H as ([[u b] i2] & _ & H).
  rewrite run_bind in H. apply rbind_inv in H. destruct H as ([d i3] & _ & H).
  rewrite run_bind in H. apply rbind_inv in H. destruct H as ([rest i4] & _ & H).
  rewrite run_ret in H. injection H as <- <-. discriminate.
Qed.
