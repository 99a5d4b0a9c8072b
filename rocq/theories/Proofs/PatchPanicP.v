(** When a patched run makes the decoder panic. *)
From Verif.Model Require Import Codec IntRle.
From Verif.Spec Require Import Bits Session IntSpec OrcInt PatchSpec.
From Verif.Proofs Require Import Base CodecP SessionP BitsP IntRunsP IntPatchP OrcIntP IntClaimsP IntFaultsP ChunkP PatchIffP.

Lemma run_suffix {A} (p : prog A) : forall l a r, run p l = Ok (a, r) -> exists c, l = c ++ r.
Proof.
  induction p as [a| | |k IH|n k IH]; intros l a0 r H; try discriminate.
  - rewrite run_ret in H. exists []. cbn. congruence.
  - destruct l as [|b l]; [discriminate|]. rewrite run_byte in H. apply IH in H. destruct H as (c & ->).
    exists (b :: c). reflexivity.
  - apply run_full_inv in H. destruct H as (x & l' & -> & _ & H). apply IH in H. destruct H as (c & ->).
    exists (x ++ c). apply app_assoc.
Qed.
Lemma not_panic_err {A} (p : prog A) l : NoCrash p -> (forall a r, run p l <> Ok (a, r)) -> run p l = Err.
Proof.
  intros Hn Ho. destruct (run p l) as [[a r]| |] eqn:E; [exfalso; exact (Ho a r eq_refl)|reflexivity|].
  exfalso. exact (NoCrash_run p Hn l E).
Qed.

(** ** Enough bytes, or not *)
Lemma rb_enough f : forall bits has data l, bits <= has + 8 * zlen l ->
  exists x r, run (rb_loop f bits has data) l = Ok (x, r).
Proof.
  induction f as [|f IH]; intros bits has data l H; cbn [rb_loop]; [rewrite run_ret; eauto|].
  destruct (Z.ltb_spec has bits); [|rewrite run_ret; eauto].
  destruct l as [|b l]; [change (zlen (@nil Z)) with 0 in H; lia|]. rewrite run_byte. apply IH. rewrite zlen_cons in H. lia.
Qed.
Lemma readBits_enough st w l : w <= snd st + 8 * zlen l -> exists x r, run (readBits st w) l = Ok (x, r).
Proof.
  destruct st as [lb bl]. cbn [snd]. intros H. unfold readBits. rewrite run_bind.
  destruct (rb_enough 8 w bl lb l H) as ([d h] & r & ->). cbn [rbind]. cbv zeta. rewrite run_ret. eauto.
Qed.
Lemma readBitsAll_enough n : forall st w l, 0 <= snd st < 8 -> 0 <= w <= 64 -> Z.of_nat n * w <= snd st + 8 * zlen l ->
  exists vs r, run (readBitsAll st n w) l = Ok (vs, r).
Proof.
  induction n as [|n IH]; intros st w l Hs Hw H; cbn [readBitsAll]; [rewrite run_ret; eauto|].
  rewrite Nat2Z.inj_succ in H.
  destruct (readBits_enough st w l ltac:(nia)) as ([v st'] & r & E). rewrite run_bind, E. cbn [rbind].
  apply readBits_size in E; [|exact Hs|exact Hw]. destruct E as [E Hs'].
  destruct (IH st' w r Hs' Hw ltac:(lia)) as (vs & r' & E'). rewrite run_bind, E'. cbn [rbind]. rewrite run_ret. eauto.
Qed.

(** ** The bit reader at any width *)
Lemma shift_in X b : 0 <= X -> 0 <= b < 256 -> Z.lor (u64 (Z.shiftl (X mod W64) 8)) b = (X * 2 ^ 8 + b) mod W64.
Proof.
  intros HX Hb. rewrite shiftl_mul by lia. unfold u64.
  assert (E : (X mod W64 * 2 ^ 8) mod W64 = (X mod 2 ^ 56) * 2 ^ 8).
  { rewrite Z.mul_mod_idemp_l by lia. change W64 with (2 ^ 56 * 2 ^ 8). apply Z.mul_mod_distr_r; lia. }
  rewrite E. pose proof (Z.mod_pos_bound X (2 ^ 56) ltac:(lia)) as Hr.
  rewrite lor_add by (change (2 ^ 8) with 256; lia).
  apply (Z.mod_unique _ _ (X / 2 ^ 56)).
  - left. change (2 ^ 56) with 72057594037927936 in *. change (2 ^ 8) with 256. lia.
  - pose proof (Z.div_mod X (2 ^ 56) ltac:(lia)). change (2 ^ 56) with 72057594037927936 in *. change (2 ^ 8) with 256. lia.
Qed.
Lemma rb_wide fuel : forall bits has X i L,
  0 <= has -> 0 <= X < 2 ^ has -> bytes i ->
  bitsN (Z.to_nat has) X ++ bitsOfBytes i = L ->
  bits <= Z.of_nat (length L) -> bits <= has + 8 * Z.of_nat fuel ->
  exists X' has' i', run (rb_loop fuel bits has (X mod W64)) i = Ok ((X' mod W64, has'), i') /\
    bits <= has' /\ (has <= bits -> has' < bits + 8) /\ (bits <= has -> has' = has) /\
    0 <= X' < 2 ^ has' /\ bytes i' /\
    bitsN (Z.to_nat has') X' ++ bitsOfBytes i' = L.
Proof.
  induction fuel as [|f IH]; intros bits has X i L H0 Hd Hi HL Hlen Hf; cbn [rb_loop].
  - exists X, has, i. rewrite run_ret. repeat split; try lia; auto.
  - destruct (Z.ltb_spec has bits) as [Hlt|Hge].
    + destruct i as [|b i].
      { exfalso. rewrite <- HL, app_length, length_bitsN in Hlen. cbn in Hlen. lia. }
      rewrite run_byte. inversion Hi as [|? ? Hb Hi']; subst x l.
      assert (Hpow : 2 ^ (has + 8) = 2 ^ has * 256) by (rewrite Z.pow_add_r by lia; reflexivity).
      unfold is_u8 in Hb. rewrite shift_in by lia.
      destruct (IH bits (has + 8) (X * 2 ^ 8 + b) i L)
        as (d' & h' & i' & Hr & H1 & H2 & H3 & H4 & H5 & H6); try lia; try assumption.
      * rewrite <- HL, bitsOfBytes_cons, app_assoc. f_equal.
        replace (Z.to_nat (has + 8)) with (Z.to_nat has + 8)%nat by lia.
        change (2 ^ 8) with (2 ^ Z.of_nat 8). apply bitsN_cat. cbn; lia.
      * exists d', h', i'. repeat split; try assumption; try lia.
    + exists X, has, i. rewrite run_ret. repeat split; try lia; auto.
Qed.
Lemma mod_div X a b : 0 <= a -> 0 <= b -> (X mod 2 ^ (a + b)) / 2 ^ a = (X / 2 ^ a) mod 2 ^ b.
Proof.
  intros Ha Hb. pose proof (pow2_pos a Ha). pose proof (pow2_pos b Hb).
  rewrite Z.pow_add_r, Z.rem_mul_r by lia. rewrite Z.mul_comm, Z.div_add by lia.
  rewrite Z.div_small by (apply Z.mod_pos_bound; lia). lia.
Qed.
Lemma mod_low X a b : 0 <= a -> 0 <= b -> (X mod 2 ^ (a + b)) mod 2 ^ a = X mod 2 ^ a.
Proof.
  intros Ha Hb. pose proof (pow2_pos a Ha). pose proof (pow2_pos b Hb).
  rewrite Z.pow_add_r, Z.rem_mul_r by lia. rewrite Z.mul_comm, Z.mod_add by lia. apply Z.mod_mod. lia.
Qed.
Lemma readBits_wide st i w v R : 0 <= w <= 64 -> 0 <= v < 2 ^ w ->
  rst st i (bitsN (Z.to_nat w) v ++ R) ->
  exists st' i', run (readBits st w) i = Ok ((v mod 2 ^ (64 - Z.of_nat (length R mod 8)), st'), i') /\ rst st' i' R.
Proof.
  destruct st as [last left]. intros Hw Hv (Hleft & Hlast & Hi & HL). cbn [fst snd] in *.
  unfold readBits. rewrite run_bind.
  assert (Hll : left + 8 * zlen i = w + Z.of_nat (length R)).
  { apply (f_equal (@length bool)) in HL.
    rewrite !app_length, !length_bitsN, length_bitsOfBytes in HL. unfold zlen. lia. }
  assert (Hl8 : last < 256) by (assert (2 ^ left <= 2 ^ 8) by (apply Z.pow_le_mono_r; lia); change (2 ^ 8) with 256 in *; lia).
  destruct (rb_wide 8 w left last i _ ltac:(lia) Hlast Hi HL)
    as (X & has & i' & Hr & Hge & Hlt & Heq & Hd & Hi' & Hbits).
  - rewrite app_length, length_bitsN. lia.
  - lia.
  - rewrite Z.mod_small in Hr by lia. rewrite Hr. cbn [rbind]. cbv zeta. rewrite run_ret.
    set (l2 := has - w) in *.
    assert (Hl2 : 0 <= l2 < 8) by (unfold l2; destruct (Z.le_gt_cases left w); lia).
    replace (Z.to_nat has) with (Z.to_nat w + Z.to_nat l2)%nat in Hbits by lia.
    rewrite bitsN_app, <- app_assoc in Hbits.
    apply app_eq_len in Hbits; [|rewrite !length_bitsN; reflexivity]. destruct Hbits as [Hb1 Hb2].
    rewrite Z2Nat.id in Hb1 by lia.
    assert (Hp : has = w + l2) by lia. rewrite Hp, Z.pow_add_r in Hd by lia.
    pose proof (pow2_pos l2 ltac:(lia)) as Hp2.
    assert (Hdv : 0 <= X / 2 ^ l2 < 2 ^ w).
    { split; [apply Z.div_pos; lia|]. apply Z.div_lt_upper_bound; lia. }
    apply bitsN_inj in Hb1; [|rewrite Z2Nat.id by lia; assumption|rewrite Z2Nat.id by lia; assumption].
    assert (HlR : Z.of_nat (length R mod 8) = l2).
    { rewrite <- Hb2, app_length, length_bitsN, length_bitsOfBytes. rewrite Nat2Z.inj_mod. zlia. }
    rewrite HlR. exists (X mod 2 ^ l2, l2), i'. split.
    { rewrite shiftr_div by lia. rewrite mask_mod by lia.
      assert (EW : W64 = 2 ^ (l2 + (64 - l2))) by (replace (l2 + (64 - l2)) with 64 by lia; reflexivity).
      rewrite EW. rewrite mod_div, mod_low by lia. rewrite Hb1.
      rewrite u8_id; [reflexivity|]. unfold is_u8.
      pose proof (Z.mod_pos_bound X (2 ^ l2) Hp2).
      assert (2 ^ l2 <= 2 ^ 8) by (apply Z.pow_le_mono_r; lia). change (2 ^ 8) with 256 in *. lia. }
    split; cbn [fst snd]; [exact Hl2|]. split; [apply Z.mod_pos_bound; exact Hp2|].
    split; [exact Hi'|]. rewrite <- Hb2. f_equal.
    replace (2 ^ l2) with (2 ^ Z.of_nat (Z.to_nat l2)) by (f_equal; lia). apply bitsN_mod. lia.
Qed.

(** ** The patch list *)
Lemma valB_cat a : forall b, valB (a ++ b) = valB a * 2 ^ Z.of_nat (length b) + valB b.
Proof.
  intros b. induction b as [|x b IH] using rev_ind.
  - rewrite app_nil_r. change (valB []) with 0. cbn [length]. change (2 ^ Z.of_nat 0) with 1. lia.
  - rewrite app_assoc, !valB_app, IH, app_length. cbn [length].
    replace (Z.of_nat (length b + 1)) with (Z.succ (Z.of_nat (length b))) by lia.
    rewrite Z.pow_succ_r by lia. destruct x; ring.
Qed.
Lemma valB_gap pgw pw bits : (pgw + pw <= length bits)%nat ->
  Z.shiftr (valB (firstn (pgw + pw) bits)) (Z.of_nat pw) = valB (firstn pgw bits).
Proof.
  intros H. assert (E : firstn (pgw + pw) bits = firstn pgw bits ++ firstn pw (skipn pgw bits)).
  { rewrite <- (firstn_skipn pgw bits) at 1. rewrite firstn_app, firstn_length_le by lia.
    replace (pgw + pw - pgw)%nat with pw by lia. f_equal. apply firstn_all2. rewrite firstn_length. lia. }
  rewrite E, valB_cat, shiftr_div by lia.
  assert (El : length (firstn pw (skipn pgw bits)) = pw) by (apply firstn_length_le; rewrite skipn_length; lia).
  pose proof (valB_range (firstn pw (skipn pgw bits))) as Hr. rewrite El in *.
  rewrite Z.div_add_l by (pose proof (pow2_pos (Z.of_nat pw)); lia). rewrite Z.div_small by exact Hr. lia.
Qed.
Lemma valB_skip n bits : (n <= length bits)%nat -> valB (skipn n bits) = valB bits mod 2 ^ Z.of_nat (length bits - n).
Proof.
  intros H. rewrite <- (firstn_skipn n bits) at 2. rewrite valB_cat, skipn_length.
  pose proof (valB_range (skipn n bits)) as Hr. rewrite skipn_length in Hr.
  rewrite Z.add_comm, Z.mod_add by (pose proof (pow2_pos (Z.of_nat (length bits - n))); lia).
  symmetry. apply Z.mod_small. exact Hr.
Qed.
(** What is left of a gap. *)
Lemma gap_left pgw pw l bits : (pgw + pw <= length bits)%nat -> (pw <= 57)%nat -> (l < 8)%nat ->
  Z.shiftr (valB (firstn (pgw + pw) bits) mod 2 ^ (64 - Z.of_nat l)) (Z.of_nat pw) =
  valB (skipn (pgw + pw + l - 64) (firstn pgw bits)).
Proof.
  intros H Hpw Hl. rewrite shiftr_div by lia.
  replace (64 - Z.of_nat l) with (Z.of_nat pw + (64 - Z.of_nat l - Z.of_nat pw)) by lia.
  rewrite mod_div by lia. rewrite <- shiftr_div by lia. rewrite valB_gap by exact H.
  assert (El : length (firstn pgw bits) = pgw) by (apply firstn_length_le; lia).
  rewrite valB_skip by lia. rewrite El.
  destruct (Nat.le_gt_cases (pgw + pw + l) 64) as [Hle|Hgt].
  - pose proof (valB_range (firstn pgw bits)) as Hr. rewrite El in Hr.
    rewrite !Z.mod_small; [reflexivity| |].
    + split; [lia|]. eapply Z.lt_le_trans; [apply Hr|]. apply Z.pow_le_mono_r; lia.
    + split; [lia|]. eapply Z.lt_le_trans; [apply Hr|]. apply Z.pow_le_mono_r; lia.
  - do 2 f_equal. lia.
Qed.
Lemma readPatches_panic pgw pw base wd : 1 <= pgw -> 0 <= pw <= 57 -> pgw + pw <= 64 -> forall n st i R mark uvs,
  rst st i R -> 0 <= mark ->
  run (readPatches st n pgw pw base wd mark uvs) i = Panic <->
  exists j, (j < n)%nat /\ Z.of_nat (S j) * (pgw + pw) <= Z.of_nat (length R) /\
    zlen uvs <= mark + position (Z.to_nat pgw) (Z.to_nat pw) R j.
Proof.
  intros Hg Hp Hgp. induction n as [|n IH]; intros st i R mark uvs Hst Hm; cbn [readPatches].
  - rewrite run_ret. split; [discriminate|]. intros (j & Hj & _). lia.
  - rewrite run_bind. destruct (Z.lt_ge_cases (Z.of_nat (length R)) (pgw + pw)) as [Hlt|Hge].
    + assert (E : run (readBits st (pgw + pw)) i = Err).
      { apply not_panic_err; [apply NC_readBits|]. intros [v st'] r E. destruct Hst as (H1 & _ & _ & H4).
        apply readBits_size in E; [|exact H1|lia]. destruct E as [E Hs'].
        apply (f_equal (@length bool)) in H4. rewrite app_length, length_bitsN, length_bitsOfBytes in H4.
        pose proof (zlen_nonneg r). unfold zlen in *. lia. }
      rewrite E. cbn [rbind]. split; [discriminate|]. intros (j & _ & Hj & _). nia.
    + set (w := pgw + pw) in *. set (v := valB (firstn (Z.to_nat w) R)). set (R' := skipn (Z.to_nat w) R).
      assert (Hfl : length (firstn (Z.to_nat w) R) = Z.to_nat w) by (apply firstn_length_le; lia).
      assert (HR : R = bitsN (Z.to_nat w) v ++ R').
      { unfold v, R'. rewrite <- (firstn_skipn (Z.to_nat w) R) at 1. f_equal.
        pose proof (bits_valB (firstn (Z.to_nat w) R)) as Hb. rewrite Hfl in Hb. symmetry. exact Hb. }
      assert (Hv : 0 <= v < 2 ^ w).
      { pose proof (valB_range (firstn (Z.to_nat w) R)) as Hr. rewrite Hfl, Z2Nat.id in Hr by lia. exact Hr. }
      rewrite HR in Hst.
      destruct (readBits_wide st i w v R' ltac:(lia) Hv Hst) as (st' & i' & E & Hst').
      rewrite E. cbn [rbind]. cbv zeta.
      pose proof (Nat.mod_upper_bound (length R') 8 ltac:(discriminate)) as Hl8.
      set (gap := valB (skipn (Z.to_nat pgw + Z.to_nat pw + length R' mod 8 - 64) (firstn (Z.to_nat pgw) R))).
      assert (Ew : Z.to_nat w = (Z.to_nat pgw + Z.to_nat pw)%nat) by (unfold w; lia).
      assert (Egap : Z.shiftr (v mod 2 ^ (64 - Z.of_nat (length R' mod 8))) pw = gap).
      { unfold v, gap. rewrite Ew. replace pw with (Z.of_nat (Z.to_nat pw)) at 2 by lia. apply gap_left; lia. }
      rewrite Egap.
      assert (Hgap : 0 <= gap) by (apply (valB_range (skipn _ (firstn (Z.to_nat pgw) R)))).
      rewrite run_bind, run_plift, applyPatch_spec.
      assert (ER : skipn (Z.to_nat pgw + Z.to_nat pw) R = R') by (unfold R'; rewrite Ew; reflexivity).
      assert (HlR : length R' = (length R - Z.to_nat w)%nat) by (unfold R'; apply skipn_length).
      destruct (nth_error uvs (Z.to_nat (mark + gap))) as [u|] eqn:En.
      * cbn [rbind].
        assert (Hlt : mark + gap < zlen uvs).
        { assert (Z.to_nat (mark + gap) < length uvs)%nat by (apply nth_error_Some; congruence). unfold zlen. lia. }
        rewrite (IH st' i' R' (mark + gap) _ Hst' ltac:(lia)).
        assert (El : forall x, zlen (set_nth uvs (Z.to_nat (mark + gap)) x) = zlen uvs)
          by (intros x; unfold zlen; rewrite set_nth_length; reflexivity).
        rewrite El. split.
        -- intros (j & Hj & Hl & Hpos). exists (S j). split; [lia|]. split; [lia|].
           cbn [position]. rewrite ER. fold gap. lia.
        -- intros (j & Hj & Hl & Hpos). destruct j as [|j]; cbn [position] in Hpos; rewrite ER in Hpos; fold gap in Hpos; [lia|].
           exists j. split; [lia|]. split; [lia|]. lia.
      * cbn [rbind]. split; [|reflexivity]. intros _. exists 0%nat. split; [lia|]. split; [lia|].
        cbn [position]. rewrite ER. fold gap. apply nth_error_None in En. unfold zlen. lia.
Qed.

Lemma panic_iff h h1 h2 h3 t : bytes (h :: h1 :: h2 :: h3 :: t) -> h / 64 = 2 ->
  let len := orc_length h h1 in
  let w := orc_width ((h / 2) mod 32) in
  let pw := orc_width (h2 mod 32) in
  let pgw := h3 / 32 + 1 in
  let skip := h2 / 32 + 1 + (len * w + 7) / 8 in
  pgw + pw < 64 ->
  run (decode true) (h :: h1 :: h2 :: h3 :: t) = Panic <->
  skip <= zlen t /\ exists j, (j < Z.to_nat (h3 mod 32))%nat /\
    Z.of_nat (S j) * (pgw + pw) <= 8 * (zlen t - skip) /\
    len <= position (Z.to_nat pgw) (Z.to_nat pw) (bitsOfBytes (zdrop skip t)) j.
Proof.
  intros Hb Hh2' len w pw pgw skip H64.
  inversion Hb as [|? ? Hh Hb0]; subst. inversion Hb0 as [|? ? Hh1 Hb1]; subst. inversion Hb1 as [|? ? Hh2 Hb2]; subst.
  inversion Hb2 as [|? ? Hh3 Hbt]; subst. clear Hb Hb0 Hb1 Hb2.
  unfold decode. rewrite run_byte. destruct (head_fields h Hh) as (E & Hcode & _ & Hc & _). rewrite E, Hh2'.
  cbn [Z.eqb Pos.eqb]. unfold readPatched.
  change (h1 :: h2 :: h3 :: t) with ([h1; h2; h3] ++ t). rewrite run_full by reflexivity. cbn [nth]. cbv zeta.
  destruct (length_field h h1 Hh Hh1) as [Hlen0 Hlen]. fold len in Hlen0, Hlen.
  unfold is_u8 in Hh2, Hh3.
  set (bw := h2 / 32 + 1) in *. assert (Hbw : 1 <= bw <= 8) by (unfold bw; zlia).
  assert (Hpc : 0 <= h2 mod 32 < 32) by zlia.
  assert (Hpgw : 1 <= pgw <= 8) by (unfold pgw; zlia).
  assert (Hpll : 0 <= h3 mod 32 < 32) by zlia.
  destruct (code_table _ Hc) as (Hw & _ & Hwr & Hwc). destruct (code_table _ Hpc) as (Hpw & _ & Hpwr & Hpwc).
  fold w in Hw, Hwr, Hwc. fold pw in Hpw, Hpwr, Hpwc.
  rewrite Hcode, run_bind, run_plift, Hw. cbn [rbind].
  rewrite (IntRunsP.land_31 h2), run_bind, run_plift, Hpw. cbn [rbind].
  replace (Z.land (Z.shiftr h3 5) 7 + 1) with pgw
    by (rewrite shiftr_div, land_7 by lia; change (2 ^ 5) with 32; unfold pgw; zlia).
  replace (Z.land (Z.shiftr h2 5) 7 + 1) with bw
    by (rewrite shiftr_div, land_7 by lia; change (2 ^ 5) with 32; unfold bw; zlia).
  rewrite (IntRunsP.land_31 h3). rewrite Hlen0.
  destruct (Z.leb_spec 64 (pw + pgw)); [lia|].
  assert (Hsk : bw <= skip) by (unfold skip; pose proof (Z.div_pos (len * w + 7) 8 ltac:(nia) ltac:(lia)); lia).
  destruct (Z.lt_ge_cases (zlen t) bw) as [Hshort|Hlong].
  { (* the base is cut off *)
    split; [|lia]. intros Hx. exfalso. unfold run in Hx. cbn [runS] in Hx. unfold lrf in Hx.
    destruct (Nat.ltb_spec (length t) (Z.to_nat bw)) as [_|Hge]; [discriminate|]. unfold zlen in Hshort. lia. }
  set (bb := ztake bw t). set (t1 := zdrop bw t).
  assert (Et : t = bb ++ t1) by (symmetry; apply firstn_skipn).
  assert (Hbb : length bb = Z.to_nat bw) by (unfold bb, ztake; apply firstn_length_le; unfold zlen in Hlong; lia).
  assert (Hz1 : zlen t1 = zlen t - bw) by (unfold t1; rewrite zlen_zdrop; lia).
  rewrite Et at 1. rewrite run_full by exact Hbb. cbv zeta.
  assert (Hbt1 : bytes t1) by (rewrite Et in Hbt; apply bytes_app in Hbt; apply Hbt).
  set (base := if _ =? 1 then _ else _). clearbody base.
  rewrite run_bind.
  destruct (Z.lt_ge_cases (8 * zlen t1) (len * w)) as [Hv|Hv].
  { (* the values are cut off *)
    assert (Er : run (readBitsAll (0, 0) (Z.to_nat len) w) t1 = Err).
    { apply not_panic_err; [apply NC_readBitsAll|]. intros vs r Er.
      destruct (readBitsAll_size (Z.to_nat len) (0, 0) w t1 vs r ltac:(cbn; lia) ltac:(lia) Er) as (a & Ha & Har).
      cbn [snd] in Ha. rewrite Z2Nat.id in Ha by lia. pose proof (zlen_nonneg r). lia. }
    rewrite Er. cbn [rbind]. split; [discriminate|]. intros [Hs _]. unfold skip in Hs. exfalso. zlia. }
  destruct (readBitsAll_enough (Z.to_nat len) (0, 0) w t1) as (vs & r & Er).
  { cbn. lia. } { lia. } { cbn [snd]. rewrite Z2Nat.id by lia. lia. }
  rewrite Er. cbn [rbind].
  destruct (readBitsAll_size (Z.to_nat len) (0, 0) w t1 vs r ltac:(cbn; lia) ltac:(lia) Er) as (a & Ha & Har).
  cbn [snd] in Ha. rewrite Z2Nat.id in Ha by lia.
  pose proof (run_suffix _ _ _ _ Er) as (c & Ec).
  pose proof (readBitsAll_length _ _ _ _ _ _ Er) as Hvl.
  assert (Hskc : skip = bw + zlen c).
  { rewrite Ec, zlen_app in Ha. unfold skip. f_equal.
    replace (len * w + 7) with (8 * zlen c + (7 - a)) by lia. zlia. }
  assert (Hr : zdrop skip t = r).
  { rewrite Et, Ec. unfold zdrop. rewrite app_assoc. rewrite skipn_app.
    assert (El : length (bb ++ c) = Z.to_nat skip) by (rewrite app_length, Hbb, Hskc; unfold zlen; lia).
    rewrite <- El, skipn_all, Nat.sub_diag. reflexivity. }
  assert (Hzr : zlen r = zlen t - skip) by (rewrite Hskc, Ec, zlen_app in *; lia).
  assert (Hbr : bytes r) by (rewrite Ec in Hbt1; apply bytes_app in Hbt1; apply Hbt1).
  rewrite (readPatches_panic pgw pw base w ltac:(lia) ltac:(lia) ltac:(lia) _ (0, 0) r (bitsOfBytes r)).
  - rewrite Hr. rewrite length_bitsOfBytes.
    assert (El : zlen (map (fun d => Zigzag (i64 (base + i64 d))) vs) = len)
      by (unfold zlen; rewrite map_length, Hvl; lia).
    rewrite El. split.
    + intros (j & Hj & Hl & Hpos). pose proof (zlen_nonneg r). split; [lia|].
      exists j. split; [exact Hj|]. split; [unfold zlen in *; lia|]. lia.
    + intros (_ & j & Hj & Hl & Hpos). exists j. split; [exact Hj|]. split; [unfold zlen in *; lia|]. lia.
  - split; [cbn; lia|]. split; [cbn; lia|]. split; [exact Hbr|reflexivity].
  - lia.
Qed.

(** ** A patch list whose gaps cannot reach the end of the run *)
Lemma u64_le x : 0 <= x -> 0 <= u64 x <= x.
Proof. intros H. unfold u64. split; [apply Z.mod_pos_bound; lia|apply Z.mod_le; lia]. Qed.
Lemma rb_small f : forall bits has data l d h r, bytes l -> 0 <= has -> 0 <= data < 2 ^ has ->
  run (rb_loop f bits has data) l = Ok ((d, h), r) -> has <= h /\ 0 <= d < 2 ^ h.
Proof.
  induction f as [|f IH]; intros bits has data l d h r Hb Hh Hd H; cbn [rb_loop] in H.
  - rewrite run_ret in H. assert (h = has) as -> by congruence. assert (d = data) as -> by congruence. lia.
  - destruct (Z.ltb_spec has bits).
    + destruct l as [|b l]; [discriminate|]. rewrite run_byte in H. inversion Hb as [|? ? Hb1 Hb2]; subst.
      apply IH in H; [|exact Hb2|lia|].
      * split; [lia|apply H].
      * unfold is_u8 in Hb1. assert (E : 2 ^ (has + 8) = 2 ^ has * 256) by (rewrite Z.pow_add_r by lia; reflexivity).
        apply lor_lt; [lia| |].
        -- pose proof (u64_le (Z.shiftl data 8)) as Hu. rewrite Z.shiftl_mul_pow2 in * by lia.
           change (2 ^ 8) with 256 in *. lia.
        -- assert (0 < 2 ^ has) by (apply pow2_pos; lia). lia.
    + rewrite run_ret in H. assert (h = has) as -> by congruence. assert (d = data) as -> by congruence. lia.
Qed.
Lemma readBits_small st w l v st' r : bytes l -> 0 <= w <= 64 -> 0 <= snd st < 8 -> 0 <= fst st < 2 ^ snd st ->
  run (readBits st w) l = Ok ((v, st'), r) ->
  bytes r /\ 0 <= v < 2 ^ w /\ 0 <= snd st' < 8 /\ 0 <= fst st' < 2 ^ snd st'.
Proof.
  intros Hb Hw Hs Hf H. pose proof (run_suffix _ _ _ _ H) as (c & Ec).
  split; [rewrite Ec in Hb; apply bytes_app in Hb; apply Hb|].
  pose proof (readBits_size st w l v st' r Hs Hw H) as [_ Hs'].
  destruct st as [lb bl]. cbn [fst snd] in *. unfold readBits in H. rewrite run_bind in H.
  apply rbind_inv in H. destruct H as ([[d h] l1] & H1 & H). cbv zeta in H. rewrite run_ret in H.
  apply rb_small in H1; [|exact Hb|lia|exact Hf]. destruct H1 as [Hh Hd].
  assert (Ev : v = Z.shiftr d (h - w)) by congruence.
  assert (Es : st' = (u8 (Z.land d (Z.shiftl 1 (h - w) - 1)), h - w)) by congruence.
  rewrite Es in *. cbn [fst snd] in *. split; [|split; [exact Hs'|]].
  - rewrite Ev, shiftr_div by lia. split; [apply Z.div_pos; [lia|apply pow2_pos; lia]|].
    apply Z.div_lt_upper_bound; [apply pow2_pos; lia|]. rewrite <- Z.pow_add_r by lia.
    replace (h - w + w) with h by lia. lia.
  - rewrite Z.shiftl_1_l, land_ones_mod by lia. pose proof (Z.mod_pos_bound d (2 ^ (h - w)) ltac:(apply pow2_pos; lia)).
    unfold u8. split; [apply Z.mod_pos_bound; lia|]. eapply Z.le_lt_trans; [apply Z.mod_le; lia|]. lia.
Qed.

Lemma patches_safe pgw pw base wd : 1 <= pgw -> 0 <= pw -> pgw + pw <= 64 -> forall n st i mark uvs,
  bytes i -> 0 <= snd st < 8 -> 0 <= fst st < 2 ^ snd st -> 0 <= mark ->
  mark + Z.of_nat n * (2 ^ pgw - 1) < zlen uvs ->
  run (readPatches st n pgw pw base wd mark uvs) i <> Panic.
Proof.
  intros Hg Hp Hgp. induction n as [|n IH]; intros st i mark uvs Hb Hs Hf Hm Hle; cbn [readPatches].
  - rewrite run_ret. discriminate.
  - rewrite run_bind. destruct (run (readBits st (pgw + pw)) i) as [[[v st'] r]| |] eqn:E; cbn [rbind].
    + apply readBits_small in E; [|exact Hb|lia|exact Hs|exact Hf]. destruct E as (Hr & Hv & Hs' & Hf').
      cbv zeta. set (gap := Z.shiftr v pw).
      assert (Hgap : 0 <= gap <= 2 ^ pgw - 1).
      { unfold gap. rewrite shiftr_div by lia. assert (0 < 2 ^ pw) by (apply pow2_pos; lia).
        assert (v / 2 ^ pw < 2 ^ pgw).
        { apply Z.div_lt_upper_bound; [lia|]. rewrite <- Z.pow_add_r by lia. rewrite (Z.add_comm pw). lia. }
        pose proof (Z.div_pos v (2 ^ pw)). lia. }
      rewrite Nat2Z.inj_succ, Z.mul_succ_l in Hle.
      assert (Hn : 0 <= Z.of_nat n * (2 ^ pgw - 1)) by (apply Z.mul_nonneg_nonneg; lia).
      rewrite run_bind, run_plift, applyPatch_spec.
      destruct (nth_error uvs (Z.to_nat (mark + gap))) as [u|] eqn:En.
      * cbn [rbind]. apply IH; try assumption; [lia|].
        unfold zlen in *. rewrite set_nth_length. lia.
      * apply nth_error_None in En. unfold zlen in Hle. lia.
    + discriminate.
    + exfalso. exact (NoCrash_run _ (NC_readBits _ _) _ E).
Qed.

Lemma readBitsAll_bytes n st w l vs r : bytes l -> run (readBitsAll st n w) l = Ok (vs, r) -> bytes r.
Proof.
  intros Hb H. destruct (run_suffix _ _ _ _ H) as (c & Ec). rewrite Ec in Hb. apply bytes_app in Hb. apply Hb.
Qed.
Lemma patched_safe h h1 h2 h3 t : bytes (h :: h1 :: h2 :: h3 :: t) -> h / 64 = 2 ->
  (h3 mod 32) * (2 ^ (h3 / 32 + 1) - 1) < orc_length h h1 ->
  run (decode true) (h :: h1 :: h2 :: h3 :: t) <> Panic.
Proof.
  intros Hb Hh2' Hsum.
  inversion Hb as [|? ? Hh Hb0]; subst. inversion Hb0 as [|? ? Hh1 Hb1]; subst. inversion Hb1 as [|? ? Hh2 Hb2]; subst.
  inversion Hb2 as [|? ? Hh3 Hbt]; subst. clear Hb Hb0 Hb1 Hb2.
  set (len := orc_length h h1) in *. set (w := orc_width ((h / 2) mod 32)). set (pw := orc_width (h2 mod 32)).
  set (pgw := h3 / 32 + 1) in *.
  unfold decode. rewrite run_byte. destruct (head_fields h Hh) as (E & Hcode & _ & Hc & _). rewrite E, Hh2'.
  cbn [Z.eqb Pos.eqb]. unfold readPatched.
  change (h1 :: h2 :: h3 :: t) with ([h1; h2; h3] ++ t). rewrite run_full by reflexivity. cbn [nth]. cbv zeta.
  destruct (length_field h h1 Hh Hh1) as [Hlen0 Hlen]. fold len in Hlen0, Hlen.
  unfold is_u8 in Hh2, Hh3.
  set (bw := h2 / 32 + 1) in *. assert (Hbw : 1 <= bw <= 8) by (unfold bw; zlia).
  assert (Hpc : 0 <= h2 mod 32 < 32) by zlia.
  assert (Hpgw : 1 <= pgw <= 8) by (unfold pgw; zlia).
  assert (Hpll : 0 <= h3 mod 32 < 32) by zlia.
  destruct (code_table _ Hc) as (Hw & _ & Hwr & Hwc). destruct (code_table _ Hpc) as (Hpw & _ & Hpwr & _).
  fold w in Hw, Hwr, Hwc. fold pw in Hpw, Hpwr.
  rewrite Hcode, run_bind, run_plift, Hw. cbn [rbind].
  rewrite (IntRunsP.land_31 h2), run_bind, run_plift, Hpw. cbn [rbind].
  replace (Z.land (Z.shiftr h3 5) 7 + 1) with pgw
    by (rewrite shiftr_div, land_7 by lia; change (2 ^ 5) with 32; unfold pgw; zlia).
  replace (Z.land (Z.shiftr h2 5) 7 + 1) with bw
    by (rewrite shiftr_div, land_7 by lia; change (2 ^ 5) with 32; unfold bw; zlia).
  rewrite (IntRunsP.land_31 h3). rewrite Hlen0.
  destruct (Z.leb_spec 64 (pw + pgw)) as [_|Hlt]; [discriminate|].
  destruct (Z.lt_ge_cases (zlen t) bw) as [Hshort|Hlong].
  { intros Hx. unfold run in Hx. cbn [runS] in Hx. unfold lrf in Hx.
    destruct (Nat.ltb_spec (length t) (Z.to_nat bw)) as [_|Hge]; [discriminate|]. unfold zlen in Hshort. lia. }
  set (bb := ztake bw t). set (t1 := zdrop bw t).
  assert (Et : t = bb ++ t1) by (symmetry; apply firstn_skipn).
  assert (Hbb : length bb = Z.to_nat bw) by (unfold bb, ztake; apply firstn_length_le; unfold zlen in Hlong; lia).
  rewrite Et at 1. rewrite run_full by exact Hbb. cbv zeta.
  assert (Hbt1 : bytes t1) by (rewrite Et in Hbt; apply bytes_app in Hbt; apply Hbt).
  set (base := if _ =? 1 then _ else _). clearbody base.
  rewrite run_bind. destruct (run (readBitsAll (0, 0) (Z.to_nat len) w) t1) as [[vs r]| |] eqn:Er; cbn [rbind].
  - apply patches_safe; try lia.
    + exact (readBitsAll_bytes _ _ _ _ _ _ Hbt1 Er).
    + cbn. lia.
    + cbn. lia.
    + pose proof (readBitsAll_length _ _ _ _ _ _ Er) as Hvl.
      unfold zlen. rewrite map_length, Hvl. rewrite !Z2Nat.id by lia. lia.
  - discriminate.
  - exfalso. exact (NoCrash_run _ (NC_readBitsAll _ _ _) _ Er).
Qed.

(** ** All inputs *)
Lemma wide_fails h h1 h2 h3 t : bytes (h :: h1 :: h2 :: h3 :: t) -> h / 64 = 2 ->
  64 <= h3 / 32 + 1 + orc_width (h2 mod 32) -> run (decode true) (h :: h1 :: h2 :: h3 :: t) = Err.
Proof.
  intros Hb Hh2' Hwide.
  inversion Hb as [|? ? Hh Hb0]; subst. inversion Hb0 as [|? ? Hh1 Hb1]; subst. inversion Hb1 as [|? ? Hh2 Hb2]; subst.
  inversion Hb2 as [|? ? Hh3 Hbt]; subst. clear Hb Hb0 Hb1 Hb2.
  unfold decode. rewrite run_byte. destruct (head_fields h Hh) as (E & Hcode & _ & Hc & _). rewrite E, Hh2'.
  cbn [Z.eqb Pos.eqb]. unfold readPatched.
  change (h1 :: h2 :: h3 :: t) with ([h1; h2; h3] ++ t). rewrite run_full by reflexivity. cbn [nth]. cbv zeta.
  unfold is_u8 in Hh2, Hh3. assert (Hpc : 0 <= h2 mod 32 < 32) by zlia.
  destruct (code_table _ Hc) as (Hw & _ & _ & _). destruct (code_table _ Hpc) as (Hpw & _ & _ & _).
  rewrite Hcode, run_bind, run_plift, Hw. cbn [rbind].
  rewrite (IntRunsP.land_31 h2), run_bind, run_plift, Hpw. cbn [rbind].
  replace (Z.land (Z.shiftr h3 5) 7 + 1) with (h3 / 32 + 1)
    by (rewrite shiftr_div, land_7 by lia; change (2 ^ 5) with 32; zlia).
  destruct (Z.leb_spec 64 (orc_width (h2 mod 32) + (h3 / 32 + 1))); [reflexivity|lia].
Qed.
Lemma panic_all signed i : bytes i -> run (decode signed) i = Panic <-> signed = true /\ patch_outside i.
Proof.
  intros Hb. split.
  - intros H. destruct signed.
    2:{ exfalso. destruct (decode_total_iff false i Hb ltac:(discriminate)) as [E|(vs & r & _ & E)]; congruence. }
    split; [reflexivity|]. destruct i as [|h i]; [discriminate|].
    destruct (Z.eq_dec (h / 64) 2) as [H2|H2].
    2:{ exfalso. destruct (decode_total_iff true (h :: i) Hb ltac:(intros _; exact H2)) as [E|(vs & r & _ & E)]; congruence. }
    destruct i as [|h1 [|h2 [|h3 t]]].
    1-3: exfalso; unfold decode in H; rewrite run_byte in H; inversion Hb as [|? ? Hh _]; subst;
      destruct (head_fields h Hh) as (E & _); rewrite E, H2 in H; discriminate H.
    exists h, h1, h2, h3, t. split; [reflexivity|]. split; [exact H2|]. cbv zeta.
    destruct (Z.lt_ge_cases (h3 / 32 + 1 + orc_width (h2 mod 32)) 64) as [Hlt|Hge].
    + split; [exact Hlt|]. apply (panic_iff h h1 h2 h3 t Hb H2 Hlt). exact H.
    + rewrite (wide_fails h h1 h2 h3 t Hb H2 Hge) in H. discriminate.
  - intros [-> (h & h1 & h2 & h3 & t & -> & H2 & H)]. cbv zeta in H. destruct H as [Hlt H].
    apply (panic_iff h h1 h2 h3 t Hb H2 Hlt). exact H.
Qed.
