(** Patched runs with wide entries against the ORC specification. *)
From Verif.Model Require Import Codec IntRle.
From Verif.Spec Require Import Bits Session IntSpec OrcInt PatchSpec.
From Verif.Proofs Require Import Base CodecP SessionP BitsP IntRunsP IntPatchP OrcIntP ChunkP PatchIffP PatchPanicP.

Lemma whole_entry z w l bits : 0 <= z < 2 ^ Z.of_nat w -> (w <= 64)%nat -> (l < 8)%nat ->
  valB (firstn (w + l - 64) (bitsN w z ++ bits)) = 0 -> z mod 2 ^ (64 - Z.of_nat l) = z.
Proof.
  intros Hz Hw Hl H. apply Z.mod_small. split; [lia|].
  destruct (Nat.le_gt_cases (w + l) 64) as [Hle|Hgt].
  - eapply Z.lt_le_trans; [apply Hz|]. apply Z.pow_le_mono_r; lia.
  - set (k := (w + l - 64)%nat) in *. rewrite firstn_app, length_bitsN in H.
    replace (k - w)%nat with 0%nat in H by lia. rewrite firstn_O, app_nil_r in H.
    assert (E : valB (bitsN w z) = z) by (rewrite valB_bits; apply Z.mod_small; exact Hz).
    rewrite <- (firstn_skipn k (bitsN w z)), valB_cat, H in E.
    pose proof (valB_range (skipn k (bitsN w z))) as Hr. rewrite skipn_length, length_bitsN in Hr.
    replace (Z.of_nat (w - k)) with (64 - Z.of_nat l) in Hr by lia. lia.
Qed.

Lemma readPatches_whole pgw pw base w : 0 <= pgw -> 0 <= pw -> pgw + pw < 64 ->
  forall gs ps mark uvs out st i R,
  length gs = length ps ->
  Forall (fun g => 0 <= g < 2 ^ pgw) gs -> Forall (fun p => 0 <= p < 2 ^ pw) ps ->
  applyAll base w mark gs ps uvs = Ok out ->
  rst st i (packedBits (pgw + pw) (zipPatch pw gs ps) ++ R) ->
  nothing_lost (Z.to_nat pgw) (Z.to_nat pw) (packedBits (pgw + pw) (zipPatch pw gs ps) ++ R) (length ps) ->
  exists st' i', run (readPatches st (length ps) pgw pw base w mark uvs) i = Ok (out, i') /\ rst st' i' R.
Proof.
  intros H1 H2 H3. induction gs as [|g gs IH]; intros ps mark uvs out st i R Hl Hg Hp Ha Hst Hf;
    destruct ps as [|p ps]; cbn [length] in Hl; try lia.
  - cbn [applyAll] in Ha. injection Ha as <-. exists st, i. split; [reflexivity|exact Hst].
  - inversion Hg as [|? ? Hg0 Hgs]; subst. inversion Hp as [|? ? Hp0 Hps]; subst.
    cbn [applyAll] in Ha. apply rbind_inv in Ha. destruct Ha as (uvs' & Ha1 & Ha2).
    destruct (zip_entry pgw pw g p H1 H2 H3 Hg0 Hp0) as [Hz Hr].
    cbn [zipPatch] in Hst, Hf. rewrite Hz in Hst, Hf.
    cbn [length readPatches]. cbn [length nothing_lost] in Hf.
    unfold packedBits in *. cbn [flat_map] in *. rewrite <- app_assoc in *.
    set (rest := flat_map (bitsN (Z.to_nat (pgw + pw))) (zipPatch pw gs ps) ++ R) in *.
    set (z := g * 2 ^ pw + p) in *.
    assert (Ew : (Z.to_nat pgw + Z.to_nat pw)%nat = Z.to_nat (pgw + pw)) by lia. rewrite Ew in Hf.
    assert (Er : skipn (Z.to_nat (pgw + pw)) (bitsN (Z.to_nat (pgw + pw)) z ++ rest) = rest).
    { rewrite skipn_app, length_bitsN, Nat.sub_diag. rewrite skipn_all2 by (rewrite length_bitsN; lia). reflexivity. }
    rewrite Er in Hf. destruct Hf as [Hf1 Hf2].
    apply whole_entry in Hf1; [|rewrite Z2Nat.id by lia; exact Hr|lia|apply Nat.mod_upper_bound; discriminate].
    destruct (readBits_wide st i (pgw + pw) z rest ltac:(lia) Hr Hst) as (st1 & i1 & Hrd & Hst1).
    rewrite Hf1 in Hrd. unfold z in Hrd.
    rewrite run_bind, Hrd. cbn [rbind]. cbv zeta. rewrite shiftr_div, mask_mod by lia.
    pose proof (pow2_pos pw H2) as Hpp.
    replace ((g * 2 ^ pw + p) / 2 ^ pw) with g
      by (rewrite Z.add_comm, Z.div_add, Z.div_small by lia; lia).
    replace ((g * 2 ^ pw + p) mod 2 ^ pw) with p
      by (rewrite Z.add_comm, Z.mod_add, Z.mod_small by lia; lia).
    rewrite run_bind, run_plift, Ha1. cbn [rbind].
    apply (IH ps (mark + g) uvs' out st1 i1 R); try assumption; lia.
Qed.

Lemma patched_whole h i vs r : is_u8 h -> bytes i -> h / 64 = 2 -> orc_patched true h i = Some (vs, r) ->
  patches_whole (h :: i) ->
  decodes true (readPatched h) i vs r.
Proof.
  intros Hh Hb Hh64 H Hwhole. destruct i as [|h1 [|h2 [|h3 i]]]; try discriminate. cbn [orc_patched] in H.
  specialize (Hwhole h h1 h2 h3 i eq_refl Hh64). cbv zeta in Hwhole. destruct Hwhole as [H64 Hlost].
  inversion Hb as [|? ? Hh1 Hb1]; subst. inversion Hb1 as [|? ? Hh2 Hb2]; subst.
  inversion Hb2 as [|? ? Hh3 Hbi]; subst. cbv zeta in H.
  destruct (length_field h h1 Hh Hh1) as [Hlen0 Hlen]. set (len := orc_length h h1) in *.
  destruct (head_fields h Hh) as (_ & Hcode & _ & Hc & _). set (c := (h / 2) mod 32) in *.
  unfold is_u8 in Hh2, Hh3.
  set (bw := h2 / 32 + 1) in *. assert (Hbw : 1 <= bw <= 8) by (unfold bw; zlia).
  set (pc := h2 mod 32) in *. assert (Hpc : 0 <= pc < 32) by (unfold pc; zlia).
  set (pgw := h3 / 32 + 1) in *. assert (Hpgw : 1 <= pgw <= 8) by (unfold pgw; zlia).
  set (pll := h3 mod 32) in *. assert (Hpll : 0 <= pll < 32) by (unfold pll; zlia).
  destruct (code_table c Hc) as (Hw & _ & Hwr & Hwc).
  destruct (code_table pc Hpc) as (Hpw & _ & Hpwr & _).
  set (w := orc_width c) in *. set (pw := orc_width pc) in *.
  destruct (Z.ltb_spec 64 (pgw + pw)) as [|_]; [discriminate|].
  destruct (big_endian _ i) as [[b i1]|] eqn:E1; [|discriminate].
  apply big_endian_spec in E1; [|exact Hbi]. destruct E1 as (-> & Hbv & Hbi1).
  rewrite Z2Nat.id in Hbv by lia.
  destruct (packed w len i1) as [[data i2]|] eqn:E2; [|discriminate].
  apply packed_spec in E2; [|lia|lia|exact Hbi1].
  destruct E2 as (o1 & pad1 & -> & Hbo1 & Hbi2 & Hl1 & Hfit1 & Hp1 & Hbits1).
  destruct (packed (pgw + pw) pll i2) as [[es i3]|] eqn:E3; [|discriminate].
  apply packed_spec in E3; [|lia|lia|exact Hbi2].
  destruct E3 as (o2 & pad2 & -> & Hbo2 & Hbi3 & Hl2 & Hfit2 & Hp2 & Hbits2).
  destruct (orc_patch w pw (-1) _ data) as [out|] eqn:E4; [|discriminate]. injection H as <- <-.
  set (sign := 2 ^ (8 * bw - 1)) in *.
  assert (Hsign : 0 < sign) by (apply pow2_pos; lia).
  assert (Hpow : 2 ^ (8 * bw) = 2 * sign).
  { unfold sign. rewrite <- Z.pow_succ_r by lia. f_equal. lia. }
  assert (Hs63 : sign <= W63).
  { unfold sign. change W63 with (2 ^ 63). apply Z.pow_le_mono_r; lia. }
  set (neg := sign <=? b) in *. set (m := if neg then b - sign else b).
  assert (Hm : 0 <= m < sign) by (unfold m, neg; destruct (Z.leb_spec sign b); lia).
  destruct (base_bytes (Z.to_nat bw) m neg) as (Hbb1 & Hbb2 & Hbb3).
  { lia. }
  { rewrite Z2Nat.id by lia. exact Hm. }
  cbv zeta in Hbb1, Hbb2, Hbb3. rewrite Z2Nat.id in Hbb1, Hbb2, Hbb3 by lia.
  assert (Hb' : (if neg then Z.lor m (u64 (Z.shiftl 1 ((bw - 1) * 8 + 7))) else m) = b).
  { unfold m. destruct neg eqn:En; [|reflexivity]. rewrite shiftl_mul by lia.
    replace ((bw - 1) * 8 + 7) with (8 * bw - 1) by lia. fold sign.
    rewrite u64_id by (unfold is_u64; lia). unfold m in Hm. unfold sign at 2.
    rewrite lor_add' by (fold sign; lia). fold sign. lia. }
  rewrite Hb' in Hbb1, Hbb2, Hbb3.
  set (base := if neg then - (b - sign) else b) in *.
  assert (Hbase : (if neg then i64 (- i64 m) else i64 m) = base).
  { unfold base. rewrite (i64_id m) by (unfold is_i64; lia). unfold m. unfold m in Hm. destruct neg.
    - rewrite i64_id by (unfold is_i64; lia). reflexivity.
    - reflexivity. }
  assert (Hwc' : 0 <= w < 63 \/ w = 64) by lia.
  pose proof (pow2_pos pw ltac:(lia)) as Hppw.
  assert (Hesu : Forall (fun e => 0 <= e < W64) es).
  { eapply Forall_impl; [|exact Hfit2]. cbv beta. intros e He.
    assert (2 ^ (pgw + pw) <= 2 ^ 64) by (apply Z.pow_le_mono_r; lia). change (2 ^ 64) with W64 in *. lia. }
  assert (Happ : applyAll base w 0 (map (fun e => e / 2 ^ pw) es) (map (fun e => e mod 2 ^ pw) es)
     (map (offv base) data) = Ok (map (offv base) out)).
  { apply (orc_patch_spec base) in E4; [|exact Hwc'|lia|lia| |].
    - destruct es as [|e t]; [exact E4|]. cbn [map applyAll] in *.
      replace ((e + 2 ^ pw) / 2 ^ pw) with (e / 2 ^ pw + 1) in E4
        by (replace (e + 2 ^ pw) with (e + 1 * 2 ^ pw) by lia; rewrite Z.div_add by lia; reflexivity).
      replace ((e + 2 ^ pw) mod 2 ^ pw) with (e mod 2 ^ pw) in E4
        by (replace (e + 2 ^ pw) with (e + 1 * 2 ^ pw) by lia; rewrite Z.mod_add by lia; reflexivity).
      replace (-1 + (e / 2 ^ pw + 1)) with (0 + e / 2 ^ pw) in E4 by lia. exact E4.
    - destruct es as [|e t]; [constructor|]. pose proof (Forall_inv Hesu) as He. pose proof (Forall_inv_tail Hesu) as Ht. cbv beta in He.
      constructor; [lia|]. eapply Forall_impl; [|exact Ht]. cbv beta. lia.
    - intros k d _ Hk. apply nth_error_In in Hk. rewrite Forall_forall in Hfit1. apply Hfit1. exact Hk. }
  unfold decodes, readPatched.
  change (h1 :: h2 :: h3 :: be_bytes (Z.to_nat bw) b ++ o1 ++ o2 ++ i3)
    with ([h1; h2; h3] ++ be_bytes (Z.to_nat bw) b ++ o1 ++ o2 ++ i3).
  rewrite run_full by reflexivity. cbn [nth]. cbv zeta.
  rewrite Hcode, run_bind, run_plift, Hw. cbn [rbind].
  replace (Z.land h2 31) with pc by (rewrite IntRunsP.land_31; reflexivity).
  rewrite run_bind, run_plift, Hpw. cbn [rbind].
  replace (Z.land (Z.shiftr h3 5) 7 + 1) with pgw
    by (rewrite shiftr_div, land_7 by lia; change (2 ^ 5) with 32; unfold pgw; zlia).
  replace (Z.land (Z.shiftr h2 5) 7 + 1) with bw
    by (rewrite shiftr_div, land_7 by lia; change (2 ^ 5) with 32; unfold bw; zlia).
  replace (Z.land h3 31) with pll by (rewrite IntRunsP.land_31; reflexivity).
  destruct (Z.leb_spec 64 (pw + pgw)); [lia|].
  rewrite run_full by exact Hbb1. cbv zeta. rewrite Hbb2, Hbb3, Hbase, Hlen0. fold len.
  rewrite run_bind, <- Hl1.
  rewrite (read_packed w data o1 pad1 (o2 ++ i3)); auto;
    [|lia|apply fits_code; exact Hc].
  cbn [rbind].
  change (map (fun d => Zigzag (i64 (base + i64 d))) data) with (map (offv base) data).
  assert (Hrp : run (readPatches (0, 0) (Z.to_nat pll) pgw pw base w 0 (map (offv base) data)) (o2 ++ i3)
     = Ok (map (offv base) out, i3)).
  { assert (Hlo1 : 8 * zlen o1 = len * w + Z.of_nat (length pad1)).
    { apply (f_equal (@length bool)) in Hbits1. rewrite length_bitsOfBytes, app_length, length_packedBits in Hbits1.
      unfold zlen. rewrite Hl1 in Hbits1. nia. }
    assert (Hskip : zdrop (bw + (len * w + 7) / 8) (be_bytes (Z.to_nat bw) b ++ o1 ++ o2 ++ i3) = o2 ++ i3).
    { replace ((len * w + 7) / 8) with (zlen o1) by zlia. unfold zdrop. rewrite app_assoc, skipn_app.
      assert (El : length (be_bytes (Z.to_nat bw) b ++ o1) = Z.to_nat (bw + zlen o1))
        by (rewrite app_length, Hbb1; unfold zlen; lia).
      rewrite <- El, skipn_all, Nat.sub_diag. reflexivity. }
    rewrite Hskip in Hlost.
    assert (Hbo : bytes (o2 ++ i3)) by (apply bytes_app; auto).
    pose proof (rst_start _ Hbo) as Hst. rewrite bitsOfBytes_app, Hbits2, <- app_assoc in Hst.
    rewrite bitsOfBytes_app, Hbits2, <- app_assoc in Hlost.
    rewrite <- (zip_entries pw es) in Hst, Hlost by (assumption || lia).
    rewrite <- Hl2 in Hlost |- *.
    assert (Hll : length es = length (map (fun e => e mod 2 ^ pw) es)) by (symmetry; apply map_length).
    rewrite Hll in Hlost |- *.
    assert (HG : Forall (fun g => 0 <= g < 2 ^ pgw) (map (fun e => e / 2 ^ pw) es)).
    { apply Forall_map. eapply Forall_impl; [|exact Hfit2]. cbv beta. intros e He.
      split; [apply Z.div_pos; lia|]. apply Z.div_lt_upper_bound; [lia|].
      rewrite Z.pow_add_r in He by lia. lia. }
    assert (HP : Forall (fun p => 0 <= p < 2 ^ pw) (map (fun e => e mod 2 ^ pw) es)).
    { apply Forall_map. eapply Forall_impl; [|exact Hfit2]. cbv beta. intros e He.
      apply Z.mod_pos_bound. lia. }
    destruct (readPatches_whole pgw pw base w ltac:(lia) ltac:(lia) H64 (map (fun e => e / 2 ^ pw) es)
      (map (fun e => e mod 2 ^ pw) es) 0 (map (offv base) data) (map (offv base) out) (0, 0) (o2 ++ i3)
      (pad2 ++ bitsOfBytes i3) ltac:(rewrite !map_length; reflexivity) HG HP Happ Hst Hlost) as (st' & i' & Hr & Hst').
    apply rst_end in Hst'; [|exact Hbi3|exact Hp2]. subst i'. exact Hr. }
  rewrite Hrp. eexists. split; [reflexivity|].
  split; [apply Forall_map, Forall_forall; intros; apply offv_u64|].
  rewrite map_map. apply map_ext. intros v. rewrite unzig_UnZigzag by apply offv_u64.
  rewrite UnZigzag_offv. reflexivity.
Qed.


Lemma whole_agrees h i vs r : bytes (h :: i) -> h / 64 = 2 -> orc_run true (h :: i) = Some (vs, r) ->
  patches_whole (h :: i) -> run (DecodeFor true) (h :: i) = Ok (vs, r).
Proof.
  intros Hb H2 H Hw. apply decodes_for; [exact Hb|]. inversion Hb as [|? ? Hh Hbi]; subst.
  cbn [orc_run] in H. rewrite H2 in *. cbn [Z.eqb Pos.eqb] in *. apply patched_whole; assumption.
Qed.
Lemma small_whole pgw pw : (pgw + pw <= 57)%nat -> forall n bits, nothing_lost pgw pw bits n.
Proof.
  intros H. induction n as [|n IH]; intros bits; [exact I|]. cbn [nothing_lost]. split; [|apply IH].
  pose proof (Nat.mod_upper_bound (length (skipn (pgw + pw) bits)) 8 ltac:(discriminate)).
  replace (pgw + pw + length (skipn (pgw + pw) bits) mod 8 - 64)%nat with 0%nat by lia. reflexivity.
Qed.
Lemma refused h i : bytes (h :: i) -> h / 64 = 2 ->
  run (DecodeFor false) (h :: i) = Err /\
  forall h1 h2 h3 t, i = h1 :: h2 :: h3 :: t -> 64 <= h3 / 32 + 1 + orc_width (h2 mod 32) ->
    run (DecodeFor true) (h :: i) = Err.
Proof.
  intros Hb H2. inversion Hb as [|? ? Hh _]; subst. split.
  - cbn [DecodeFor]. unfold DecodeUInt, decode. rewrite run_byte. destruct (head_fields h Hh) as (E & _).
    rewrite E, H2. reflexivity.
  - intros h1 h2 h3 t -> Hw. cbn [DecodeFor]. unfold DecodeInt. rewrite run_bind, (wide_fails h h1 h2 h3 t Hb H2 Hw).
    reflexivity.
Qed.
