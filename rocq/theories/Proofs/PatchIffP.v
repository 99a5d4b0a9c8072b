(** Which patched runs come back: Model/IntRle.v tryPatch, writePatch, readPatched. *)
From Verif.Model Require Import Codec IntRle.
From Verif.Spec Require Import Bits Session IntSpec OrcInt.
From Verif.Proofs Require Import Base CodecP SessionP BitsP IntRunsP IntPatchP IntBytesP IntClaimsP OrcIntP SizeP.

(** ** How many bytes the bit reader consumes *)
Lemma rb_size f : forall bits has data l d h r, run (rb_loop f bits has data) l = Ok ((d, h), r) ->
  8 * (zlen l - zlen r) = h - has /\ (has < bits -> h < bits + 8) /\ (bits <= has -> h = has) /\
  (bits <= has + 8 * Z.of_nat f -> bits <= h).
Proof.
  induction f as [|f IH]; intros bits has data l d h r H; cbn [rb_loop] in H.
  - rewrite run_ret in H. assert (h = has) as -> by congruence. assert (r = l) as -> by congruence. lia.
  - destruct (Z.ltb_spec has bits).
    + destruct l as [|b l]; [discriminate|]. rewrite run_byte in H. apply IH in H. rewrite zlen_cons.
      destruct H as (H1 & H2 & H3 & H4). repeat split; try lia; intros; destruct (Z.lt_ge_cases (has + 8) bits); lia.
    + rewrite run_ret in H. assert (h = has) as -> by congruence. assert (r = l) as -> by congruence. lia.
Qed.
Lemma readBits_size st w l v st' r : 0 <= snd st < 8 -> 0 <= w <= 64 -> run (readBits st w) l = Ok ((v, st'), r) ->
  8 * (zlen l - zlen r) + snd st = w + snd st' /\ 0 <= snd st' < 8.
Proof.
  destruct st as [lb bl]. cbn [snd]. intros Hs Hw H. unfold readBits in H. rewrite run_bind in H.
  apply rbind_inv in H. destruct H as ([[d h] l1] & H1 & H). rewrite run_ret in H.
  apply rb_size in H1. destruct H1 as (H1 & H2 & H3 & H4). change (8 * Z.of_nat 8) with 64 in H4.
  assert (l1 = r) as -> by congruence.
  match type of H with Ok ((_, ?s), _) = _ => assert (st' = s) as -> by congruence end. cbn [snd].
  destruct (Z.lt_ge_cases bl w); lia.
Qed.
Lemma readBitsAll_size n : forall st w l vs r, 0 <= snd st < 8 -> 0 <= w <= 64 ->
  run (readBitsAll st n w) l = Ok (vs, r) ->
  exists a, 8 * (zlen l - zlen r) + snd st = Z.of_nat n * w + a /\ 0 <= a < 8.
Proof.
  induction n as [|n IH]; intros st w l vs r Hs Hw H; cbn [readBitsAll] in H.
  - rewrite run_ret in H. assert (r = l) as -> by congruence. exists (snd st). lia.
  - rewrite run_bind in H. apply rbind_inv in H. destruct H as ([[v st'] l1] & H1 & H).
    rewrite run_bind in H. apply rbind_inv in H. destruct H as ([t l2] & H2 & H). rewrite run_ret in H.
    assert (l2 = r) as -> by congruence.
    apply readBits_size in H1; [|exact Hs|exact Hw]. destruct H1 as (H1 & Hs').
    apply IH in H2; [|exact Hs'|exact Hw]. destruct H2 as (a & H2 & Ha). exists a. split; [|exact Ha].
    rewrite Nat2Z.inj_succ. lia.
Qed.
Lemma readPatches_size n : forall st pgw pw base w mark uvs l vs r, 0 <= snd st < 8 -> 0 <= pgw + pw <= 64 ->
  run (readPatches st n pgw pw base w mark uvs) l = Ok (vs, r) ->
  exists a, 8 * (zlen l - zlen r) + snd st = Z.of_nat n * (pgw + pw) + a /\ 0 <= a < 8.
Proof.
  induction n as [|n IH]; intros st pgw pw base w mark uvs l vs r Hs Hw H; cbn [readPatches] in H.
  - rewrite run_ret in H. assert (r = l) as -> by congruence. exists (snd st). lia.
  - rewrite run_bind in H. apply rbind_inv in H. destruct H as ([[v st'] l1] & H1 & H). cbv zeta in H.
    rewrite run_bind, run_plift in H. apply rbind_inv in H. destruct H as ([u l2] & H2 & H).
    apply rbind_inv in H2. destruct H2 as (u' & _ & E). assert (l2 = l1) as -> by congruence.
    apply readBits_size in H1; [|exact Hs|exact Hw]. destruct H1 as (H1 & Hs').
    apply IH in H; [|exact Hs'|exact Hw]. destruct H as (a & H2 & Ha). exists a. split; [|exact Ha].
    rewrite Nat2Z.inj_succ. lia.
Qed.

(** ** What is written *)
Lemma packBits_exact vs b o : 0 <= b -> packBits vs b = Ok o ->
  exists a, 8 * zlen o = zlen vs * b + a /\ 0 <= a < 8.
Proof.
  intros Hb H. unfold packBits in H. apply rbind_inv in H. destruct H as ([st o1] & H1 & H).
  assert (o = o1 ++ writeLeftBits st) as -> by congruence. apply writeBitsAll_size in H1; [|lia|cbn; lia].
  destruct H1 as (_ & H1 & Hr). rewrite zlen_app. cbn [snd] in H1. unfold writeLeftBits.
  destruct st as [lb bl]. cbn [snd] in *.
  destruct (Z.eqb_spec bl 0); cbn [negb]; rewrite ?zlen_cons, ?zlen_nil; [exists 0|exists (8 - bl)]; lia.
Qed.

(** ** Runs of one bit offsets from 0 stay non-negative *)
Lemma readBits_one st l v st' r : bytes l -> 0 <= snd st < 8 -> 0 <= fst st < 2 ^ snd st ->
  run (readBits st 1) l = Ok ((v, st'), r) ->
  0 <= v < 2 /\ bytes r /\ 0 <= snd st' < 8 /\ 0 <= fst st' < 2 ^ snd st'.
Proof.
  destruct st as [lb bl]. cbn [fst snd]. intros Hb Hs Hl H. unfold readBits in H. rewrite run_bind in H.
  cbn [rb_loop] in H.
  assert (Hfin : forall d h, 1 <= h <= 8 -> 0 <= d < 2 ^ h ->
    0 <= Z.shiftr d (h - 1) < 2 /\ 0 <= h - 1 < 8 /\
    0 <= u8 (Z.land d (Z.shiftl 1 (h - 1) - 1)) < 2 ^ (h - 1)).
  { intros d h Hh Hd. rewrite shiftr_div, shiftl_mul, Z.mul_1_l, land_ones_mod by lia.
    pose proof (pow2_pos (h - 1) ltac:(lia)) as Hp.
    assert (E2 : 2 ^ h = 2 ^ (h - 1) * 2) by (rewrite Z.mul_comm, <- Z.pow_succ_r by lia; f_equal; lia). rewrite E2 in Hd.
    pose proof (Z.mod_pos_bound d (2 ^ (h - 1)) ltac:(lia)) as Hm.
    assert (2 ^ (h - 1) <= 2 ^ 7) by (apply Z.pow_le_mono_r; lia). change (2 ^ 7) with 128 in *.
    split; [split; [apply Z.div_pos; lia|apply Z.div_lt_upper_bound; lia]|].
    split; [lia|]. rewrite u8_id by (unfold is_u8; lia). exact Hm. }
  destruct (Z.ltb_spec bl 1).
  - assert (bl = 0) as -> by lia. change (2 ^ 0) with 1 in Hl. assert (lb = 0) as -> by lia.
    destruct l as [|b l]; [discriminate|]. rewrite run_byte in H.
    change (0 + 8 <? 1) with false in H. cbv iota in H. rewrite run_ret in H. cbn [rbind] in H. cbv zeta in H. rewrite run_ret in H.
    change (Z.lor (u64 (Z.shiftl 0 8)) b) with b in H. inversion Hb as [|? ? Hb1 Hb2]; subst.
    destruct (Hfin b 8 ltac:(lia) ltac:(unfold is_u8 in Hb1; change (2 ^ 8) with 256; lia)) as (F1 & F2 & F3).
    change (0 + 8) with 8 in H.
    assert (Ev : v = Z.shiftr b (8 - 1)) by congruence. assert (Er : r = l) by congruence.
    assert (Es : st' = (u8 (Z.land b (Z.shiftl 1 (8 - 1) - 1)), 8 - 1)) by congruence.
    subst v r st'. cbn [fst snd]. auto.
  - rewrite run_ret in H. cbn [rbind] in H. cbv zeta in H. rewrite run_ret in H.
    destruct (Hfin lb bl ltac:(lia) Hl) as (F1 & F2 & F3).
    assert (Ev : v = Z.shiftr lb (bl - 1)) by congruence. assert (Er : r = l) by congruence.
    assert (Es : st' = (u8 (Z.land lb (Z.shiftl 1 (bl - 1) - 1)), bl - 1)) by congruence.
    subst v r st'. cbn [fst snd]. auto.
Qed.
Lemma readBitsAll_one n : forall st l vs r, bytes l -> 0 <= snd st < 8 -> 0 <= fst st < 2 ^ snd st ->
  run (readBitsAll st n 1) l = Ok (vs, r) -> Forall (fun v => 0 <= v < 2) vs.
Proof.
  induction n as [|n IH]; intros st l vs r Hb Hs Hl H; cbn [readBitsAll] in H.
  - rewrite run_ret in H. assert (vs = []) as -> by congruence. constructor.
  - rewrite run_bind in H. apply rbind_inv in H. destruct H as ([[v st'] l1] & H1 & H).
    rewrite run_bind in H. apply rbind_inv in H. destruct H as ([t l2] & H2 & H). rewrite run_ret in H.
    assert (vs = v :: t) as -> by congruence.
    apply readBits_one in H1; auto. destruct H1 as (Hv & Hb' & Hs' & Hl').
    constructor; [exact Hv|]. eapply IH; eassumption.
Qed.
Definition plus (u : Z) : Prop := is_u64 u /\ 0 <= UnZigzag u.
Lemma lor_lt a b n : 0 <= n -> 0 <= a < 2 ^ n -> 0 <= b < 2 ^ n -> 0 <= Z.lor a b < 2 ^ n.
Proof.
  intros Hn Ha Hb. split; [apply Z.lor_nonneg; lia|].
  destruct (Z.eq_dec (Z.lor a b) 0) as [->|Hz]; [apply pow2_pos; lia|].
  assert (0 <= Z.lor a b) by (apply Z.lor_nonneg; lia).
  apply Z.log2_lt_pow2; [lia|]. rewrite Z.log2_lor by lia.
  destruct (Z.eq_dec n 0) as [->|Hn0].
  - change (2 ^ 0) with 1 in *. assert (a = 0) as -> by lia. assert (b = 0) as -> by lia. cbn in Hz. lia.
  - apply Z.max_lub_lt.
    + destruct (Z.eq_dec a 0) as [->|]; [cbn; lia|]. apply Z.log2_lt_pow2; lia.
    + destruct (Z.eq_dec b 0) as [->|]; [cbn; lia|]. apply Z.log2_lt_pow2; lia.
Qed.
Lemma set_nth_Forall (P : Z -> Prop) l : forall n v, Forall P l -> P v -> Forall P (IntRle.set_nth l n v).
Proof.
  induction l as [|a t IH]; intros n v Hl Hv; destruct n; cbn [IntRle.set_nth]; auto; inversion Hl; subst; constructor; auto.
Qed.
Lemma readPatches_plus n : forall st pgw pw mark uvs l vs r, 0 <= pw <= 62 -> Forall plus uvs ->
  run (readPatches st n pgw pw 0 1 mark uvs) l = Ok (vs, r) -> Forall plus vs.
Proof.
  induction n as [|n IH]; intros st pgw pw mark uvs l vs r Hp Hu H; cbn [readPatches] in H.
  - rewrite run_ret in H. assert (vs = uvs) as -> by congruence. exact Hu.
  - rewrite run_bind in H. apply rbind_inv in H. destruct H as ([[v st'] l1] & _ & H). cbv zeta in H.
    rewrite run_bind, run_plift in H. apply rbind_inv in H. destruct H as ([u l2] & H2 & H).
    apply rbind_inv in H2. destruct H2 as (u' & Ha & E). assert (u' = u) as -> by congruence. clear E.
    apply IH in H; [exact H|exact Hp|]. unfold applyPatch in Ha.
    destruct (nth_error uvs _) as [x|] eqn:En; [|discriminate].
    match type of Ha with Ok ?y = _ => assert (u = y) as -> by congruence end.
    apply set_nth_Forall; [exact Hu|].
    assert (Hx : plus x) by (rewrite Forall_forall in Hu; apply Hu; eapply nth_error_In; exact En).
    destruct Hx as [Hxu Hx]. pose proof (UnZigzag_range x Hxu) as Hxr. unfold is_i64 in Hxr.
    rewrite Z.sub_0_r, Z.add_0_r. rewrite (i64_id (UnZigzag x)) by (unfold is_i64; lia).
    replace (Z.shiftl 1 pw - 1) with (2 ^ pw - 1) by (rewrite shiftl_mul by lia; lia).
    rewrite land_ones_mod by lia. pose proof (Z.mod_pos_bound v (2 ^ pw) ltac:(apply pow2_pos; lia)) as Hm.
    assert (2 ^ pw <= 2 ^ 62) by (apply Z.pow_le_mono_r; lia).
    rewrite shiftl_mul by lia. change (2 ^ 1) with 2.
    assert (Hs : 0 <= v mod 2 ^ pw * 2 < W63) by (change W63 with (2 ^ 62 * 2); lia).
    rewrite (i64_id (v mod 2 ^ pw * 2)) by (unfold is_i64; lia).
    pose proof (lor_lt (UnZigzag x) (v mod 2 ^ pw * 2) 63 ltac:(lia)) as Hl. change (2 ^ 63) with W63 in Hl.
    specialize (Hl ltac:(lia) Hs).
    rewrite i64_id by (unfold is_i64; lia). split; [apply Zigzag_range; unfold is_i64; lia|].
    rewrite UnZigzag_Zigzag by (unfold is_i64; lia). lia.
Qed.

(** ** What one patched run of the reader consumes *)
Lemma readPatched_inv fb h1 h2 h3 l vs width pw :
  is_u8 fb -> is_u8 h1 -> bytes l ->
  run (readPatched fb) (h1 :: h2 :: h3 :: l) = Ok (vs, []) ->
  widthDecoding (Z.land (Z.shiftr fb 1) 31) false = Ok width -> widthDecoding (Z.land h2 31) false = Ok pw ->
  0 <= width <= 64 -> 0 <= pw -> 0 <= Z.land (Z.shiftr h3 5) 7 -> 0 <= Z.land h3 31 ->
  let bw := Z.land (Z.shiftr h2 5) 7 + 1 in
  let pgw := Z.land (Z.shiftr h3 5) 7 + 1 in
  pw + pgw < 64 /\ zlen vs <= 512 /\
  exists bb l1 A P a b, l = bb ++ l1 /\ length bb = Z.to_nat bw /\ 0 <= a < 8 /\ 0 <= b < 8 /\
    zlen l1 = A + P /\ 8 * A = zlen vs * width + a /\ 8 * P = Z.land h3 31 * (pgw + pw) + b /\
    (bb = [0] -> width = 1 -> Forall plus vs).
Proof.
  intros Hfb Hh1 Hl H Hw Hpw Hwr Hpr Hg0 Hk0 bw pgw. assert (Hg1 : 1 <= pgw) by (unfold pgw; lia). unfold readPatched in H.
  change (h1 :: h2 :: h3 :: l) with ([h1; h2; h3] ++ l) in H. rewrite run_full in H by reflexivity.
  cbn [nth] in H. cbv zeta in H. rewrite Hw, run_bind, run_plift in H. cbn [rbind] in H.
  rewrite Hpw, run_bind, run_plift in H. cbn [rbind] in H. fold pgw bw in H.
  destruct (length_field fb h1 Hfb Hh1) as [Elen Hlen]. rewrite Elen in H.
  destruct (Z.leb_spec 64 (pw + pgw)); [discriminate|]. split; [lia|].
  apply run_full_inv in H. destruct H as (bb & l1 & -> & Hbb & H). cbv zeta in H.
  rewrite run_bind in H. apply rbind_inv in H. destruct H as ([ds l2] & Hds & H).
  pose proof (readBitsAll_length _ _ _ _ _ _ Hds) as Hdl. pose proof (readPatches_length _ _ _ _ _ _ _ _ _ _ _ H) as Hpl.
  rewrite map_length, Hdl in Hpl.
  assert (Hz : zlen vs = orc_length fb h1) by (unfold zlen; rewrite Hpl; lia).
  split; [lia|].
  destruct (readBitsAll_size _ (0, 0) _ _ _ _ ltac:(cbn; lia) Hwr Hds) as (a & Ha & Har).
  destruct (readPatches_size _ (0, 0) pgw pw _ _ _ _ _ _ _ ltac:(cbn; lia) ltac:(lia) H) as (b & Hb & Hbr).
  cbn [snd] in Ha, Hb. rewrite Z2Nat.id in Ha, Hb by lia. rewrite zlen_nil in Hb. rewrite Hz.
  exists bb, l1, (zlen l1 - zlen l2), (zlen l2), a, b. split; [reflexivity|]. split; [exact Hbb|]. split; [exact Har|]. split; [exact Hbr|].
  split; [lia|]. split; [lia|]. split; [lia|].
  intros -> ->. apply bytes_app in Hl. destruct Hl as [_ Hl].
  cbn [hd tl] in H. change (Z.shiftr 0 7 =? 1) with false in H. cbv iota in H.
  change (i64 (be_value [Z.land 0 127] 0)) with 0 in H.
  eapply readPatches_plus; [|  |exact H]; [lia|].
  apply readBitsAll_one in Hds; [|exact Hl|cbn; lia|cbn; lia].
  apply Forall_map. eapply Forall_impl; [|exact Hds]. intros d Hd. cbv beta in Hd.
  rewrite Z.add_0_l. rewrite !(i64_id d) by (unfold is_i64; lia).
  split; [apply Zigzag_range; unfold is_i64; lia|]. rewrite UnZigzag_Zigzag by (unfold is_i64; lia). lia.
Qed.

Lemma tryPatch_base values p : tryPatch values = Ok (Some p) -> In (p_base p) (map UnZigzag values).
Proof.
  intros H. destruct values as [|v0 [|v1 rest]]; [discriminate|discriminate|]. cbn [tryPatch] in H.
  set (b := minimum _ _) in *. set (w := find_w 65 _ _ 0 0) in *.
  destruct (w <? _); [|discriminate]. destruct (splitPatches _ _ 0 0) as [[vs gs] ps].
  destruct (31 <? zlen ps); [discriminate|].
  assert (Hb : p_base p = b) by (inversion H; reflexivity). rewrite Hb.
  change (map UnZigzag (v0 :: v1 :: rest)) with (UnZigzag v0 :: map UnZigzag (v1 :: rest)).
  destruct (minimum_spec (map UnZigzag (v1 :: rest)) (UnZigzag v0)) as (_ & _ & [E|E]); fold b in E.
  - left. symmetry. exact E.
  - right. exact E.
Qed.

Lemma fillers_strict f : forall i prev g p, 0 <= prev < i -> fillers f i prev = (g, p) ->
  Forall (fun g => g <> 0) g /\ p < i.
Proof.
  induction f as [|f IH]; intros i prev g p Hi H; cbn [fillers] in H.
  - assert (g = []) as -> by congruence. assert (p = prev) as -> by congruence. split; [constructor|lia].
  - destruct (Z.ltb_spec 255 (i - prev)).
    + destruct (fillers f i (prev + 255)) as [g1 p1] eqn:E. apply IH in E; [|lia]. destruct E as [E1 E2].
      assert (g = 255 :: g1) as -> by congruence. assert (p = p1) as -> by congruence.
      split; [constructor; [discriminate|exact E1]|exact E2].
    + assert (g = []) as -> by congruence. assert (p = prev) as -> by congruence. split; [constructor|lia].
Qed.
(** Only the first place of a run can have the gap 0. *)
Lemma split_strict w ds : forall i prev vs gs ps, 0 <= prev < i -> splitPatches w ds i prev = (vs, gs, ps) ->
  Forall (fun g => g <> 0) gs.
Proof.
  induction ds as [|d t IH]; intros i prev vs gs ps Hi H; cbn [splitPatches] in H.
  - assert (gs = []) as -> by congruence. constructor.
  - destruct (w <? getBitsWidth d).
    + destruct (fillers (Z.to_nat i) i prev) as [g p'] eqn:Ef.
      destruct (splitPatches w t (i + 1) i) as [[vs1 gs1] ps1] eqn:E.
      apply IH in E; [|lia]. assert (gs = g ++ (i - p') :: gs1) as -> by congruence.
      pose proof (fillers_strict (Z.to_nat i) i prev g p' Hi Ef) as [F1 F2].
      apply Forall_app. split; [exact F1|]. constructor; [lia|exact E].
    + destruct (splitPatches w t (i + 1) prev) as [[vs1 gs1] ps1] eqn:E.
      apply IH in E; [|lia]. assert (gs = gs1) as -> by congruence. exact E.
Qed.
Lemma split_zero w ds vs gs ps : splitPatches w ds 0 0 = (vs, gs, ps) -> Forall (fun g => g = 0) gs ->
  (length gs <= 1)%nat.
Proof.
  destruct ds as [|d t]; cbn [splitPatches]; intros H Hz.
  - assert (gs = []) as -> by congruence. cbn. lia.
  - change (fillers (Z.to_nat 0) 0 0) with (@nil Z, 0) in H. destruct (w <? getBitsWidth d).
    + destruct (splitPatches w t (0 + 1) 0) as [[vs1 gs1] ps1] eqn:E. apply split_strict in E; [|lia].
      assert (gs = (0 - 0) :: gs1) as -> by (cbn [app] in H; congruence).
      inversion Hz as [|? ? _ Hz']; subst. destruct gs1 as [|g gs1]; [cbn; lia|].
      inversion Hz'; inversion E; congruence.
    + destruct (splitPatches w t (0 + 1) 0) as [[vs1 gs1] ps1] eqn:E. apply split_strict in E; [|lia].
      assert (gs = gs1) as -> by congruence. destruct gs1 as [|g gs1]; [cbn; lia|].
      inversion Hz; inversion E; congruence.
Qed.

(** A patched run that comes back meets [patch_ok]. *)
Lemma patch_back values p o : Forall is_u64 values -> tryPatch values = Ok (Some p) ->
  writePatch p = Ok o -> run DecodeInt o = Ok (map UnZigzag values, []) -> patch_ok values p = true.
Proof.
  intros Hu Htry Hwr Hrun. pose proof (writePatch_bytes _ _ Hwr) as Hob. pose proof Hwr as Hwr0.
  pose proof (tryPatch_base _ _ Htry) as Hin.
  unfold writePatch in Hwr. apply rbind_inv in Hwr. destruct Hwr as (ew & Hew & Hwr).
  destruct (widthEncoding_range _ _ Hew) as [Her Hwr64]. cbv zeta in Hwr.
  set (pw := maxWidth getBitsWidth (p_patches p)) in *. set (pgw := maxWidth getBitsWidth (p_gaps p)) in *.
  apply rbind_inv in Hwr. destruct Hwr as (epw & Hepw & Hwr).
  destruct (widthEncoding_range _ _ Hepw) as [Hepr Hpwr].
  apply rbind_inv in Hwr. destruct Hwr as (ovs & Hovs & Hwr).
  destruct (Z.ltb_spec 64 (pgw + pw)); [discriminate|].
  apply rbind_inv in Hwr. destruct Hwr as (ops & Hops & Hwr). apply Ok_inj in Hwr.
  destruct (tryPatch_spec values p Hu Htry) as (ds & Hds & Hdu & Hbi & Hsplit & Hps31 & Hgt & Hl2).
  pose proof (maxWidth_64 ds Hdu) as Hmax64.
  assert (Hw63 : p_width p < 63).
  { destruct (Z.eq_dec (p_width p) 63) as [E|]; [rewrite E in Hew; discriminate|lia]. }
  destruct (split_length _ _ _ _ _ _ _ Hsplit) as [Hlvs Hlg].
  destruct (split_spec (p_width p) ltac:(lia) ds 0 0 _ _ _ Hdu Hsplit ltac:(lia))
    as (Hvs & Hgs & Hpsu & Hnz & _).
  assert (Hlen' : zlen (p_values p) = zlen values).
  { unfold zlen. rewrite Hlvs, <- Hds, map_length. reflexivity. }
  destruct Hnz as [Hnz|Hnz]; [lia|].
  assert (Hk1 : 1 <= zlen (p_patches p)).
  { destruct Hnz as (x & Hx & _). destruct (p_patches p); [destruct Hx|]. rewrite zlen_cons.
    pose proof (zlen_nonneg l). lia. }
  assert (Hpw1 : 1 <= pw).
  { destruct Hnz as (x & Hx & Hx0). rewrite Forall_forall in Hpsu. specialize (Hpsu x Hx).
    pose proof (maxWidth_ge getBitsWidth _ x Hx) as Hge. fold pw in Hge.
    destruct (getBitsWidth_spec x Hpsu) as (Hb1 & _ & _ & Hb4).
    destruct (Z.eq_dec (getBitsWidth x) 0) as [E|]; [apply Hb4 in E; congruence|lia]. }
  assert (Hgu : Forall is_u64 (p_gaps p)) by (eapply Forall_impl; [|exact Hgs]; unfold is_u64; lia).
  assert (Hpgw8 : 0 <= pgw <= 8).
  { split; [apply maxWidth_nonneg|].
    unfold pgw. destruct (maxWidth_in getBitsWidth (p_gaps p)) as [-> | (x & Hx & ->)]; [lia|].
    rewrite Forall_forall in Hgs, Hgu. specialize (Hgs x Hx). specialize (Hgu x Hx).
    apply getBitsWidth_le; [exact Hgu|lia|]. change (2 ^ 8) with 256. lia. }
  apply packBits_exact in Hovs; [|lia]. destruct Hovs as (a0 & HA & Ha0).
  apply packBits_exact in Hops; [|lia]. destruct Hops as (b0 & HB & Hb0).
  assert (Ezip : zlen (zipPatch pw (p_gaps p) (p_patches p)) = zlen (p_patches p))
    by (unfold zlen; rewrite zip_length by exact Hlg; reflexivity).
  rewrite Ezip in HB. rewrite Hlen' in HA.
  (* the header *)
  set (m := if p_base p <? 0 then u64 (i64 (- p_base p)) else u64 (p_base p)) in *.
  set (bw := (getBitsWidth m + 1 + 7) / 8) in *.
  set (b' := if p_base p <? 0 then Z.lor m _ else m) in *.
  set (l := zlen (p_values p) - 1) in *.
  set (h0 := Z.lor _ (u8 (Z.land (Z.shiftr l 8) 1))) in *. set (h1 := u8 (Z.land l 255)) in *.
  set (h2 := Z.lor (u8 (Z.shiftl (bw - 1) 5)) (Z.land epw 31)) in *.
  set (h3 := Z.lor (u8 (Z.shiftl (Z.land (u8 (pgw - 1)) 7) 5)) _) in *.
  assert (E0 : exists t, 0 <= t < 2 /\ h0 = 128 + 2 * ew + t).
  { exists (u8 (Z.land (Z.shiftr l 8) 1)). rewrite land_1.
    pose proof (Z.mod_pos_bound (Z.shiftr l 8) 2 ltac:(lia)) as Hm.
    rewrite (u8_id (Z.shiftr l 8 mod 2)) by (unfold is_u8; lia). split; [lia|].
    unfold h0. rewrite land_1, (u8_id (Z.shiftr l 8 mod 2)) by (unfold is_u8; lia).
    replace (u8 (Z.shiftl ew 1)) with (u8 (Z.shiftl (Z.land ew 31) 1))
      by (rewrite IntRunsP.land_31, Z.mod_small by lia; reflexivity).
    apply header_byte; [auto|lia|lia]. }
  destruct E0 as (t & Ht & E0).
  assert (Hpgd : Z.land (Z.shiftr h3 5) 7 + 1 = (if pgw =? 0 then 8 else pgw) /\ Z.land h3 31 = zlen (p_patches p)).
  { assert (E : Z.land (u8 (pgw - 1)) 7 = (if pgw =? 0 then 8 else pgw) - 1).
    { destruct (Z.eqb_spec pgw 0) as [E|]; [rewrite E; reflexivity|].
      rewrite u8_id by (unfold is_u8; lia). rewrite land_7. apply Z.mod_small. lia. }
    unfold h3. rewrite E. rewrite (u8_id (zlen (p_patches p))) by (unfold is_u8; lia).
    destruct (h23 ((if pgw =? 0 then 8 else pgw) - 1) (zlen (p_patches p))) as (_ & F2 & F3).
    - destruct (Z.eqb_spec pgw 0); lia.
    - lia.
    - rewrite F2, F3. lia. }
  destruct Hpgd as [Hpgd Hkd].
  unfold is_i64 in Hbi.
  assert (Hmb : (p_base p = - W63 /\ bw = 9) \/ (- W63 < p_base p /\ 1 <= bw <= 8)).
  { destruct (Z.eq_dec (p_base p) (- W63)) as [E|E].
    - left. split; [exact E|]. unfold bw, m. rewrite E. vm_compute. reflexivity.
    - right. split; [lia|].
      assert (Hm : m = Z.abs (p_base p)).
      { unfold m. destruct (Z.ltb_spec (p_base p) 0).
        - rewrite i64_id by (unfold is_i64; lia). rewrite u64_id by (unfold is_u64; lia). lia.
        - rewrite u64_id by (unfold is_u64; lia). lia. }
      assert (Hmu : is_u64 m) by (rewrite Hm; unfold is_u64; lia).
      destruct (getBitsWidth_spec m Hmu) as (Hbw1 & _ & _ & _).
      assert (Hbw63 : getBitsWidth m <= 63).
      { apply getBitsWidth_le; [exact Hmu|lia|]. change (2 ^ 63) with W63. rewrite Hm. lia. }
      unfold bw. zlia. }
  assert (Hbwd : Z.land (Z.shiftr h2 5) 7 + 1 = (if bw =? 9 then 1 else bw) /\ Z.land h2 31 = epw).
  { assert (E : h2 = Z.lor (u8 (Z.shiftl ((if bw =? 9 then 1 else bw) - 1) 5)) (Z.land epw 31)).
    { unfold h2. destruct (Z.eqb_spec bw 9) as [E|]; [rewrite E; reflexivity|reflexivity]. }
    destruct (h23 ((if bw =? 9 then 1 else bw) - 1) epw) as (_ & F2 & F3).
    - destruct (Z.eqb_spec bw 9); lia.
    - lia.
    - rewrite E, F2, F3. lia. }
  destruct Hbwd as [Hbwd Hpwd].
  (* the decoder *)
  rewrite <- Hwr in Hrun, Hob. unfold DecodeInt in Hrun. rewrite run_bind in Hrun.
  apply rbind_inv in Hrun. destruct Hrun as ([us rr] & Hrun & Hus). rewrite run_ret in Hus.
  assert (rr = []) as -> by congruence.
  assert (Hmap : map UnZigzag us = map UnZigzag values) by congruence. clear Hus.
  assert (Hlu : zlen us = zlen values).
  { unfold zlen. rewrite <- (map_length UnZigzag us), Hmap, map_length. reflexivity. }
  unfold decode in Hrun. rewrite run_byte in Hrun.
  assert (Hsub : Z.shiftr h0 6 = 2) by (rewrite E0, shiftr_div by lia; change (2 ^ 6) with 64; zlia).
  rewrite Hsub in Hrun. cbn [Z.eqb Pos.eqb] in Hrun.
  assert (Hwd : Z.land (Z.shiftr h0 1) 31 = ew).
  { rewrite E0, shiftr_div, IntRunsP.land_31 by lia. change (2 ^ 1) with 2. zlia. }
  assert (Hwdec : widthDecoding ew false = Ok (if p_width p =? 0 then 1 else p_width p)).
  { destruct (Z.eqb_spec (p_width p) 0) as [E|].
    - rewrite E in Hew. assert (ew = 0) as -> by (vm_compute in Hew; congruence). reflexivity.
    - apply width_roundtrip; [exact Hew|lia]. }
  inversion Hob as [|? ? Hb0' Hob1]; subst x l0. inversion Hob1 as [|? ? Hb1' Hob2]; subst x l0.
  inversion Hob2 as [|? ? _ Hob3]; subst x l0. inversion Hob3 as [|? ? _ Hob4]; subst x l0.
  rewrite <- Hwd in Hwdec. pose proof (width_roundtrip _ _ Hepw Hpw1) as Hpdec. rewrite <- Hpwd in Hpdec.
  assert (HH : 0 <= Z.land (Z.shiftr h3 5) 7) by (apply Z.land_nonneg; right; lia).
  destruct (readPatched_inv h0 h1 h2 h3 _ us _ _ Hb0' Hb1' Hob4 Hrun Hwdec Hpdec) as (Hsum & H512 & bb & l1 & A & P & a & b & Hl & Hbl & Ha & Hb & Hcount & HcA & HcP & Hplus).
  { destruct (Z.eqb_spec (p_width p) 0); lia. }
  { lia. } { lia. } { lia. }
  clear Hrun Hob Hob1 Hob2 Hob3 Hob4 Hb0' Hb1'.
  rewrite Hpgd in Hsum, HcP. rewrite Hkd in HcP. rewrite Hbwd in Hbl. rewrite Hlu in HcA, H512.
  assert (Hn2 : 2 <= zlen values) by (unfold zlen; lia).
  pose proof (f_equal zlen Hl) as Hzl. rewrite !zlen_app in Hzl.
  assert (Hbe : zlen (be_bytes (Z.to_nat bw) b') = bw) by (unfold zlen; rewrite length_be; lia).
  rewrite Hbe in Hzl.
  assert (Hbbz : zlen bb = if bw =? 9 then 1 else bw) by (unfold zlen; rewrite Hbl; destruct (Z.eqb_spec bw 9); lia).
  rewrite Hbbz in Hzl.
  destruct Hmb as [[Hbase Hbw] | [Hbase Hbw]].
  - exfalso. rewrite Hbw in Hzl, Hbl, Hl, Hbbz. change (9 =? 9) with true in *. cbv iota in *.
    destruct (Z.eqb_spec (p_width p) 0) as [Ew|Ew].
    + (* one bit offsets from 0 *)
      assert (Hbb0 : bb = [0]).
      { destruct bb as [|x bb]; [discriminate|]. destruct bb as [|y bb]; [|discriminate].
        assert (Hm : m = W63) by (unfold m; rewrite Hbase; reflexivity).
        assert (Hb9 : b' = Z.lor W63 (u64 (Z.shiftl 1 ((9 - 1) * 8 + 7))))
          by (unfold b'; rewrite Hbw, Hm, Hbase; reflexivity).
        rewrite Hb9 in Hl. clear - Hl.
        assert (Hc : exists r, be_bytes (Z.to_nat 9) (Z.lor W63 (u64 (Z.shiftl 1 ((9 - 1) * 8 + 7)))) = 0 :: r)
          by (eexists; vm_compute; reflexivity).
        destruct Hc as (r & Hc). rewrite Hc in Hl. cbn [app] in Hl. congruence. }
      specialize (Hplus Hbb0 eq_refl). rewrite <- Hmap in Hin. apply in_map_iff in Hin.
      destruct Hin as (x & Ex & Hx). rewrite Forall_forall in Hplus. destruct (Hplus x Hx) as [_ Hpos].
      rewrite Ex, Hbase in Hpos. lia.
    + destruct (Z.eqb_spec pgw 0) as [Eg|Eg].
      * (* all gaps are 0: a single patch *)
        assert (Hk : (length (p_gaps p) <= 1)%nat).
        { eapply split_zero; [exact Hsplit|]. rewrite Forall_forall in *. intros g Hg.
          pose proof (maxWidth_ge getBitsWidth _ g Hg) as Hge. fold pgw in Hge.
          destruct (getBitsWidth_spec g (Hgu g Hg)) as (Hb1 & _ & _ & Hb4). apply Hb4. lia. }
        assert (zlen (p_patches p) = 1) as Hk' by (unfold zlen in *; lia). rewrite Hk' in *. lia.
      * lia.
  - destruct (Z.eqb_spec bw 9) as [|_]; [lia|].
    assert (Hw1 : 1 <= p_width p).
    { destruct (Z.eqb_spec (p_width p) 0) as [E|]; [|lia]. rewrite E in HA.
      destruct (Z.eqb_spec pgw 0) as [Eg|]; [rewrite Eg in HB|]; lia. }
    destruct (Z.eqb_spec (p_width p) 0) as [|_]; [lia|].
    assert (Hg1 : 1 <= pgw).
    { destruct (Z.eqb_spec pgw 0) as [Eg|]; [|lia]. rewrite Eg in HB. exfalso. nia. }
    destruct (Z.eqb_spec pgw 0) as [|_]; [lia|].
    unfold patch_ok. rewrite Hwr0. fold pw pgw. cbn [is_ok]. rewrite andb_true_r.
    repeat (apply andb_true_intro; split).
    + apply Nat.leb_le. unfold zlen in H512. lia.
    + apply Z.leb_le. exact Hw1.
    + apply existsb_exists. unfold pgw in Hg1.
      destruct (maxWidth_in getBitsWidth (p_gaps p)) as [E | (x & Hx & E)]; [lia|].
      exists x. split; [exact Hx|]. rewrite E in Hg1. destruct (Z.eqb_spec x 0) as [Ex|]; [|reflexivity].
      rewrite Ex in Hg1. vm_compute in Hg1. congruence.
    + apply Z.ltb_lt. lia.
    + apply Z.ltb_lt. exact Hbase.
Qed.
Lemma patch_iff values p o : Forall is_u64 values -> tryPatch values = Ok (Some p) -> writePatch p = Ok o ->
  run DecodeInt o = Ok (map UnZigzag values, []) <-> patch_ok values p = true.
Proof.
  intros Hu Ht Hw. split; [apply patch_back; assumption|]. intros H. eapply patch_run; eassumption.
Qed.
