(** Bit packing: Model/IntRle.v writeBits/readBits against Spec/Bits.v. *)
From Coq Require Znumtheory.
From Verif.Model Require Import Codec IntRle.
From Verif.Spec Require Import Bits.
From Verif.Proofs Require Import Base CodecP SessionP.

Lemma length_bitsN n v : length (bitsN n v) = n.
Proof. induction n as [|n IH]; cbn; [reflexivity|]. f_equal. exact IH. Qed.

Lemma bitsN_ext n x y : (forall i, 0 <= i < Z.of_nat n -> Z.testbit x i = Z.testbit y i) ->
  bitsN n x = bitsN n y.
Proof.
  induction n as [|n IH]; intros H; cbn; [reflexivity|]. f_equal.
  - apply H. lia.
  - apply IH. intros i Hi. apply H. lia.
Qed.

Lemma bitsN_app a b v : bitsN (a + b) v = bitsN a (v / 2 ^ Z.of_nat b) ++ bitsN b v.
Proof.
  induction a as [|a IH]; [reflexivity|]. cbn [Nat.add bitsN app]. f_equal; [|exact IH].
  rewrite Z.div_pow2_bits by lia. f_equal. lia.
Qed.

Lemma bitsN_mod n v k : (n <= k)%nat -> bitsN n (v mod 2 ^ Z.of_nat k) = bitsN n v.
Proof.
  intros H. apply bitsN_ext. intros i Hi. apply Z.mod_pow2_bits_low. lia.
Qed.

Lemma bitsN_cat a b x y : 0 <= y < 2 ^ Z.of_nat b ->
  bitsN (a + b) (x * 2 ^ Z.of_nat b + y) = bitsN a x ++ bitsN b y.
Proof.
  intros H. rewrite bitsN_app. f_equal.
  - f_equal. rewrite Z.div_add_l by lia. rewrite Z.div_small by lia. lia.
  - rewrite <- (bitsN_mod b (x * 2 ^ Z.of_nat b + y) b) by lia. f_equal.
    rewrite Z.add_comm, Z_mod_plus_full. apply Z.mod_small. exact H.
Qed.

Lemma bitsN_inj n x y : 0 <= x < 2 ^ Z.of_nat n -> 0 <= y < 2 ^ Z.of_nat n ->
  bitsN n x = bitsN n y -> x = y.
Proof.
  intros Hx Hy H. rewrite <- (Z.mod_small x (2 ^ Z.of_nat n)) by exact Hx.
  rewrite <- (Z.mod_small y (2 ^ Z.of_nat n)) by exact Hy. apply Z.bits_inj'. intros i Hi.
  destruct (Z.lt_ge_cases i (Z.of_nat n)) as [Hlt|Hge].
  - rewrite !Z.mod_pow2_bits_low by lia. clear Hx Hy.
    induction n as [|n IH]; [lia|]. cbn in H. injection H as H1 H2.
    destruct (Z.eq_dec i (Z.of_nat n)) as [->|]; [exact H1|]. apply IH; [exact H2|lia].
  - rewrite !Z.mod_pow2_bits_high by lia. reflexivity.
Qed.

Lemma valB_app l b : valB (l ++ [b]) = 2 * valB l + (if b then 1 else 0).
Proof. unfold valB. rewrite fold_left_app. reflexivity. Qed.

Lemma valB_snoc_bits n v : bitsN (S n) v = bitsN n (v / 2) ++ [Z.testbit v 0].
Proof.
  replace (S n) with (n + 1)%nat by lia. rewrite bitsN_app. reflexivity.
Qed.

Lemma valB_bits n : forall v, valB (bitsN n v) = v mod 2 ^ Z.of_nat n.
Proof.
  induction n as [|n IH]; intros v; [cbn; symmetry; apply Z.mod_1_r|].
  rewrite valB_snoc_bits, valB_app, IH.
  rewrite Nat2Z.inj_succ, Z.pow_succ_r by lia.
  rewrite Z.rem_mul_r by (try lia; pose proof (pow2_pos (Z.of_nat n) ltac:(lia)); lia).
  rewrite Z.bit0_odd, <- Z.bit0_mod, Z.bit0_odd. destruct (Z.odd v); cbn [Z.b2z]; lia.
Qed.

Lemma valB_range l : 0 <= valB l < 2 ^ Z.of_nat (length l).
Proof.
  induction l as [|b l IH] using rev_ind; [cbn; lia|].
  rewrite valB_app, app_length. cbn [length].
  replace (length l + 1)%nat with (S (length l)) by lia.
  rewrite Nat2Z.inj_succ, Z.pow_succ_r by lia. destruct b; lia.
Qed.
Lemma bits_valB l : bitsN (length l) (valB l) = l.
Proof.
  induction l as [|b l IH] using rev_ind; [reflexivity|].
  rewrite app_length. cbn [length]. replace (length l + 1)%nat with (S (length l)) by lia.
  rewrite valB_snoc_bits, valB_app. f_equal.
  - transitivity (bitsN (length l) (valB l)); [|exact IH]. f_equal. destruct b; zlia.
  - f_equal. rewrite Z.bit0_odd. destruct b; rewrite ?Z.add_0_r.
    + rewrite Z.add_comm, Z.odd_add_mul_2. reflexivity.
    + rewrite Z.odd_mul. reflexivity.
Qed.

(** ** Bytes *)

Lemma length_bitsOfBytes i : length (bitsOfBytes i) = (8 * length i)%nat.
Proof.
  induction i as [|b i IH]; [reflexivity|]. unfold bitsOfBytes in *. cbn [flat_map].
  rewrite app_length, IH, length_bitsN. cbn [length]. lia.
Qed.
Lemma bitsOfBytes_app i j : bitsOfBytes (i ++ j) = bitsOfBytes i ++ bitsOfBytes j.
Proof. apply flat_map_app. Qed.
Lemma bitsOfBytes_cons b i : bitsOfBytes (b :: i) = bitsN 8 b ++ bitsOfBytes i.
Proof. reflexivity. Qed.

Lemma app_eq_len {A} (a b c d : list A) : length a = length c -> a ++ b = c ++ d -> a = c /\ b = d.
Proof.
  revert c. induction a as [|x a IH]; intros [|y c] Hl H; cbn [length] in Hl; try lia; [auto|].
  cbn [app] in H. injection H as -> H. apply IH in H; [|lia]. destruct H as [-> ->]. auto.
Qed.

Lemma bitsOfBytes_inj i : forall j, bytes i -> bytes j -> bitsOfBytes i = bitsOfBytes j -> i = j.
Proof.
  induction i as [|b i IH]; intros [|c j] Hi Hj H.
  - reflexivity.
  - apply (f_equal (@length bool)) in H. rewrite !length_bitsOfBytes in H. cbn [length] in H. lia.
  - apply (f_equal (@length bool)) in H. rewrite !length_bitsOfBytes in H. cbn [length] in H. lia.
  - inversion Hi; inversion Hj; subst. rewrite !bitsOfBytes_cons in H.
    apply app_eq_len in H; [|rewrite !length_bitsN; reflexivity]. destruct H as [E1 E2].
    f_equal; [|apply IH; assumption]. apply (bitsN_inj 8); assumption.
Qed.

(** ** The writer *)

Lemma wb_loop_spec fuel : forall value total bs r,
  0 <= total -> total < 8 * Z.of_nat fuel + 8 -> wb_loop fuel value total = (bs, r) ->
  0 <= r < 8 /\ bytes bs /\
  bitsOfBytes bs ++ bitsN (Z.to_nat r) value = bitsN (Z.to_nat total) value /\
  (total = 8 * zlen bs + r).
Proof.
  induction fuel as [|f IH]; intros value total bs r H0 Hf H; cbn [wb_loop] in H.
  - injection H as <- <-. split; [lia|]. split; [constructor|]. split; [reflexivity|]. cbn; lia.
  - destruct (Z.ltb_spec total 8) as [Hlt|Hge].
    + injection H as <- <-. split; [lia|]. split; [constructor|]. split; [reflexivity|]. cbn; lia.
    + destruct (wb_loop f value (total - 8)) as [bs' r'] eqn:E. injection H as <- <-.
      apply IH in E; [|lia|lia]. destruct E as (Hr & Hb & Hbits & Ht).
      split; [exact Hr|]. split; [constructor; [apply u8_range|exact Hb]|]. split.
      * rewrite bitsOfBytes_cons, <- app_assoc, Hbits.
        replace (Z.to_nat total) with (8 + Z.to_nat (total - 8))%nat by lia.
        rewrite bitsN_app. f_equal.
        rewrite shiftr_div by lia. unfold u8. rewrite Z2Nat.id by lia.
        change 256 with (2 ^ Z.of_nat 8). apply bitsN_mod. lia.
      * rewrite zlen_cons. lia.
Qed.

(** Writer state: [lastByte] holds the [bitsLeft] pending bits. *)
Definition wst (st : Z * Z) (P : list bool) : Prop :=
  0 <= snd st < 8 /\ 0 <= fst st < 2 ^ snd st /\ P = bitsN (Z.to_nat (snd st)) (fst st).

Lemma writeBits_spec st P v w : wst st P -> 0 <= w -> 0 <= v < 2 ^ w ->
  (64 < snd st + w -> writeBits st v w = Err) /\
  (snd st + w <= 64 ->
   exists st' o P', writeBits st v w = Ok (st', o) /\ wst st' P' /\ bytes o /\
     bitsOfBytes o ++ P' = P ++ bitsN (Z.to_nat w) v).
Proof.
  destruct st as [lb bl]. intros (Hbl & Hlb & HP) Hw Hv. cbn [fst snd] in *. unfold writeBits.
  split; intros Hc; [destruct (Z.ltb_spec 64 (bl + w)); [reflexivity|lia]|].
  destruct (Z.ltb_spec 64 (bl + w)); [lia|].
  assert (Hpw : 0 < 2 ^ w) by (apply pow2_pos; lia).
  assert (Hval : (if negb (lb =? 0) then Z.lor (u64 (Z.shiftl lb w)) v else v) = lb * 2 ^ w + v).
  { destruct (Z.eqb_spec lb 0) as [->|]; cbn [negb]; [lia|].
    rewrite shiftl_mul by lia. rewrite u64_id.
    - apply lor_add; lia.
    - unfold is_u64. split; [apply Z.mul_nonneg_nonneg; lia|].
      apply Z.lt_le_trans with (2 ^ (bl + w)).
      + rewrite Z.pow_add_r by lia. apply Z.mul_lt_mono_pos_r; lia.
      + change W64 with (2 ^ 64). apply Z.pow_le_mono_r; lia. }
  rewrite Hval. set (value := lb * 2 ^ w + v).
  destruct (wb_loop 8 value (bl + w)) as [bs r] eqn:E.
  apply wb_loop_spec in E; [|lia|lia]. destruct E as (Hr & Hb & Hbits & Ht).
  eexists. exists bs, (bitsN (Z.to_nat r) value). split; [reflexivity|].
  assert (Hl : Z.land (u8 value) (Z.shiftl 1 r - 1) = value mod 2 ^ r).
  { rewrite mask_mod by lia. unfold u8. change 256 with (2 ^ 8).
    symmetry. apply Znumtheory.Zmod_div_mod; [apply pow2_pos; lia|reflexivity|].
    exists (2 ^ (8 - r)). rewrite <- Z.pow_add_r by lia. f_equal. lia. }
  rewrite Hl. split.
  { split; cbn [fst snd]; [lia|]. split; [apply Z.mod_pos_bound, pow2_pos; lia|].
    replace (2 ^ r) with (2 ^ Z.of_nat (Z.to_nat r)) by (f_equal; lia).
    rewrite bitsN_mod by lia. reflexivity. }
  split; [exact Hb|]. rewrite Hbits, HP.
  replace (Z.to_nat (bl + w)) with (Z.to_nat bl + Z.to_nat w)%nat by lia.
  unfold value. replace (2 ^ w) with (2 ^ Z.of_nat (Z.to_nat w)) by (f_equal; lia).
  apply bitsN_cat. rewrite Z2Nat.id by lia. exact Hv.
Qed.

(** Value number k of a packed sequence starts [k*w + off] bits in: it must not
    straddle more than 8 bytes. *)
Fixpoint fits (off w : Z) (n : nat) : bool :=
  match n with
  | O => true
  | S m => (off mod 8 + w <=? 64) && fits (off + w) w m
  end.

Lemma fits_small w n : 0 <= w <= 57 -> forall off, fits off w n = true.
Proof.
  intros Hw. induction n as [|n IH]; intros off; cbn [fits]; [reflexivity|].
  rewrite IH, andb_true_r. pose proof (Z.mod_pos_bound off 8 ltac:(lia)). lia.
Qed.
Lemma fits_mod w n : forall off off', off mod 8 = off' mod 8 -> fits off w n = fits off' w n.
Proof.
  induction n as [|n IH]; intros off off' H; cbn [fits]; [reflexivity|]. rewrite H. f_equal.
  apply IH. rewrite <- Z.add_mod_idemp_l, H, Z.add_mod_idemp_l by lia. reflexivity.
Qed.
Lemma fits_64 n : forall off, off mod 8 = 0 -> fits off 64 n = true.
Proof.
  induction n as [|n IH]; intros off H; cbn [fits]; [reflexivity|]. rewrite H, IH; [reflexivity|].
  rewrite <- Z.add_mod_idemp_l, H by lia. reflexivity.
Qed.

Definition packedBits (w : Z) (vs : list Z) : list bool := flat_map (bitsN (Z.to_nat w)) vs.

Lemma length_packedBits w vs : length (packedBits w vs) = (length vs * Z.to_nat w)%nat.
Proof.
  induction vs as [|v t IH]; [reflexivity|]. unfold packedBits in *. cbn [flat_map].
  rewrite app_length, IH, length_bitsN. cbn [length]. lia.
Qed.

Lemma writeBitsAll_spec w vs : 0 <= w -> Forall (fun v => 0 <= v < 2 ^ w) vs ->
  forall st P, wst st P ->
  (fits (snd st) w (length vs) = false -> writeBitsAll st vs w = Err) /\
  (fits (snd st) w (length vs) = true ->
   exists st' o P', writeBitsAll st vs w = Ok (st', o) /\ wst st' P' /\ bytes o /\
     bitsOfBytes o ++ P' = P ++ packedBits w vs).
Proof.
  intros Hw Hvs. induction Hvs as [|v t Hv Ht IH]; intros st P Hst.
  - split; [discriminate|]. intros _. exists st, [], P. cbn. rewrite app_nil_r.
    split; [reflexivity|]. split; [exact Hst|]. split; [constructor|reflexivity].
  - cbn [length fits writeBitsAll]. destruct (writeBits_spec st P v w Hst Hw Hv) as [He Hok].
    assert (Hm : snd st mod 8 = snd st) by (apply Z.mod_small; apply Hst). rewrite Hm.
    destruct (Z.leb_spec (snd st + w) 64) as [Hle|Hgt].
    + destruct (Hok Hle) as (st1 & o1 & P1 & H1 & Hst1 & Hb1 & Hbits1). rewrite H1. cbn [rbind andb].
      assert (Hf : fits (snd st1) w (length t) = fits (snd st + w) w (length t)).
      { apply fits_mod. apply (f_equal (@length bool)) in Hbits1.
        rewrite !app_length, length_bitsOfBytes, length_bitsN in Hbits1.
        destruct Hst as (R & _ & ->), Hst1 as (R1 & _ & ->). rewrite !length_bitsN in Hbits1. zlia. }
      rewrite <- Hf. destruct (IH st1 P1 Hst1) as [IHe IHok]. split; intros Hc.
      * rewrite IHe by exact Hc. reflexivity.
      * destruct (IHok Hc) as (st2 & o2 & P2 & H2 & Hst2 & Hb2 & Hbits2). rewrite H2. cbn [rbind].
        exists st2, (o1 ++ o2), P2. split; [reflexivity|]. split; [exact Hst2|].
        split; [apply bytes_app; auto|].
        rewrite bitsOfBytes_app, <- app_assoc, Hbits2, app_assoc, Hbits1, <- app_assoc. reflexivity.
    + cbn [andb]. split; [|discriminate]. intros _. rewrite He by lia. reflexivity.
Qed.

Lemma packBits_spec w vs : 0 <= w -> Forall (fun v => 0 <= v < 2 ^ w) vs ->
  (fits 0 w (length vs) = false -> packBits vs w = Err) /\
  (fits 0 w (length vs) = true ->
   exists o pad, packBits vs w = Ok o /\ bytes o /\ (length pad < 8)%nat /\
     bitsOfBytes o = packedBits w vs ++ pad).
Proof.
  intros Hw Hvs. unfold packBits.
  assert (Hst : wst (0, 0) []) by (repeat split; cbn; lia).
  destruct (writeBitsAll_spec w vs Hw Hvs (0, 0) [] Hst) as [He Hok]. cbn [snd] in *.
  split; intros Hc; [rewrite He by exact Hc; reflexivity|].
  destruct (Hok Hc) as ([lb bl] & o & P & H & (Hbl & Hlb & HP) & Hb & Hbits). cbn [fst snd app] in *.
  rewrite H. cbn [rbind writeLeftBits].
  destruct (Z.eqb_spec bl 0) as [->|Hn]; cbn [negb].
  - exists (o ++ []), []. split; [reflexivity|]. rewrite !app_nil_r. split; [exact Hb|].
    split; [cbn; lia|]. rewrite <- Hbits, HP. cbn. rewrite app_nil_r. reflexivity.
  - eexists. exists (bitsN (Z.to_nat (8 - bl)) 0). split; [reflexivity|].
    split; [apply bytes_app; split; [exact Hb|repeat constructor; apply u8_range]|].
    split; [rewrite length_bitsN; lia|].
    rewrite bitsOfBytes_app, <- Hbits, <- app_assoc. f_equal.
    rewrite bitsOfBytes_cons. unfold bitsOfBytes at 1. cbn [flat_map]. rewrite app_nil_r, HP.
    unfold u8. change 256 with (2 ^ Z.of_nat 8). rewrite bitsN_mod by lia.
    rewrite shiftl_mul by lia.
    replace 8%nat with (Z.to_nat bl + Z.to_nat (8 - bl))%nat at 1 by lia.
    rewrite <- (Z.add_0_r (lb * 2 ^ (8 - bl))).
    replace (2 ^ (8 - bl)) with (2 ^ Z.of_nat (Z.to_nat (8 - bl))) by (f_equal; lia).
    apply bitsN_cat. split; [lia|apply pow2_pos; lia].
Qed.

(** ** The reader *)

(** Reader state over remaining input [i]: the bits still to be read are [L]. *)
Definition rst (st : Z * Z) (i : list Z) (L : list bool) : Prop :=
  0 <= snd st < 8 /\ 0 <= fst st < 2 ^ snd st /\ bytes i /\
  bitsN (Z.to_nat (snd st)) (fst st) ++ bitsOfBytes i = L.

Lemma rb_loop_spec fuel : forall bits has data i L,
  0 <= has -> 0 <= data < 2 ^ has -> bytes i ->
  bitsN (Z.to_nat has) data ++ bitsOfBytes i = L ->
  bits <= Z.of_nat (length L) -> bits <= has + 8 * Z.of_nat fuel ->
  (forall h, h < bits -> h mod 8 = has mod 8 -> h + 8 <= 64) ->
  exists data' has' i', run (rb_loop fuel bits has data) i = Ok ((data', has'), i') /\
    bits <= has' /\ (has <= bits -> has' < bits + 8) /\ (bits <= has -> has' = has) /\
    0 <= data' < 2 ^ has' /\ bytes i' /\
    bitsN (Z.to_nat has') data' ++ bitsOfBytes i' = L.
Proof.
  induction fuel as [|f IH]; intros bits has data i L H0 Hd Hi HL Hlen Hf Hmax; cbn [rb_loop].
  - exists data, has, i. rewrite run_ret. repeat split; try lia; auto.
  - destruct (Z.ltb_spec has bits) as [Hlt|Hge].
    + destruct i as [|b i].
      { exfalso. rewrite <- HL, app_length, length_bitsN in Hlen. cbn in Hlen. lia. }
      rewrite run_byte. inversion Hi as [|? ? Hb Hi']; subst x l.
      assert (Hh : has + 8 <= 64) by (apply Hmax; [exact Hlt|reflexivity]).
      assert (Hpow : 2 ^ (has + 8) = 2 ^ has * 256) by (rewrite Z.pow_add_r by lia; reflexivity).
      assert (Hle : 2 ^ (has + 8) <= 2 ^ 64) by (apply Z.pow_le_mono_r; lia).
      change (2 ^ 64) with W64 in Hle. unfold is_u8 in Hb.
      assert (Hdat : Z.lor (u64 (Z.shiftl data 8)) b = data * 2 ^ 8 + b).
      { rewrite shiftl_mul by lia. change (2 ^ 8) with 256 at 1.
        rewrite u64_id by (unfold is_u64; lia). change 256 with (2 ^ 8). apply lor_add; cbn; lia. }
      rewrite Hdat.
      destruct (IH bits (has + 8) (data * 2 ^ 8 + b) i L)
        as (d' & h' & i' & Hr & H1 & H2 & H3 & H4 & H5 & H6); try lia; try assumption.
      * rewrite <- HL, bitsOfBytes_cons, app_assoc. f_equal.
        replace (Z.to_nat (has + 8)) with (Z.to_nat has + 8)%nat by lia.
        change (2 ^ 8) with (2 ^ Z.of_nat 8). apply bitsN_cat. cbn; lia.
      * intros h Hh1 Hh2. apply Hmax; [exact Hh1|]. rewrite Hh2. zlia.
      * exists d', h', i'. repeat split; try assumption; try lia.
    + exists data, has, i. rewrite run_ret. repeat split; try lia; auto.
Qed.

Lemma readBits_spec st i w v R : 0 <= w -> 0 <= v < 2 ^ w ->
  rst st i (bitsN (Z.to_nat w) v ++ R) ->
  (- Z.of_nat (Z.to_nat w + length R)) mod 8 + w <= 64 ->
  exists st' i', run (readBits st w) i = Ok ((v, st'), i') /\ rst st' i' R.
Proof.
  destruct st as [last left]. intros Hw Hv (Hleft & Hlast & Hi & HL) Hfit. cbn [fst snd] in *.
  unfold readBits. rewrite run_bind.
  assert (Hll : left + 8 * zlen i = w + Z.of_nat (length R)).
  { apply (f_equal (@length bool)) in HL.
    rewrite !app_length, !length_bitsN, length_bitsOfBytes in HL. unfold zlen. lia. }
  destruct (rb_loop_spec 8 w left last i _ ltac:(lia) Hlast Hi HL)
    as (data & has & i' & Hr & Hge & Hlt & Heq & Hd & Hi' & Hbits).
  - rewrite app_length, length_bitsN. lia.
  - pose proof (Z.mod_pos_bound (- Z.of_nat (Z.to_nat w + length R)) 8 ltac:(lia)). lia.
  - intros h Hh Hmod. pose proof (zlen_nonneg i).
    replace (- Z.of_nat (Z.to_nat w + length R)) with (- left + (- zlen i) * 8) in Hfit by lia.
    rewrite Z_mod_plus_full in Hfit. zlia.
  - rewrite Hr. cbn [rbind]. rewrite run_ret.
    set (l2 := has - w) in *.
    assert (Hl2 : 0 <= l2 < 8) by (unfold l2; destruct (Z.le_gt_cases left w); lia).
    replace (Z.to_nat has) with (Z.to_nat w + Z.to_nat l2)%nat in Hbits by lia.
    rewrite bitsN_app, <- app_assoc in Hbits.
    apply app_eq_len in Hbits; [|rewrite !length_bitsN; reflexivity]. destruct Hbits as [Hb1 Hb2].
    rewrite Z2Nat.id in Hb1 by lia.
    assert (Hp : has = w + l2) by lia. rewrite Hp, Z.pow_add_r in Hd by lia.
    pose proof (pow2_pos l2 ltac:(lia)) as Hp2.
    assert (Hdv : 0 <= data / 2 ^ l2 < 2 ^ w).
    { split; [apply Z.div_pos; lia|]. apply Z.div_lt_upper_bound; lia. }
    apply bitsN_inj in Hb1; [|rewrite Z2Nat.id by lia; assumption|rewrite Z2Nat.id by lia; assumption].
    exists (data mod 2 ^ l2, l2), i'. split.
    { rewrite shiftr_div by lia. rewrite Hb1. rewrite mask_mod by lia.
      rewrite u8_id; [reflexivity|]. unfold is_u8.
      pose proof (Z.mod_pos_bound data (2 ^ l2) Hp2).
      assert (2 ^ l2 <= 2 ^ 8) by (apply Z.pow_le_mono_r; lia). change (2 ^ 8) with 256 in *. lia. }
    split; cbn [fst snd]; [exact Hl2|]. split; [apply Z.mod_pos_bound; exact Hp2|].
    split; [exact Hi'|]. rewrite <- Hb2. f_equal.
    replace (2 ^ l2) with (2 ^ Z.of_nat (Z.to_nat l2)) by (f_equal; lia). apply bitsN_mod. lia.
Qed.

(** When only padding of less than a byte separates the reader from [tail], the
    unread input is exactly [tail]. *)
Lemma rst_end st i pad tail : rst st i (pad ++ bitsOfBytes tail) -> bytes tail ->
  (length pad < 8)%nat -> i = tail.
Proof.
  intros (Hl & _ & Hi & H) Ht Hp.
  assert (Hlen : Z.to_nat (snd st) = length pad /\ length i = length tail).
  { apply (f_equal (@length bool)) in H.
    rewrite !app_length, !length_bitsOfBytes, length_bitsN in H. lia. }
  apply app_eq_len in H; [|rewrite length_bitsN; apply Hlen]. destruct H as [_ H].
  apply bitsOfBytes_inj; assumption.
Qed.
Lemma rst_start i : bytes i -> rst (0, 0) i (bitsOfBytes i).
Proof. intros H. repeat split; cbn; try lia; exact H. Qed.

Lemma readBitsAll_spec w : 0 <= w -> forall vs st i R,
  Forall (fun v => 0 <= v < 2 ^ w) vs ->
  rst st i (packedBits w vs ++ R) ->
  fits (- Z.of_nat (length (packedBits w vs ++ R))) w (length vs) = true ->
  exists st' i', run (readBitsAll st (length vs) w) i = Ok (vs, i') /\ rst st' i' R.
Proof.
  intros Hw. induction vs as [|v t IH]; intros st i R Hvs Hst Hf.
  - exists st, i. split; [reflexivity|exact Hst].
  - inversion Hvs; subst. cbn [length readBitsAll]. cbn [length fits] in Hf.
    apply andb_prop in Hf. destruct Hf as [Hf1 Hf2].
    unfold packedBits in *. cbn [flat_map] in *. rewrite <- app_assoc in *.
    rewrite app_length, length_bitsN in *.
    destruct (readBits_spec st i w v (flat_map (bitsN (Z.to_nat w)) t ++ R) Hw)
      as (st1 & i1 & H1' & Hst1); [assumption|assumption|lia|].
    rewrite run_bind, H1'. cbn [rbind]. rewrite run_bind.
    destruct (IH st1 i1 R) as (st2 & i2 & H2' & Hst2); [assumption|exact Hst1| |].
    { rewrite <- Hf2. apply fits_mod. f_equal. lia. }
    rewrite H2'. cbn [rbind]. rewrite run_ret. eauto.
Qed.

(** Packed by the writer (or any packer producing the same bits), read back. *)
Lemma read_packed w vs o pad tail : 0 <= w -> Forall (fun v => 0 <= v < 2 ^ w) vs ->
  fits 0 w (length vs) = true -> bytes o -> (length pad < 8)%nat ->
  bitsOfBytes o = packedBits w vs ++ pad -> bytes tail ->
  run (readBitsAll (0, 0) (length vs) w) (o ++ tail) = Ok (vs, tail).
Proof.
  intros Hw Hvs Hf Hb Hp Hbits Ht.
  assert (Hi : bytes (o ++ tail)) by (apply bytes_app; auto).
  pose proof (rst_start _ Hi) as Hst. rewrite bitsOfBytes_app, Hbits, <- app_assoc in Hst.
  destruct (readBitsAll_spec w Hw vs _ _ _ Hvs Hst) as (st & i & Hr & Hst').
  { rewrite <- Hf. apply fits_mod.
    apply (f_equal (@length bool)) in Hbits. rewrite length_bitsOfBytes in Hbits.
    rewrite !app_length, length_bitsOfBytes in *. zlia. }
  apply rst_end in Hst'; [|exact Ht|exact Hp]. subst i. exact Hr.
Qed.
