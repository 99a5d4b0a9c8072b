(** The runs the integer encoder writes against Spec/OrcInt.v. *)
From Verif.Model Require Import Codec IntRle.
From Verif.Spec Require Import Bits Session IntSpec OrcInt OrcColumn.
From Verif.Proofs Require Import Base CodecP SessionP BitsP IntRunsP IntDeltaP IntPatchP IntStreamP OrcIntP.

(** One run: its bytes, followed by anything, are read as the run. *)
Definition legal1 (signed : bool) (c us : list Z) : Prop :=
  forall t, orc_run signed (c ++ t) = Some (map (unzig signed) us, t).
Inductive Legal (signed : bool) : list Z -> list Z -> Prop :=
| LegalNil : Legal signed [] []
| LegalCons c us i ws : legal1 signed c us -> Legal signed i ws -> Legal signed (c ++ i) (us ++ ws).

Lemma Legal_one signed c us : legal1 signed c us -> Legal signed c us.
Proof. intros H. rewrite <- (app_nil_r c), <- (app_nil_r us). constructor; [exact H|constructor]. Qed.
Lemma Legal_app signed i us : Legal signed i us -> forall j ws, Legal signed j ws -> Legal signed (i ++ j) (us ++ ws).
Proof.
  induction 1 as [|c us i ws Hc _ IH]; intros j xs Hj; [exact Hj|].
  rewrite <- !app_assoc. constructor; [exact Hc|]. apply IH. exact Hj.
Qed.
Lemma Legal_ints signed i us : Legal signed i us ->
  orc_ints (fun _ _ _ => True) signed i (map (unzig signed) us).
Proof.
  induction 1 as [|c us i ws Hc _ IH]; [constructor|]. rewrite map_app.
  econstructor; [apply Hc|exact I|exact IH].
Qed.

(** ** Ingredients *)

Lemma numbers_flat w vs : forall pad, Forall (fun v => 0 <= v < 2 ^ Z.of_nat w) vs ->
  numbers w (length vs) (flat_map (bitsN w) vs ++ pad) = vs.
Proof.
  induction vs as [|v t IH]; intros pad H; [reflexivity|]. inversion H as [|? ? Hv Ht]; subst.
  cbn [length numbers flat_map]. rewrite <- app_assoc.
  assert (El : length (bitsN w v) = w) by apply length_bitsN.
  rewrite firstn_app, El, Nat.sub_diag, firstn_all2 by lia. cbn [firstn]. rewrite app_nil_r.
  rewrite skipn_app, El, Nat.sub_diag, skipn_all2 by lia. cbn [skipn app].
  rewrite valB_bits, Z.mod_small by exact Hv. f_equal. apply IH. exact Ht.
Qed.

Lemma packed_pack w vs o pad t : 0 <= w -> Forall (fun v => 0 <= v < 2 ^ w) vs ->
  (length pad < 8)%nat -> bitsOfBytes o = packedBits w vs ++ pad ->
  packed w (zlen vs) (o ++ t) = Some (vs, t).
Proof.
  intros Hw Hvs Hp Hb. unfold packed.
  assert (Hsz : Z.to_nat ((zlen vs * w + 7) / 8) = length o).
  { apply (f_equal (@length bool)) in Hb.
    rewrite length_bitsOfBytes, app_length, length_packedBits in Hb.
    assert (E : zlen vs * w = Z.of_nat (length vs * Z.to_nat w)) by (unfold zlen; rewrite Nat2Z.inj_mul; lia).
    rewrite E. set (m := (length vs * Z.to_nat w)%nat) in *. clearbody m. zlia. }
  rewrite Hsz. destruct (Nat.ltb_spec (length (o ++ t)) (length o)) as [Hlt|_]; [rewrite app_length in Hlt; lia|].
  rewrite firstn_app_exact, skipn_app_exact, Hb. unfold zlen. rewrite Nat2Z.id. unfold packedBits.
  rewrite numbers_flat; [reflexivity|]. rewrite Z2Nat.id by exact Hw. exact Hvs.
Qed.

Lemma varint_put room : forall x o t, 0 <= x -> PutUvarint room x = Ok o -> varint (o ++ t) = Some (x, t).
Proof.
  induction room as [|r IH]; intros x o t Hx H; [discriminate|]. cbn [PutUvarint] in H.
  destruct (Z.ltb_spec x 128) as [Hl|Hl].
  - injection H as <-. rewrite u8_id by (unfold is_u8; lia). cbn [app varint].
    destruct (Z.ltb_spec x 128); [reflexivity|lia].
  - apply rbind_inv in H. destruct H as (o1 & H1 & H). injection H as <-.
    rewrite shiftr_div in H1 by lia. change (2 ^ 7) with 128 in H1.
    assert (E : Z.lor (u8 x) 128 = x mod 128 + 128).
    { unfold u8. pose (f := fun y => Z.lor y 128 =? y mod 128 + 128).
      assert (F : f (x mod 256) = true).
      { apply (sweep 256 f); [vm_compute; reflexivity|]. apply Z.mod_pos_bound. lia. }
      unfold f in F. apply Z.eqb_eq in F. rewrite F. zlia. }
    rewrite E. cbn [app varint]. destruct (Z.ltb_spec (x mod 128 + 128) 128); [zlia|].
    rewrite (IH (x / 128) _ t ltac:(apply Z.div_pos; lia) H1). f_equal. f_equal. zlia.
Qed.

Lemma varint64_put room x o t : (room <= 10)%nat -> is_u64 x -> PutUvarint room x = Ok o ->
  varint64 (o ++ t) = Some (x, t).
Proof.
  intros Hr Hx H. unfold varint64. unfold is_u64 in Hx. rewrite (varint_put room x o t ltac:(lia) H).
  apply PutUvarint_length in H; [|lia].
  destruct (Z.ltb_spec x W64); [|lia]. cbn [andb].
  destruct (Nat.leb_spec (length (o ++ t) - length t) 10) as [_|Hgt]; [reflexivity|].
  rewrite app_length in Hgt. lia.
Qed.

Lemma big_endian_be n x t : big_endian n (be_bytes n x ++ t) = Some (x mod 2 ^ (8 * Z.of_nat n), t).
Proof.
  unfold big_endian. pose proof (length_be n x) as El.
  destruct (Nat.ltb_spec (length (be_bytes n x ++ t)) n) as [Hlt|_]; [rewrite app_length in Hlt; lia|].
  rewrite firstn_app, skipn_app, El, Nat.sub_diag. rewrite firstn_all2, skipn_all2 by lia.
  cbn [firstn skipn app]. rewrite app_nil_r, bits_be, valB_bits. do 3 f_equal. lia.
Qed.

Lemma width_code w e : widthEncoding w = Ok e -> 1 <= w -> orc_width e = w /\ 0 <= e < 32.
Proof.
  intros H Hw. pose proof (widthEncoding_range _ _ H) as [Hr _]. split; [|exact Hr].
  pose proof (width_roundtrip _ _ H Hw) as E. destruct (code_table e Hr) as (E' & _). congruence.
Qed.

Lemma first_varint signed v o t : is_u64 v -> putFirst signed v = Ok o -> varint64 (o ++ t) = Some (v, t).
Proof.
  intros Hv H. unfold putFirst in H. destruct signed.
  - rewrite PutVarint_Zigzag, Zigzag_UnZigzag in H by (try apply UnZigzag_range; exact Hv).
    eapply varint64_put; [|exact Hv|exact H]. lia.
  - eapply varint64_put; [|exact Hv|exact H]. lia.
Qed.
Lemma base_varint b o t : is_i64 b -> PutVarint 8 b = Ok o ->
  varint64 (o ++ t) = Some (Zigzag b, t) /\ unzig true (Zigzag b) = b.
Proof.
  intros Hb H. rewrite PutVarint_Zigzag in H by exact Hb. pose proof (Zigzag_range b Hb) as Hz.
  split; [eapply varint64_put; [|exact Hz|exact H]; lia|].
  rewrite unzig_UnZigzag by exact Hz. apply UnZigzag_Zigzag. exact Hb.
Qed.

(** ** Short repeat *)

Lemma short_legal signed r x : 3 <= r <= 10 -> is_u64 x -> dense x ->
  legal1 signed (writeShortRepeat (r - 3) x) (repeat x (Z.to_nat r)).
Proof.
  intros Hr Hx Hd t. unfold writeShortRepeat. pose proof Hd as [Hx0 _]. unfold is_u64 in Hx.
  destruct (sig_exists 8 x) as (n & Hs & Hn); [change (2 ^ (8 * Z.of_nat 8)) with W64; lia|].
  rewrite (sr_loop_sig 8 x n Hs Hn). pose proof Hs as [Hn1 Hrange].
  destruct (sr_header (r - 3) (Z.of_nat n - 1) ltac:(lia) ltac:(lia)) as (Hh & H1 & H2 & H3).
  cbv zeta in Hh, H1, H2, H3. set (h := Z.lor _ _) in *. clearbody h.
  rewrite filter_all by (apply (sig_dense x n Hs); exact Hd).
  cbn [app orc_run]. rewrite shiftr_div in H1, H2 by lia. rewrite land_7 in H2, H3.
  change (2 ^ 6) with 64 in H1. change (2 ^ 3) with 8 in H2. rewrite H1. cbn [Z.eqb].
  unfold orc_short. rewrite H2, H3. replace (Z.to_nat (Z.of_nat n - 1 + 1)) with n by lia.
  rewrite big_endian_be, Z.mod_small by lia. replace (r - 3 + 3) with r by lia.
  f_equal. f_equal. generalize (Z.to_nat r). intros k. induction k as [|k IH]; cbn; [reflexivity|]. f_equal. exact IH.
Qed.

(** ** Direct *)

Lemma direct_legal signed values o : Forall is_u64 values -> 1 <= zlen values <= 512 ->
  ~ Forall (fun v => v = 0) values -> writeDirect values true = Ok o -> legal1 signed o values.
Proof.
  intros Hu Hl Hnz H t. unfold writeDirect in H.
  destruct (aligned_max values Hu) as (Ha & Hfit & Hz).
  set (w := maxWidth getAlignedWidth values) in *.
  apply rbind_inv in H. destruct H as (ew & Hew & H).
  pose proof (widthEncoding_range w ew Hew) as [Hr Hwr].
  assert (Hw0 : w <> 0) by tauto.
  destruct (width_code w ew Hew ltac:(lia)) as [Hcode _].
  apply rbind_inv in H. destruct H as (po & Hpo & H). apply Ok_inj in H. subst o.
  destruct (pack_inv w values po ltac:(lia) Hfit Hpo) as (pad & _ & _ & Hpad & Hbits).
  set (l := zlen values - 1) in *.
  assert (Hb : Z.land (u8 (Z.shiftr l 8)) 1 = l / 256).
  { rewrite land_1, shiftr_div by lia. change (2 ^ 8) with 256.
    rewrite u8_id by (unfold is_u8; zlia). zlia. }
  rewrite Hb, header_byte by (auto || lia || zlia).
  change (u8 l) with (l mod 256).
  cbn [app orc_run].
  replace ((64 + 2 * ew + l / 256) / 64) with 1 by zlia. cbn [Z.eqb Pos.eqb]. unfold orc_direct.
  replace ((64 + 2 * ew + l / 256) / 2 mod 32) with ew by zlia. rewrite Hcode.
  replace (orc_length (64 + 2 * ew + l / 256) (l mod 256)) with (zlen values) by (unfold orc_length, l; zlia).
  rewrite (packed_pack w values po pad t); [reflexivity|lia|exact Hfit|exact Hpad|exact Hbits].
Qed.

(** ** Delta *)

Lemma delta_head w len : 0 <= w < 32 -> 1 <= len <= 512 ->
  let l := (len - 1) mod 65536 in
  let h1 := Z.lor (Z.lor 192 (u8 (Z.shiftl (Z.land w 31) 1))) (Z.land (u8 (Z.shiftr l 8)) 1) in
  let h2 := u8 (Z.land l 255) in
  h1 / 64 = 3 /\ (h1 / 2) mod 32 = w /\ orc_length h1 h2 = len.
Proof.
  intros Hw Hl l h1 h2. destruct (delta_header w len Hw Hl) as (Hh1 & Hh2 & H1 & H2 & H3).
  fold l h1 h2 in Hh1, Hh2, H1, H2, H3.
  destruct (head_fields h1 Hh1) as (E1 & E2 & _). destruct (length_field h1 h2 Hh1 Hh2) as [E3 _].
  rewrite <- E1, <- E2, <- E3. auto.
Qed.

Lemma steps_zero signed v n : is_int signed v -> orc_steps signed 0 v n = repeat v n.
Proof.
  intros Hv. induction n as [|n IH]; [reflexivity|]. cbn [orc_steps repeat]. rewrite Z.add_0_r.
  assert (E : wrap signed v = v) by (destruct signed; [apply i64_id|apply u64_id]; exact Hv).
  rewrite E. f_equal. exact IH.
Qed.

Lemma fixed_legal signed v0 first r o : is_u64 v0 -> putFirst signed v0 = Ok first -> 2 <= r <= 512 ->
  writeDelta first 0 r [] = Ok o -> legal1 signed o (repeat v0 (Z.to_nat r)).
Proof.
  intros Hv Hf Hr H t. unfold writeDelta in H. change (maxWidth getAlignedWidth []) with 0 in H.
  cbn [Z.eqb] in H. change (widthEncoding 0) with (Ok 0) in H. cbn [rbind] in H.
  change (PutVarint 8 0) with (Ok [0]) in H. cbn [rbind packDeltas] in H. cbv zeta in H.
  destruct (delta_head 0 r ltac:(lia) ltac:(lia)) as (E1 & E2 & E3). cbv zeta in E1, E2, E3.
  set (h1 := Z.lor (Z.lor 192 _) _) in *. set (h2 := u8 (Z.land _ 255)) in *. clearbody h1 h2.
  apply Ok_inj in H. subst o. cbn [app orc_run]. rewrite E1. cbn [Z.eqb Pos.eqb orc_delta]. rewrite E3.
  destruct (Z.ltb_spec r 2); [lia|]. rewrite <- !app_assoc. cbn [app].
  rewrite (first_varint signed v0 first _ Hv Hf).
  change (varint64 (0 :: t)) with
    (if (0 <? W64) && (length (0%Z :: t) - length t <=? 10)%nat then Some (0, t) else None).
  assert (El : (length (0%Z :: t) - length t)%nat = 1%nat) by (cbn [length]; lia).
  rewrite El. cbn [andb Z.ltb Z.compare Nat.leb]. rewrite E2. cbn [Z.eqb].
  change (unzig true 0) with 0. rewrite steps_zero by (apply unzig_int; exact Hv).
  f_equal. f_equal. replace (Z.to_nat r) with (S (Z.to_nat (r - 1))) by lia. cbn [repeat map]. f_equal.
  generalize (Z.to_nat (r - 1)). intros k. induction k as [|k IH]; cbn; [reflexivity|]. f_equal. exact IH.
Qed.

Lemma delta_legal signed v0 first base ds o :
  is_u64 v0 -> putFirst signed v0 = Ok first ->
  is_i64 base -> Forall is_u64 ds -> 1 <= zlen ds <= 510 ->
  maxWidth getAlignedWidth ds <> 0 -> maxWidth getAlignedWidth ds <> 12 ->
  writeDelta first base (2 + zlen ds) ds = Ok o ->
  let second := secondValue signed v0 (if signed then UnZigzag v0 else 0) base in
  legal1 signed o (v0 :: second :: undelta signed base second ds).
Proof.
  intros Hv Hf Hbase Hds Hlen Hw0 Hw12 H second t. unfold writeDelta in H.
  destruct (aligned_max ds Hds) as (Ha & Hrange & _).
  set (wm := maxWidth getAlignedWidth ds) in *.
  pose proof (deltaWidth_aligned wm Ha Hw0 Hw12) as Hdw.
  set (w := if wm =? 1 then 2 else wm) in *.
  assert (Hwm : 0 <= wm) by (unfold wm; apply maxWidth_nonneg).
  assert (Hww : wm <= w /\ w <> 0 /\ w <> 1).
  { unfold w. destruct (Z.eqb_spec wm 1); [lia|]. lia. }
  assert (Hrange' : Forall (fun v => 0 <= v < 2 ^ w) ds).
  { eapply Forall_impl; [|exact Hrange]. intros v [H1 H2]. split; [exact H1|].
    eapply Z.lt_le_trans; [exact H2|]. apply Z.pow_le_mono_r; lia. }
  apply rbind_inv in H. destruct H as (ew & Hew & H).
  destruct (width_code w ew Hew ltac:(lia)) as [Hcode Her].
  apply rbind_inv in H. destruct H as (db & Hdb & H).
  apply rbind_inv in H. destruct H as (po & Hpo & H). cbv zeta in H.
  destruct (packDeltas_spec w ds Hdw) as (o' & pad & Ho & _ & Hpad & Hbits);
    [intros ->; cbn in Hlen; lia|exact Hrange'|].
  assert (o' = po) by congruence. subst o'.
  destruct (delta_head ew (2 + zlen ds) Her ltac:(lia)) as (E1 & E2 & E3). cbv zeta in E1, E2, E3.
  set (h1 := Z.lor (Z.lor 192 _) _) in *. set (h2 := u8 (Z.land _ 255)) in *. clearbody h1 h2.
  apply Ok_inj in H. subst o. cbn [app orc_run]. rewrite E1. cbn [Z.eqb Pos.eqb orc_delta]. rewrite E3.
  destruct (Z.ltb_spec (2 + zlen ds) 2); [lia|]. rewrite <- !app_assoc.
  rewrite (first_varint signed v0 first _ Hv Hf).
  destruct (base_varint base db (po ++ t) Hbase Hdb) as [Eb Eu]. rewrite Eb, Eu. cbv zeta. rewrite E2.
  assert (Hew0 : ew <> 0).
  { intros ->. change (orc_width 0) with 1 in Hcode. lia. }
  destruct (Z.eqb_spec ew 0); [contradiction|]. rewrite Hcode.
  replace (2 + zlen ds - 2) with (zlen ds) by lia.
  rewrite (packed_pack w ds po pad t ltac:(lia) Hrange' Hpad Hbits).
  assert (Es : second = rawv signed (wrap signed (unzig signed v0 + base))).
  { rewrite <- (second_spec signed v0 base Hv Hbase). unfold second. f_equal.
    destruct signed; [symmetry; apply unzig_UnZigzag; exact Hv|reflexivity]. }
  rewrite Es. cbn [map]. rewrite unzig_raw by apply wrap_int.
  destruct (sums_spec signed base (if base <? 0 then -1 else 1) eq_refl ds
              (wrap signed (unzig signed v0 + base)) Hds (wrap_int _ _)) as [S1 S2].
  rewrite S1, map_unzig_raw by exact S2. reflexivity.
Qed.

(** ** Patched base *)

Lemma bump_zero l : forall n, bump l n 0 = l.
Proof. induction l as [|a t IH]; intros [|n]; cbn [bump]; [reflexivity..|rewrite Z.add_0_r; reflexivity|]. f_equal. apply IH. Qed.
Lemma bump_app pre a t x : bump (pre ++ a :: t) (length pre) x = pre ++ (a + x) :: t.
Proof. induction pre as [|b pre IH]; cbn [length app bump]; [reflexivity|]. f_equal. exact IH. Qed.

(** One entry. *)
Lemma patch_step w pw pos g p t data : 0 <= pw -> 0 <= p < 2 ^ pw -> 0 < g -> pos + g < zlen data ->
  orc_patch w pw pos (g * 2 ^ pw + p :: t) data
  = orc_patch w pw (pos + g) t (bump data (Z.to_nat (pos + g)) (p * 2 ^ w)).
Proof.
  intros Hpw Hp Hg Hd. cbn [orc_patch]. pose proof (pow2_pos pw Hpw) as Hpp.
  replace ((g * 2 ^ pw + p) / 2 ^ pw) with g
    by (rewrite Z.add_comm, Z.div_add, Z.div_small by lia; lia).
  replace ((g * 2 ^ pw + p) mod 2 ^ pw) with p
    by (rewrite Z.add_comm, Z.mod_add, Z.mod_small by lia; lia).
  destruct (Z.ltb_spec pos (pos + g)); [|lia]. destruct (Z.ltb_spec (pos + g) (zlen data)); [|lia]. reflexivity.
Qed.

Section Patch.
Variables pgw pw w : Z.
Hypothesis Hpgw : 0 <= pgw.
Hypothesis Hpw : 0 <= pw.
Hypothesis Hsum : pgw + pw < 64.
Hypothesis Hw : 0 <= w < 63.
Notation gap_ok := (fun g => 0 <= g < 2 ^ pgw).
Notation patch_ok := (fun p => 0 <= p < 2 ^ pw).

Lemma zip_cons g p gs ps : gap_ok g -> patch_ok p ->
  zipPatch pw (g :: gs) (p :: ps) = g * 2 ^ pw + p :: zipPatch pw gs ps.
Proof. intros Hg Hp. cbn [zipPatch]. destruct (zip_entry pgw pw g p) as [-> _]; auto. Qed.

Lemma fillers_orc fuel : forall i prev g prev', fillers fuel i prev = (g, prev') ->
  0 <= prev < i -> i - prev <= Z.of_nat fuel -> Forall gap_ok g ->
  prev' < i /\ forall gs ps data, i < zlen data ->
    orc_patch w pw prev (zipPatch pw (g ++ gs) (map (fun _ => 0) g ++ ps)) data
    = orc_patch w pw prev' (zipPatch pw gs ps) data.
Proof.
  induction fuel as [|f IH]; intros i prev g prev' H Hp Hf Hg; cbn [fillers] in H.
  - injection H as <- <-. split; [lia|]. reflexivity.
  - destruct (Z.ltb_spec 255 (i - prev)).
    + destruct (fillers f i (prev + 255)) as [g1 p1] eqn:E. injection H as <- <-.
      inversion Hg as [|? ? Hg0 Hg1]; subst.
      apply IH in E; [|lia|lia|exact Hg1]. destruct E as (H1 & H2).
      split; [lia|]. intros gs ps data Hi. cbn [app map].
      assert (Hz : patch_ok 0) by (pose proof (pow2_pos pw Hpw); cbv beta; lia).
      rewrite zip_cons by assumption. rewrite patch_step by (assumption || lia).
      rewrite Z.mul_0_l, bump_zero. apply H2. exact Hi.
    + injection H as <- <-. split; [lia|]. reflexivity.
Qed.

(** Once a position has been passed. *)
Lemma split_orc ds : forall i prev vs gs ps, Forall is_u64 ds ->
  splitPatches w ds i prev = (vs, gs, ps) -> 0 <= prev < i -> Forall gap_ok gs -> Forall patch_ok ps ->
  forall pre, length pre = Z.to_nat i ->
    orc_patch w pw prev (zipPatch pw gs ps) (pre ++ vs) = Some (pre ++ ds).
Proof.
  induction ds as [|d t IH]; intros i prev vs gs ps Hds H Hp Hg Hps pre Hpre; cbn [splitPatches] in H.
  - injection H as <- <- <-. reflexivity.
  - inversion Hds as [|? ? Hd Ht]; subst.
    destruct (Z.ltb_spec w (getBitsWidth d)) as [Hb|Hb].
    + destruct (fillers (Z.to_nat i) i prev) as [g p'] eqn:Ef.
      destruct (splitPatches w t (i + 1) i) as [[vs1 gs1] ps1] eqn:E. injection H as <- <- <-.
      apply Forall_app in Hg. destruct Hg as [Hg1 Hg2]. inversion Hg2 as [|? ? Hg0 Hg3]; subst.
      apply Forall_app in Hps. destruct Hps as [_ Hp2]. inversion Hp2 as [|? ? Hp0 Hp3]; subst.
      pose proof (fillers_spec _ _ _ _ _ Ef ltac:(lia) ltac:(lia)) as (Hf1 & _).
      apply fillers_orc in Ef; [|exact Hp|lia|exact Hg1]. destruct Ef as [Hlt Hf].
      rewrite mask_mod, shiftr_div in * by lia.
      assert (Hz : i < zlen (pre ++ d mod 2 ^ w :: vs1)).
      { unfold zlen. rewrite app_length. cbn [length]. lia. }
      rewrite Hf by exact Hz. rewrite zip_cons by assumption.
      rewrite patch_step by (assumption || lia). replace (p' + (i - p')) with i by lia.
      rewrite <- Hpre, bump_app.
      replace (d mod 2 ^ w + d / 2 ^ w * 2 ^ w) with d
        by (pose proof (pow2_pos w ltac:(lia)); pose proof (Z.div_mod d (2 ^ w) ltac:(lia)); lia).
      change (pre ++ d :: vs1) with (pre ++ [d] ++ vs1). rewrite app_assoc.
      rewrite (IH (i + 1) i vs1 gs1 ps1 Ht E ltac:(lia) Hg3 Hp3).
      * rewrite <- app_assoc. reflexivity.
      * rewrite app_length. cbn [length]. lia.
    + destruct (splitPatches w t (i + 1) prev) as [[vs1 gs1] ps1] eqn:E. injection H as <- <- <-.
      change (pre ++ d :: vs1) with (pre ++ [d] ++ vs1). rewrite app_assoc.
      rewrite (IH (i + 1) prev vs1 gs1 ps1 Ht E ltac:(lia) Hg Hps).
      * rewrite <- app_assoc. reflexivity.
      * rewrite app_length. cbn [length]. lia.
Qed.

(** The first entry, whose gap counts from the first value. *)
Definition shifted (entries : list Z) : list Z := match entries with [] => [] | e :: t => (e + 2 ^ pw) :: t end.
Lemma first_step g p gs ps data : gap_ok g -> patch_ok p -> g < zlen data ->
  orc_patch w pw (-1) (shifted (zipPatch pw (g :: gs) (p :: ps))) data
  = orc_patch w pw g (zipPatch pw gs ps) (bump data (Z.to_nat g) (p * 2 ^ w)).
Proof.
  intros Hg Hp Hd. rewrite zip_cons by assumption. cbn [shifted].
  replace (g * 2 ^ pw + p + 2 ^ pw) with ((g + 1) * 2 ^ pw + p) by lia.
  cbv beta in Hg. rewrite patch_step; [|exact Hpw|exact Hp|lia|lia]. replace (-1 + (g + 1)) with g by lia. reflexivity.
Qed.

Lemma split_orc_first ds : forall i vs gs ps, Forall is_u64 ds ->
  splitPatches w ds i 0 = (vs, gs, ps) -> 0 <= i -> Forall gap_ok gs -> Forall patch_ok ps ->
  forall pre, length pre = Z.to_nat i ->
    orc_patch w pw (-1) (shifted (zipPatch pw gs ps)) (pre ++ vs) = Some (pre ++ ds).
Proof.
  induction ds as [|d t IH]; intros i vs gs ps Hds H Hi Hg Hps pre Hpre; cbn [splitPatches] in H.
  - injection H as <- <- <-. reflexivity.
  - inversion Hds as [|? ? Hd Ht]; subst.
    destruct (Z.ltb_spec w (getBitsWidth d)) as [Hb|Hb].
    + destruct (fillers (Z.to_nat i) i 0) as [g p'] eqn:Ef.
      destruct (splitPatches w t (i + 1) i) as [[vs1 gs1] ps1] eqn:E. injection H as <- <- <-.
      rewrite mask_mod, shiftr_div in * by lia.
      assert (Hz : i < zlen (pre ++ d mod 2 ^ w :: vs1)).
      { unfold zlen. rewrite app_length. cbn [length]. lia. }
      assert (Hdd : d mod 2 ^ w + d / 2 ^ w * 2 ^ w = d)
        by (pose proof (pow2_pos w ltac:(lia)); pose proof (Z.div_mod d (2 ^ w) ltac:(lia)); lia).
      assert (Hend : Forall gap_ok gs1 -> Forall patch_ok ps1 ->
        orc_patch w pw i (zipPatch pw gs1 ps1) (bump (pre ++ d mod 2 ^ w :: vs1) (Z.to_nat i) (d / 2 ^ w * 2 ^ w))
        = Some (pre ++ d :: t)).
      { intros Hg3 Hp3. rewrite <- Hpre, bump_app, Hdd.
        change (pre ++ d :: vs1) with (pre ++ [d] ++ vs1). rewrite app_assoc.
        rewrite (split_orc t (i + 1) i vs1 gs1 ps1 Ht E ltac:(lia) Hg3 Hp3).
        * rewrite <- app_assoc. reflexivity.
        * rewrite app_length. cbn [length]. lia. }
      destruct (Z.to_nat i) as [|f] eqn:En; cbn [fillers] in Ef.
      * injection Ef as <- <-. cbn [map app] in *.
        inversion Hg as [|? ? Hg0 Hg3]; subst. inversion Hps as [|? ? Hp0 Hp3]; subst.
        rewrite first_step by (assumption || lia). replace (i - 0) with i by lia.
        rewrite En. apply Hend; assumption.
      * destruct (Z.ltb_spec 255 (i - 0)).
        -- destruct (fillers f i (0 + 255)) as [g1 p1] eqn:Ef1. injection Ef as <- <-.
           cbn [map app] in *. inversion Hg as [|? ? Hg0 Hg4]; subst. inversion Hps as [|? ? Hp0 Hp4]; subst.
           apply Forall_app in Hg4. destruct Hg4 as [Hg5 Hg6]. inversion Hg6 as [|? ? Hg7 Hg3]; subst.
           apply Forall_app in Hp4. destruct Hp4 as [_ Hp6]. inversion Hp6 as [|? ? Hp7 Hp3]; subst.
           rewrite first_step by (assumption || lia). rewrite Z.mul_0_l, bump_zero.
           pose proof (fillers_spec _ _ _ _ _ Ef1 ltac:(lia) ltac:(lia)) as (Hf1 & _).
           apply fillers_orc in Ef1; [|lia|lia|exact Hg5]. destruct Ef1 as [Hlt Hf].
           rewrite Z.add_0_l in Hf. rewrite Hf by exact Hz. rewrite zip_cons by assumption.
           rewrite patch_step by (assumption || lia). replace (p1 + (i - p1)) with i by lia.
           rewrite En. apply Hend; assumption.
        -- injection Ef as <- <-. cbn [map app] in *.
           inversion Hg as [|? ? Hg0 Hg3]; subst. inversion Hps as [|? ? Hp0 Hp3]; subst.
           rewrite first_step by (assumption || lia). replace (i - 0) with i by lia.
           rewrite En. apply Hend; assumption.
    + destruct (splitPatches w t (i + 1) 0) as [[vs1 gs1] ps1] eqn:E. injection H as <- <- <-.
      change (pre ++ d :: vs1) with (pre ++ [d] ++ vs1). rewrite app_assoc.
      rewrite (IH (i + 1) vs1 gs1 ps1 Ht E ltac:(lia) Hg Hps).
      * rewrite <- app_assoc. reflexivity.
      * rewrite app_length. cbn [length]. lia.
Qed.
End Patch.

Lemma patch_legal values p o :
  Forall is_u64 values -> (length values <= 512)%nat ->
  tryPatch values = Ok (Some p) -> writePatch p = Ok o ->
  let pw := maxWidth getBitsWidth (p_patches p) in
  let pgw := maxWidth getBitsWidth (p_gaps p) in
  1 <= p_width p -> 1 <= pgw -> pgw + pw < 64 -> - W63 < p_base p ->
  legal1 true o values.
Proof.
  intros Hu Hlen Htry Hwr pw pgw Hw1 Hpgw Hsum Hbase t.
  unfold writePatch in Hwr. apply rbind_inv in Hwr. destruct Hwr as (ew & Hew & Hwr).
  destruct (widthEncoding_range _ _ Hew) as [Her Hwr64].
  cbv zeta in Hwr. fold pw pgw in Hwr.
  apply rbind_inv in Hwr. destruct Hwr as (epw & Hepw & Hwr).
  destruct (widthEncoding_range _ _ Hepw) as [Hepr Hpwr].
  apply rbind_inv in Hwr. destruct Hwr as (ovs & Hovs & Hwr).
  destruct (Z.ltb_spec 64 (pgw + pw)); [discriminate|].
  apply rbind_inv in Hwr. destruct Hwr as (ops & Hops & Hwr). apply Ok_inj in Hwr. subst o.
  assert (Hw56 : p_width p <= 56 \/ p_width p = 64).
  { unfold widthEncoding in Hew.
    repeat match type of Hew with context [if ?c then _ else _] => destruct c eqn:? end;
      try discriminate; lia. }
  destruct (tryPatch_spec values p Hu Htry)
    as (ds & Hds & Hdu & Hbi & Hsplit & Hps31 & Hgt & Hl2).
  pose proof (maxWidth_64 ds Hdu) as Hmax64.
  destruct (split_length _ _ _ _ _ _ _ Hsplit) as [Hlvs Hlg].
  destruct (split_spec (p_width p) ltac:(lia) ds 0 0 _ _ _ Hdu Hsplit ltac:(lia))
    as (Hvs & Hgs & Hpsu & Hnz & _).
  assert (Hlen' : length (p_values p) = length values).
  { rewrite Hlvs, <- Hds, map_length. reflexivity. }
  destruct Hnz as [Hnz|Hnz]; [lia|].
  assert (Hpw1 : 1 <= pw).
  { destruct Hnz as (x & Hx & Hx0). rewrite Forall_forall in Hpsu. specialize (Hpsu x Hx).
    pose proof (maxWidth_ge getBitsWidth _ x Hx) as Hge. fold pw in Hge.
    destruct (getBitsWidth_spec x Hpsu) as (Hb1 & _ & _ & Hb4).
    destruct (Z.eq_dec (getBitsWidth x) 0) as [E|]; [apply Hb4 in E; congruence|lia]. }
  assert (Hgu : Forall is_u64 (p_gaps p)) by (eapply Forall_impl; [|exact Hgs]; unfold is_u64; lia).
  pose proof (getBitsWidth_max_fits _ Hgu) as Hgfit. fold pgw in Hgfit.
  pose proof (getBitsWidth_max_fits _ Hpsu) as Hpfit. fold pw in Hpfit.
  assert (Hpgw8 : pgw <= 8).
  { unfold pgw. destruct (maxWidth_in getBitsWidth (p_gaps p)) as [->|(x & Hx & ->)]; [lia|].
    rewrite Forall_forall in Hgs, Hgu. specialize (Hgs x Hx). specialize (Hgu x Hx).
    apply getBitsWidth_le; [exact Hgu|lia|]. change (2 ^ 8) with 256. lia. }
  destruct (pack_inv (p_width p) _ _ ltac:(lia) Hvs Hovs) as (pad1 & Hf1 & Hb1 & Hp1 & Hbits1).
  pose proof (zip_range pgw pw ltac:(lia) ltac:(lia) Hsum _ _ Hgfit Hpfit) as Hzip.
  destruct (pack_inv (pgw + pw) _ _ ltac:(lia) Hzip Hops) as (pad2 & _ & Hb2 & Hp2 & Hbits2).
  (* base *)
  set (m := if p_base p <? 0 then u64 (i64 (- p_base p)) else u64 (p_base p)) in *.
  unfold is_i64 in Hbi.
  assert (Hm : m = Z.abs (p_base p)).
  { unfold m. destruct (Z.ltb_spec (p_base p) 0).
    - rewrite i64_id by (unfold is_i64; lia). rewrite u64_id by (unfold is_u64; lia). lia.
    - rewrite u64_id by (unfold is_u64; lia). lia. }
  assert (Hmu : is_u64 m) by (rewrite Hm; unfold is_u64; lia).
  destruct (getBitsWidth_spec m Hmu) as (Hbw1 & Hbw2 & _ & _).
  assert (Hbw63 : getBitsWidth m <= 63).
  { apply getBitsWidth_le; [exact Hmu|lia|]. change (2 ^ 63) with W63. rewrite Hm. lia. }
  set (bw := (getBitsWidth m + 1 + 7) / 8) in *.
  assert (Hbwr : 1 <= bw <= 8 /\ getBitsWidth m + 1 <= 8 * bw) by (unfold bw; zlia).
  set (b' := if p_base p <? 0 then Z.lor m _ else m) in *.
  set (sign := 2 ^ (8 * bw - 1)).
  assert (Hms : 0 <= m < sign).
  { split; [apply Hmu|]. eapply Z.lt_le_trans; [exact Hbw2|]. apply Z.pow_le_mono_r; lia. }
  assert (Hs63 : sign <= W63) by (change W63 with (2 ^ 63); apply Z.pow_le_mono_r; lia).
  assert (Hb' : b' = (if p_base p <? 0 then sign else 0) + m).
  { unfold b'. destruct (p_base p <? 0); [|lia]. rewrite shiftl_mul by lia.
    replace ((bw - 1) * 8 + 7) with (8 * bw - 1) by lia. fold sign.
    rewrite u64_id by (unfold is_u64; lia). rewrite Z.mul_1_l. rewrite Z.lor_comm.
    rewrite <- (Z.mul_1_l sign) at 1. unfold sign. rewrite lor_add by (fold sign; lia). fold sign. lia. }
  assert (Hb'r : 0 <= b' < 2 ^ (8 * bw)).
  { replace (8 * bw) with (1 + (8 * bw - 1)) by lia. rewrite Z.pow_add_r by lia. fold sign.
    change (2 ^ 1) with 2. rewrite Hb'. destruct (p_base p <? 0); lia. }
  set (bb := be_bytes (Z.to_nat bw) b') in *.
  (* headers *)
  assert (Hzl : 1 <= zlen (p_values p) <= 512) by (unfold zlen; lia).
  set (l := zlen (p_values p) - 1) in *.
  set (h0 := Z.lor _ (u8 (Z.land (Z.shiftr l 8) 1))) in *. set (h1 := u8 (Z.land l 255)) in *.
  assert (E0 : h0 = 128 + 2 * ew + l / 256).
  { unfold h0. rewrite land_1, shiftr_div by lia. change (2 ^ 8) with 256.
    rewrite (u8_id ((l / 256) mod 2)) by (unfold is_u8; zlia).
    replace ((l / 256) mod 2) with (l / 256) by zlia.
    replace (u8 (Z.shiftl ew 1)) with (u8 (Z.shiftl (Z.land ew 31) 1))
      by (rewrite IntRunsP.land_31, Z.mod_small by lia; reflexivity).
    apply header_byte; [auto|lia|zlia]. }
  assert (E1 : h1 = l mod 256).
  { unfold h1. rewrite land_255. unfold u8. apply Z.mod_mod. lia. }
  destruct (h23 (bw - 1) epw ltac:(lia) Hepr) as (Hh2u & Hh2a & Hh2b).
  cbv zeta in Hh2u, Hh2a, Hh2b.
  set (h2 := Z.lor (u8 (Z.shiftl (bw - 1) 5)) (Z.land epw 31)) in *.
  assert (Hpll : 0 <= zlen (p_patches p) < 32) by (pose proof (zlen_nonneg (p_patches p)); lia).
  destruct (h23 (pgw - 1) (zlen (p_patches p)) ltac:(lia) Hpll) as (Hh3u & Hh3a & Hh3b).
  cbv zeta in Hh3u, Hh3a, Hh3b.
  set (h3 := Z.lor (u8 (Z.shiftl (Z.land (u8 (pgw - 1)) 7) 5)) _) in *.
  assert (E3 : h3 = Z.lor (u8 (Z.shiftl (pgw - 1) 5)) (Z.land (zlen (p_patches p)) 31)).
  { unfold h3. rewrite (u8_id (pgw - 1)) by (unfold is_u8; lia).
    rewrite land_7, (Z.mod_small (pgw - 1)) by lia.
    rewrite (u8_id (zlen (p_patches p))) by (unfold is_u8; lia). reflexivity. }
  rewrite <- E3 in Hh3u, Hh3a, Hh3b.
  clearbody h0 h1 h2 h3.
  rewrite shiftr_div, land_7 in Hh2a, Hh3a by lia. rewrite IntRunsP.land_31 in Hh2b, Hh3b.
  change (2 ^ 5) with 32 in Hh2a, Hh3a. unfold is_u8 in Hh2u, Hh3u.
  assert (Hh2a' : h2 / 32 = bw - 1) by zlia. assert (Hh3a' : h3 / 32 = pgw - 1) by zlia.
  cbn [app orc_run]. replace (h0 / 64) with 2 by (rewrite E0; zlia). cbn [Z.eqb Pos.eqb].
  unfold orc_patched.
  replace ((h0 / 2) mod 32) with ew by (rewrite E0; zlia).
  destruct (width_code _ _ Hew Hw1) as [-> _].
  rewrite Hh2b. destruct (width_code _ _ Hepw Hpw1) as [-> _].
  rewrite Hh2a', Hh3a', Hh3b. replace (pgw - 1 + 1) with pgw by lia. replace (bw - 1 + 1) with bw by lia.
  destruct (Z.ltb_spec 64 (pgw + pw)); [lia|].
  rewrite <- !app_assoc. unfold bb. rewrite big_endian_be. rewrite Z2Nat.id by lia.
  rewrite Z.mod_small by exact Hb'r. cbv zeta. fold sign.
  assert (Ebase : (if sign <=? b' then - (b' - sign) else b') = p_base p).
  { rewrite Hb'. destruct (Z.ltb_spec (p_base p) 0); destruct (Z.leb_spec sign (sign + m)); try lia;
      destruct (Z.leb_spec sign (0 + m)); lia. }
  rewrite Ebase.
  replace (orc_length h0 h1) with (zlen (p_values p)) by (unfold orc_length; rewrite E0, E1; unfold l; zlia).
  rewrite (packed_pack (p_width p) (p_values p) ovs pad1 (ops ++ t)) by (assumption || lia).
  assert (Hzz : zlen (p_patches p) = zlen (zipPatch pw (p_gaps p) (p_patches p)))
    by (unfold zlen; rewrite zip_length by exact Hlg; reflexivity).
  rewrite Hzz. rewrite (packed_pack (pgw + pw) _ ops pad2 t ltac:(lia) Hzip Hp2 Hbits2).
  change (match zipPatch pw (p_gaps p) (p_patches p) with [] => [] | e :: t0 => e + 2 ^ pw :: t0 end)
    with (shifted pw (zipPatch pw (p_gaps p) (p_patches p))).
  pose proof (split_orc_first pgw pw (p_width p) ltac:(lia) ltac:(lia) Hsum ltac:(lia) ds 0 _ _ _ Hdu Hsplit
                ltac:(lia) Hgfit Hpfit [] eq_refl) as E. cbn [app] in E. rewrite E.
  f_equal. f_equal. rewrite <- Hds, map_map. apply map_ext. intros d.
  rewrite unzig_UnZigzag by apply offv_u64. symmetry. apply UnZigzag_offv.
Qed.

(** ** Whole streams: as in IntStreamP, run by run *)

Lemma direct_Legal signed values : Forall is_u64 values -> direct_ok values = true ->
  exists o, writeDirect values true = Ok o /\ bytes o /\ Legal signed o values.
Proof.
  intros Hu H. unfold direct_ok in H. apply andb_prop in H. destruct H as [Hl Hz].
  apply Z.leb_le in Hl. apply existsb_nz in Hz.
  destruct (writeDirect_spec signed values Hu) as (o & Ho & Hb & Hne & Hr); [|exact Hz|].
  { destruct values; [exfalso; apply Hz; constructor|]. unfold zlen in *. cbn [length] in *. lia. }
  exists o. split; [exact Ho|]. split; [exact Hb|]. apply Legal_one.
  apply direct_legal; auto.
  destruct values; [exfalso; apply Hz; constructor|]. unfold zlen in *. cbn [length] in *. lia.
Qed.

Lemma writeStep_legal signed toEnd values : values <> [] -> Forall is_u64 values ->
  step_ok signed toEnd values = true ->
  exists rest o done, writeStep signed toEnd values = Ok (rest, o) /\ bytes o /\
    values = done ++ rest /\ Legal signed o done /\
    (if (3 <=? getRepeats values)%nat then rest = skipn (getRepeats values) values
     else (toEnd = true -> rest = []) /\
          forall base ds, tryDelta signed values = Some (base, ds) ->
            (length values <= 2 + length ds)%nat -> rest = []).
Proof.
  intros Hne Hu Hok. destruct values as [|v0 t]; [congruence|].
  remember (v0 :: t) as values eqn:Evs. assert (Hv0 : is_u64 v0) by (rewrite Evs in Hu; inversion Hu; assumption).
  assert (Hhd : hd 0 values = v0) by (rewrite Evs; reflexivity).
  unfold step_ok in Hok. rewrite Hhd in Hok. cbv zeta in Hok.
  unfold writeStep. rewrite (match_cons _ _ _ _ _ Evs). cbv zeta.
  pose proof (repeats_split v0 t) as Hsp. cbv zeta in Hsp. rewrite <- Evs in Hsp.
  set (r := getRepeats values) in *.
  destruct (Nat.leb_spec 3 r) as [Hr3|Hr3].
  - destruct (Nat.leb_spec r 10) as [Hr10|Hr10].
    + exists (skipn r values). eexists. exists (repeat v0 r). split; [reflexivity|].
      apply denseb_iff in Hok; [|exact Hv0].
      split; [apply shortRepeat_bytes; exact Hv0|]. split; [exact Hsp|].
      split; [|reflexivity]. apply Legal_one.
      pose proof (short_legal signed (Z.of_nat r) v0 ltac:(lia) Hv0 Hok) as Hleg.
      rewrite Nat2Z.id in Hleg. exact Hleg.
    + unfold fixed_ok in Hok. apply andb_prop in Hok. destruct Hok as [H1 H2].
      apply Z.ltb_lt in H1. apply Nat.leb_le in H2.
      destruct (putFirst_ok signed v0 Hv0 H1) as (first & Hf & Hfb & _).
      rewrite Hf. cbn [rbind]. rewrite Z.mod_small by lia.
      destruct (writeFixed_spec signed v0 first (Z.of_nat r) Hv0 Hf Hfb ltac:(lia))
        as (o & Ho & Hb & Hno & Hrun).
      rewrite Ho. cbn [rbind]. exists (skipn r values), o, (repeat v0 r).
      split; [reflexivity|]. split; [exact Hb|]. split; [exact Hsp|]. split; [|reflexivity].
      apply Legal_one.
      pose proof (fixed_legal signed v0 first (Z.of_nat r) o Hv0 Hf ltac:(lia) Ho) as Hleg.
      rewrite Nat2Z.id in Hleg. exact Hleg.
  - assert (Hdirect : forall o1 rest (d : list Z), Legal signed o1 d -> bytes o1 ->
      values = d ++ rest -> negb toEnd || negb (nonempty rest) || direct_ok rest = true ->
      exists rest' o done,
        match rest with
        | [] => Ok ([], o1)
        | _ :: _ => if toEnd then let! o' := writeDirect rest true in Ok ([], o1 ++ o')
                    else Ok (rest, o1)
        end = Ok (rest', o) /\ bytes o /\ values = done ++ rest' /\ Legal signed o done /\
        ((toEnd = true -> rest' = []) /\ (rest = [] -> rest' = []))).
    { intros o1 rest d Hd Hb Hval Hrest. destruct rest as [|x rest].
      - exists [], o1, d. repeat split; auto.
      - destruct toEnd.
        + cbn [negb orb nonempty] in Hrest.
          destruct (direct_Legal signed (x :: rest)) as (o' & Ho' & Hb' & Hr'); [|exact Hrest|].
          { rewrite Hval in Hu. apply Forall_app in Hu. apply Hu. }
          rewrite Ho'. cbn [rbind]. exists [], (o1 ++ o'), (d ++ x :: rest).
          split; [reflexivity|]. split; [apply bytes_app; split; assumption|].
          split; [rewrite app_nil_r; exact Hval|]. split; [|split; reflexivity].
          apply Legal_app; assumption.
        + exists (x :: rest), o1, d. repeat split; auto; discriminate. }
    destruct (tryDelta signed values) as [[base ds]|] eqn:Etd.
    + apply andb_prop in Hok. destruct Hok as [Hd Hrest].
      unfold delta_ok in Hd. apply andb_prop in Hd. destruct Hd as [Hd Hd5].
      apply andb_prop in Hd. destruct Hd as [Hd Hd4]. apply andb_prop in Hd. destruct Hd as [Hd Hd3].
      apply andb_prop in Hd. destruct Hd as [Hd1 Hd2].
      apply Z.ltb_lt in Hd1, Hd2. apply Z.leb_le in Hd3.
      destruct (tryDelta_spec signed values base ds Hu Etd)
        as (a & b & rest & Hval & Hbi & Hb0 & Hdu & Hdne & Hsec).
      assert (a = v0) by congruence. subst a.
      destruct (putFirst_ok signed v0 Hv0 Hd1) as (first & Hf & Hfb & _). rewrite Hf. cbn [rbind].
      assert (Hds1 : 1 <= zlen ds) by (destruct ds; [congruence|unfold zlen; cbn [length]; lia]).
      rewrite Z.mod_small by lia.
      destruct (maxWidth_cases ds Hdu) as [Hc0 Hc12].
      destruct (writeDelta_spec signed v0 first base ds Hv0 Hf Hfb Hbi Hd2 Hdu ltac:(lia))
        as (o & Ho & Hb & Hno & Hrun).
      { apply Hc0. exact Hd4. }
      { apply Hc12. exact Hd5. }
      pose proof (delta_legal signed v0 first base ds o Hv0 Hf Hbi Hdu ltac:(lia)) as Hleg.
      specialize (Hleg (proj2 Hc0 Hd4) (proj2 Hc12 Hd5) Ho). cbv zeta in Hleg.
      rewrite Ho. cbn [rbind]. rewrite Hsec in Hrun, Hleg.
      set (d := v0 :: b :: undelta signed base b ds) in *.
      assert (Hld : length d = Z.to_nat (2 + zlen ds)).
      { unfold d. cbn [length]. rewrite length_undelta. unfold zlen. lia. }
      assert (Hsk : skipn (Z.to_nat (2 + zlen ds)) values = rest).
      { rewrite <- Hld. rewrite Hval.
        change (v0 :: b :: undelta signed base b ds ++ rest) with (d ++ rest). apply skipn_app_exact. }
      rewrite Hsk. replace (Z.to_nat (2 + zlen ds)) with (2 + length ds)%nat in Hsk by (unfold zlen; lia).
      rewrite Hsk in Hrest.
      destruct (Hdirect o rest d) as (rest' & o' & done & D1 & D2 & D3 & D4 & D5 & D6);
        [apply Legal_one; exact Hleg|exact Hb|exact Hval|exact Hrest|].
      exists rest', o', done. split; [exact D1|]. split; [exact D2|]. split; [exact D3|].
      split; [exact D4|]. split; [exact D5|].
      intros base' ds' E Hl. injection E as <- <-. apply D6.
      rewrite <- Hsk. apply skipn_all2. exact Hl.
    + destruct signed.
      * destruct (tryPatch values) as [[p|]| |] eqn:Etp; try discriminate.
        -- unfold patch_ok in Hok.
           apply andb_prop in Hok. destruct Hok as [Hok H6]. apply andb_prop in Hok. destruct Hok as [Hok H5].
           apply andb_prop in Hok. destruct Hok as [Hok H4]. apply andb_prop in Hok. destruct Hok as [Hok H3].
           apply andb_prop in Hok. destruct Hok as [H1 H2].
           apply Nat.leb_le in H1. apply Z.leb_le in H2. apply Z.ltb_lt in H4, H5.
           cbn [rbind]. destruct (writePatch p) as [o| |] eqn:Ewp; try discriminate.
           assert (Hpgw : 1 <= maxWidth getBitsWidth (p_gaps p)).
           { apply existsb_exists in H3. destruct H3 as (g & Hg & Hg0).
             apply negb_true_iff, Z.eqb_neq in Hg0.
             destruct (tryPatch_spec values p Hu Etp) as (ds & _ & Hdu & _ & Hspl & _ & _ & _).
             destruct (Z.lt_ge_cases (p_width p) 63) as [Hw|Hw].
             - destruct (split_spec (p_width p) ltac:(lia) ds 0 0 _ _ _ Hdu Hspl ltac:(lia)) as (_ & Hgs & _).
               rewrite Forall_forall in Hgs. specialize (Hgs g Hg).
               assert (Hgu : is_u64 g) by (unfold is_u64; lia).
               pose proof (maxWidth_ge getBitsWidth _ g Hg).
               destruct (getBitsWidth_spec g Hgu) as (Hb1 & _ & _ & Hb4).
               destruct (Z.eq_dec (getBitsWidth g) 0) as [E|]; [apply Hb4 in E; congruence|lia].
             - exfalso. unfold writePatch in Ewp. apply rbind_inv in Ewp. destruct Ewp as (ew & Hew & _).
               destruct (tryPatch_spec values p Hu Etp) as (ds' & _ & Hdu' & _ & _ & _ & Hgt & _).
               pose proof (maxWidth_64 ds' Hdu'). replace (p_width p) with 63 in Hew by lia. discriminate. }
           destruct (writePatch_spec values p o Hu H1 Etp Ewp H2 Hpgw H4 H5)
             as (Hpl & Hb & Hno & Hrun).
           cbn [rbind]. rewrite Hpl, skipn_all. exists [], o, values.
           split; [reflexivity|]. split; [exact Hb|]. split; [rewrite app_nil_r; reflexivity|].
           split; [|split; [reflexivity|discriminate]]. apply Legal_one.
           exact (patch_legal values p o Hu H1 Etp Ewp H2 Hpgw H4 H5).
        -- cbn [rbind].
           destruct (Hdirect [] values []) as (rest' & o' & done & D1 & D2 & D3 & D4 & D5 & D6);
             [constructor|constructor|reflexivity| |
              exists rest', o', done; repeat (split; [assumption|]); discriminate].
           destruct toEnd; [|reflexivity]. cbn [negb orb] in *. rewrite Hok. apply orb_true_r.
      * cbn [rbind].
        destruct (Hdirect [] values []) as (rest' & o' & done & D1 & D2 & D3 & D4 & D5 & D6);
          [constructor|constructor|reflexivity| |
           exists rest', o', done; repeat (split; [assumption|]); discriminate].
        destruct toEnd; [|reflexivity]. cbn [negb orb] in *. rewrite Hok. apply orb_true_r.
Qed.

Lemma writeToEnd_legal signed fuel : forall values, Forall is_u64 values ->
  end_ok fuel signed values = true ->
  exists o, writeToEnd fuel signed values = Ok o /\ bytes o /\ Legal signed o values.
Proof.
  induction fuel as [|f IH]; intros values Hu Hok.
  - destruct values; [|discriminate]. exists []. repeat split; constructor.
  - destruct values as [|v t]; [exists []; repeat split; constructor|].
    cbn [end_ok] in Hok. apply andb_prop in Hok. destruct Hok as [Hs Hr].
    destruct (writeStep_legal signed true (v :: t) ltac:(discriminate) Hu Hs)
      as (rest & o & done & Hw & Hb & Hval & Hrun & Hrest).
    cbn [writeToEnd]. rewrite Hw. cbn [rbind].
    assert (Hru : Forall is_u64 rest) by (rewrite Hval in Hu; apply Forall_app in Hu; apply Hu).
    destruct (IH rest Hru) as (o' & Ho' & Hb' & Hrun').
    { destruct (3 <=? getRepeats (v :: t))%nat; [rewrite Hrest; exact Hr|].
      rewrite (proj1 Hrest eq_refl). destruct f; reflexivity. }
    rewrite Ho'. cbn [rbind]. exists (o ++ o'). split; [reflexivity|].
    split; [apply bytes_app; split; assumption|]. rewrite Hval. apply Legal_app; assumption.
Qed.

Lemma write_legal signed toEnd values : values <> [] -> Forall is_u64 values ->
  write_ok signed toEnd values = true ->
  exists rest o done, write signed toEnd values = Ok (rest, o) /\ bytes o /\
    values = done ++ rest /\ Legal signed o done /\ (toEnd = true -> rest = []).
Proof.
  intros Hne Hu Hok. unfold write_ok in Hok. unfold write.
  destruct (length values <=? 3)%nat.
  - destruct (direct_Legal signed values Hu Hok) as (o & Ho & Hb & Hr). rewrite Ho. cbn [rbind].
    exists [], o, values. rewrite app_nil_r. auto.
  - destruct toEnd.
    + destruct (writeToEnd_legal signed _ values Hu Hok) as (o & Ho & Hb & Hr). rewrite Ho. cbn [rbind].
      exists [], o, values. rewrite app_nil_r. auto.
    + destruct (writeStep_legal signed false values Hne Hu Hok) as (rest & o & done & Hw & Hb & Hv & Hr & _).
      exists rest, o, done. repeat split; auto. discriminate.
Qed.

(** ** Whole streams *)

Definition rawv (signed : bool) (v : Z) : Z := if signed then Zigzag v else v.
Lemma rawv_u64 signed v : is_int signed v -> is_u64 (rawv signed v).
Proof. destruct signed; cbn; [apply Zigzag_range|auto]. Qed.

Lemma encode_legal e v : is_int (i_signed e) v -> Forall is_u64 (i_values e) ->
  let buf := i_values e ++ [rawv (i_signed e) v] in
  (zlen buf <? 512) || write_ok (i_signed e) false buf = true ->
  exists e1 o1 done, int_Encode e v = Ok (e1, o1) /\ bytes o1 /\
    i_signed e1 = i_signed e /\ buf = done ++ i_values e1 /\ Forall is_u64 (i_values e1) /\
    Legal (i_signed e) o1 done.
Proof.
  intros Hv Hu buf Hw.
  assert (Hbu : Forall is_u64 buf).
  { apply Forall_app. split; [exact Hu|]. constructor; [|constructor]. apply rawv_u64. exact Hv. }
  unfold int_Encode. fold (rawv (i_signed e) v). fold buf. cbv zeta. unfold MaxIntRunLength.
  destruct (Z.leb_spec 512 (zlen buf)) as [Hl|Hl].
  - destruct (Z.ltb_spec (zlen buf) 512); [lia|]. cbn [orb] in Hw.
    destruct (write_legal (i_signed e) false buf) as (rest & o & done & Hwr & Hb & Hval & Hrun & _);
      [intros E; apply app_eq_nil in E; destruct E; discriminate|exact Hbu|exact Hw|].
    rewrite Hwr. cbn [rbind]. eexists. exists o, done. split; [reflexivity|]. cbn [i_signed i_values].
    split; [exact Hb|]. split; [reflexivity|]. split; [exact Hval|]. split; [|exact Hrun].
    rewrite Hval in Hbu. apply Forall_app in Hbu. apply Hbu.
  - cbn [rbind]. eexists. exists [], []. split; [reflexivity|]. cbn [i_signed i_values app].
    repeat split; auto; constructor.
Qed.

(** The pending values and the rest of the stream, as raw 64 bit values. *)
Lemma stream_legal vs : forall e, Forall (is_int (i_signed e)) vs -> Forall is_u64 (i_values e) ->
  stream_ok e vs = true ->
  exists e' o, segment int_Encode int_Flush e vs = Ok (e', o) /\ bytes o /\
    i_values e' = [] /\ i_signed e' = i_signed e /\
    Legal (i_signed e) o (i_values e ++ map (rawv (i_signed e)) vs).
Proof.
  induction vs as [|v t IH]; intros e Hvs Hu Hok; cbn [stream_ok] in Hok.
  - unfold segment. cbn [feed rbind map]. rewrite app_nil_r. unfold int_Flush.
    destruct (i_values e) as [|x l] eqn:Ev.
    + cbn [rbind]. exists e, []. repeat split; auto; constructor.
    + cbn [nonempty negb orb] in Hok.
      destruct (write_legal (i_signed e) true (x :: l) ltac:(discriminate) Hu Hok)
        as (rest & o & done & Hw & Hb & Hval & Hrun & Hrest).
      rewrite (Hrest eq_refl) in *. rewrite app_nil_r in Hval. subst done.
      rewrite Hw. cbn [rbind]. eexists. exists o. split; [reflexivity|]. auto.
  - inversion Hvs as [|? ? Hv Ht]; subst. apply andb_prop in Hok. destruct Hok as [Hw Hok].
    fold (rawv (i_signed e) v) in Hw.
    destruct (encode_legal e v Hv Hu Hw) as (e1 & o1 & done & He & Hb1 & Hs1 & Hval & Hu1 & Hrun).
    rewrite He in Hok.
    destruct (IH e1) as (e' & o & Hseg & Hb & Hv' & Hs & Hr);
      [rewrite Hs1; exact Ht|exact Hu1|exact Hok|].
    unfold segment in *. cbn [feed]. rewrite He. cbn [rbind].
    apply rbind_inv in Hseg. destruct Hseg as ([e2 o2] & Hf & Hseg). rewrite Hf. cbn [rbind].
    apply rbind_inv in Hseg. destruct Hseg as ([e3 o3] & Hfl & Hseg). rewrite Hfl. cbn [rbind].
    injection Hseg as <- <-. exists e3, ((o1 ++ o2) ++ o3). split; [reflexivity|].
    rewrite <- app_assoc. split; [apply bytes_app; split; assumption|].
    split; [exact Hv'|]. split; [congruence|]. rewrite Hs1 in Hr.
    replace (i_values e ++ map (rawv (i_signed e)) (v :: t))
      with ((i_values e ++ [rawv (i_signed e) v]) ++ map (rawv (i_signed e)) t)
      by (rewrite <- app_assoc; reflexivity).
    rewrite Hval, <- app_assoc. apply Legal_app; assumption.
Qed.


(** Any stream every step of which is safe is a stream of the specification. *)
Lemma int_legal signed p vs : Forall (is_int signed) vs ->
  stream_ok (NewIntRLV2 signed p) vs = true ->
  exists e o, segment int_Encode int_Flush (NewIntRLV2 signed p) vs = Ok (e, o) /\ bytes o /\
    orc_ints (fun _ _ _ => True) signed o vs.
Proof.
  intros Hvs Hok. destruct (stream_legal vs (NewIntRLV2 signed p) Hvs (Forall_nil _) Hok) as (e & o & Hs & Hb & _ & _ & Hr).
  exists e, o. split; [exact Hs|]. split; [exact Hb|]. apply Legal_ints in Hr. cbn [NewIntRLV2 i_signed i_values app] in Hr.
  rewrite map_unzig_raw in Hr by exact Hvs. exact Hr.
Qed.
