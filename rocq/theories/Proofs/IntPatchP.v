(** Patched-base runs of Model/IntRle.v. *)
From Verif.Model Require Import Codec IntRle.
From Verif.Spec Require Import Bits Session IntSpec.
From Verif.Proofs Require Import Base CodecP SessionP BitsP IntRunsP.

(** ** Reconstruction of one value *)

(** The value denoted by offset [d] from [base]. *)
Definition offv (base d : Z) : Z := Zigzag (i64 (base + i64 d)).

Lemma offv_u64 base d : is_u64 (offv base d).
Proof. apply Zigzag_range, i64_range. Qed.
Lemma UnZigzag_offv base d : UnZigzag (offv base d) = i64 (base + d).
Proof. unfold offv. rewrite UnZigzag_Zigzag by apply i64_range. apply i64_add_r. Qed.
Lemma offv_back base v : is_u64 v -> offv base (u64 (UnZigzag v - base)) = v.
Proof.
  intros Hv. unfold offv. rewrite i64_u64, i64_add_r.
  replace (base + (UnZigzag v - base)) with (UnZigzag v) by lia.
  rewrite i64_id by (apply UnZigzag_range; exact Hv). apply Zigzag_UnZigzag. exact Hv.
Qed.

(** The arithmetic of applyPatch on one value. *)
Definition patchv (base w u patch : Z) : Z :=
  Zigzag (i64 (Z.lor (i64 (UnZigzag u - base)) (i64 (Z.shiftl patch w)) + base)).

Lemma patchv_zero base w u : is_u64 u -> 0 <= w -> patchv base w u 0 = u.
Proof.
  intros Hu Hw. unfold patchv. rewrite shiftl_mul by exact Hw. rewrite Z.mul_0_l.
  change (i64 0) with 0. rewrite Z.lor_0_r, i64_add_l.
  replace (UnZigzag u - base + base) with (UnZigzag u) by lia.
  rewrite i64_id by (apply UnZigzag_range; exact Hu). apply Zigzag_UnZigzag. exact Hu.
Qed.

Lemma i64_multiple a w : 0 <= w <= 64 -> exists b, i64 (a * 2 ^ w) = b * 2 ^ w.
Proof.
  intros Hw. assert (E : exists k, i64 (a * 2 ^ w) = a * 2 ^ w + k * W64).
  { unfold i64. pose proof (Z.div_mod (a * 2 ^ w) W64 ltac:(lia)).
    destruct (_ <? _); [exists (- (a * 2 ^ w / W64))|exists (- (a * 2 ^ w / W64) - 1)]; lia. }
  destruct E as (k & ->). exists (a + k * 2 ^ (64 - w)).
  rewrite Z.mul_add_distr_r, <- Z.mul_assoc, <- Z.pow_add_r by lia.
  replace (64 - w + w) with 64 by lia. reflexivity.
Qed.

Lemma patchv_high base w d : is_u64 d -> 0 <= w < 63 ->
  patchv base w (offv base (d mod 2 ^ w)) (d / 2 ^ w) = offv base d.
Proof.
  intros Hd Hw. unfold patchv. rewrite UnZigzag_offv, i64_sub_l.
  pose proof (pow2_pos w ltac:(lia)) as Hp.
  pose proof (Z.mod_pos_bound d (2 ^ w) Hp) as Hm.
  assert (Hlt : 2 ^ w <= 2 ^ 62) by (apply Z.pow_le_mono_r; lia).
  change (2 ^ 62) with 4611686018427387904 in Hlt.
  replace (base + d mod 2 ^ w - base) with (d mod 2 ^ w) by lia.
  rewrite (i64_id (d mod 2 ^ w)) by (unfold is_i64; lia).
  rewrite shiftl_mul by lia.
  destruct (i64_multiple (d / 2 ^ w) w ltac:(lia)) as (b & Hb).
  rewrite Hb, lor_add' by lia. rewrite <- Hb. unfold offv.
  f_equal. rewrite <- Z.add_assoc, i64_add_l, i64_add_r. f_equal.
  pose proof (Z.div_mod d (2 ^ w) ltac:(lia)). lia.
Qed.

(** ** Applying a patch list *)

Fixpoint applyAll (base w mark : Z) (gs ps : list Z) (uvs : list Z) : res (list Z) :=
  match gs, ps with
  | g :: gs', p :: ps' =>
      let! uvs' := applyPatch base w uvs (mark + g) p in
      applyAll base w (mark + g) gs' ps' uvs'
  | _, _ => Ok uvs
  end.

Lemma set_nth_split (l : list Z) : forall n u v, nth_error l n = Some u ->
  set_nth l n v = firstn n l ++ v :: skipn (S n) l.
Proof.
  induction l as [|x t IH]; intros n u v H; destruct n as [|n]; try discriminate.
  - reflexivity.
  - cbn [set_nth firstn skipn app]. f_equal. eapply IH. exact H.
Qed.
Lemma set_nth_same (l : list Z) : forall n u, nth_error l n = Some u -> set_nth l n u = l.
Proof.
  induction l as [|x t IH]; intros n u H; destruct n as [|n]; try discriminate.
  - injection H as ->. reflexivity.
  - cbn [set_nth]. f_equal. apply IH. exact H.
Qed.
Lemma applyPatch_spec base w uvs mark p :
  applyPatch base w uvs mark p =
  match nth_error uvs (Z.to_nat mark) with
  | None => Panic
  | Some u => Ok (set_nth uvs (Z.to_nat mark) (patchv base w u p))
  end.
Proof. unfold applyPatch, patchv. reflexivity. Qed.

Lemma applyPatch_zero base w uvs mark : Forall is_u64 uvs -> 0 <= w ->
  0 <= mark < zlen uvs -> applyPatch base w uvs mark 0 = Ok uvs.
Proof.
  intros Hu Hw Hm. rewrite applyPatch_spec. unfold zlen in Hm.
  destruct (nth_error uvs (Z.to_nat mark)) as [u|] eqn:E.
  - assert (Hin : is_u64 u) by (rewrite Forall_forall in Hu; apply Hu; eapply nth_error_In; exact E).
    rewrite patchv_zero by assumption. f_equal. eapply set_nth_same. exact E.
  - apply nth_error_None in E. lia.
Qed.

Lemma fillers_spec fuel : forall i prev g prev', fillers fuel i prev = (g, prev') ->
  0 <= prev <= i -> i - prev <= Z.of_nat fuel ->
  prev <= prev' <= i /\ i - prev' <= 255 /\ Forall (fun x => x = 255) g /\
  forall base w uvs gs ps, Forall is_u64 uvs -> 0 <= w -> i < zlen uvs ->
    applyAll base w prev (g ++ gs) (map (fun _ => 0) g ++ ps) uvs
    = applyAll base w prev' gs ps uvs.
Proof.
  induction fuel as [|f IH]; intros i prev g prev' H Hp Hf; cbn [fillers] in H.
  - injection H as <- <-. split; [lia|]. split; [lia|]. split; [constructor|]. reflexivity.
  - destruct (Z.ltb_spec 255 (i - prev)).
    + destruct (fillers f i (prev + 255)) as [g1 p1] eqn:E. injection H as <- <-.
      apply IH in E; [|lia|lia]. destruct E as (H1 & H2 & H3 & H4).
      split; [lia|]. split; [lia|]. split; [constructor; [reflexivity|exact H3]|].
      intros base w uvs gs ps Hu Hw Hi. cbn [app map applyAll].
      rewrite applyPatch_zero; [|exact Hu|exact Hw|lia]. cbn [rbind]. apply H4; assumption.
    + injection H as <- <-. split; [lia|]. split; [lia|]. split; [constructor|]. reflexivity.
Qed.

Lemma split_length w ds : forall i prev vs gs ps,
  splitPatches w ds i prev = (vs, gs, ps) -> length vs = length ds /\ length gs = length ps.
Proof.
  induction ds as [|d t IH]; intros i prev vs gs ps H; cbn [splitPatches] in H.
  - injection H as <- <- <-. split; reflexivity.
  - destruct (w <? getBitsWidth d).
    + destruct (fillers (Z.to_nat i) i prev) as [g p'].
      destruct (splitPatches w t (i + 1) i) as [[vs1 gs1] ps1] eqn:E. injection H as <- <- <-.
      apply IH in E. destruct E as [E1 E2].
      split; [cbn [length]; lia|]. rewrite !app_length, map_length. cbn [length]. lia.
    + destruct (splitPatches w t (i + 1) prev) as [[vs1 gs1] ps1] eqn:E. injection H as <- <- <-.
      apply IH in E. cbn [length]. lia.
Qed.

Lemma split_spec w : 0 <= w < 63 -> forall ds i prev vs gs ps,
  Forall is_u64 ds -> splitPatches w ds i prev = (vs, gs, ps) -> 0 <= prev <= i ->
  Forall (fun v => 0 <= v < 2 ^ w) vs /\ Forall (fun g => 0 <= g <= 255) gs /\ Forall is_u64 ps /\
  (maxWidth getBitsWidth ds <= w \/ exists p, In p ps /\ p <> 0) /\
  forall base pre, length pre = Z.to_nat i -> Forall is_u64 pre ->
    applyAll base w prev gs ps (pre ++ map (offv base) vs) = Ok (pre ++ map (offv base) ds).
Proof.
  intros Hw. pose proof (pow2_pos w ltac:(lia)) as Hpw.
  induction ds as [|d t IH]; intros i prev vs gs ps Hds H Hp; cbn [splitPatches] in H.
  - injection H as <- <- <-. repeat split; try constructor; try (cbn; lia). 
  - inversion Hds as [|? ? Hd Ht]; subst.
    destruct (Z.ltb_spec w (getBitsWidth d)) as [Hb|Hb].
    + destruct (fillers (Z.to_nat i) i prev) as [g p'] eqn:Ef.
      destruct (splitPatches w t (i + 1) i) as [[vs1 gs1] ps1] eqn:E. injection H as <- <- <-.
      apply fillers_spec in Ef; [|exact Hp|lia]. destruct Ef as (Hf1 & Hf2 & Hf3 & Hf4).
      pose proof (split_length _ _ _ _ _ _ _ E) as [Hlen _].
      apply IH in E; [|exact Ht|lia]. destruct E as (H1 & H2 & H3 & H4 & H5).
      rewrite mask_mod by lia. rewrite shiftr_div by lia.
      assert (Hdm : 0 <= d / 2 ^ w <= d).
      { unfold is_u64 in Hd. split; [apply Z.div_pos; lia|].
        apply Z.div_le_upper_bound; [lia|]. nia. }
      split; [constructor; [apply Z.mod_pos_bound; lia|exact H1]|].
      split. { apply Forall_app. split; [eapply Forall_impl; [|exact Hf3]; cbv beta; lia|].
               constructor; [lia|exact H2]. }
      split. { apply Forall_app. split.
               - rewrite Forall_map. eapply Forall_impl; [|exact Hf3]. unfold is_u64. lia.
               - constructor; [unfold is_u64 in *; lia|exact H3]. }
      split. { right. exists (d / 2 ^ w). split; [apply in_or_app; right; left; reflexivity|].
               intros E. apply Z.div_small_iff in E; [|lia].
               assert (Hdw : d < 2 ^ w) by (unfold is_u64 in Hd; lia).
               apply getBitsWidth_le in Hdw; [lia|exact Hd|lia]. }
      intros base pre Hpre Hupre.
      assert (Hu : Forall is_u64 (pre ++ map (offv base) (d mod 2 ^ w :: vs1))).
      { apply Forall_app. split; [exact Hupre|]. apply Forall_map. apply Forall_forall.
        intros; apply offv_u64. }
      rewrite Hf4; [|exact Hu|lia|unfold zlen; rewrite app_length; cbn [map length]; lia].
      cbn [applyAll]. rewrite applyPatch_spec. replace (p' + (i - p')) with i by lia.
      cbn [map]. rewrite <- Hpre. rewrite nth_error_app2, Nat.sub_diag by lia. cbn [nth_error].
      rewrite patchv_high by (assumption || lia). cbn [rbind].
      erewrite set_nth_split by (rewrite nth_error_app2, Nat.sub_diag by lia; reflexivity).
      rewrite firstn_app_exact.
      replace (S (length pre)) with (length (pre ++ [offv base (d mod 2 ^ w)]))
        by (rewrite app_length; cbn [length]; lia).
      change (pre ++ offv base (d mod 2 ^ w) :: map (offv base) vs1)
        with (pre ++ [offv base (d mod 2 ^ w)] ++ map (offv base) vs1).
      rewrite (app_assoc pre), skipn_app_exact.
      change (pre ++ offv base d :: map (offv base) vs1)
        with (pre ++ [offv base d] ++ map (offv base) vs1).
      rewrite (app_assoc pre).
      rewrite H5; [rewrite <- app_assoc; reflexivity| |].
      * rewrite app_length. cbn [length]. lia.
      * apply Forall_app. split; [exact Hupre|]. constructor; [apply offv_u64|constructor].
    + destruct (splitPatches w t (i + 1) prev) as [[vs1 gs1] ps1] eqn:E. injection H as <- <- <-.
      apply IH in E; [|exact Ht|lia]. destruct E as (H1 & H2 & H3 & H4 & H5).
      split. { constructor; [|exact H1]. split; [apply Hd|].
               apply getBitsWidth_le; [exact Hd|lia|exact Hb]. }
      split; [exact H2|]. split; [exact H3|]. split.
      { destruct H4 as [H4|H4]; [left|right; exact H4].
        destruct (maxWidth_in getBitsWidth (d :: t)) as [Em|(x & Hx & Em)]; [lia|].
        rewrite Em. destruct Hx as [<-|Hx]; [exact Hb|].
        pose proof (maxWidth_ge getBitsWidth t x Hx). lia. }
      intros base pre Hpre Hupre. cbn [map].
      specialize (H5 base (pre ++ [offv base d])). rewrite <- !app_assoc in H5. cbn [app] in H5.
      apply H5.
      * rewrite app_length. cbn [length]. lia.
      * apply Forall_app. split; [exact Hupre|]. constructor; [apply offv_u64|constructor].
Qed.

(** ** Reading the patch list *)

Lemma zip_entry pgw pw g p : 0 <= pgw -> 0 <= pw -> pgw + pw < 64 -> 0 <= g < 2 ^ pgw -> 0 <= p < 2 ^ pw ->
  Z.lor (u64 (Z.shiftl g pw)) p = g * 2 ^ pw + p /\ 0 <= g * 2 ^ pw + p < 2 ^ (pgw + pw).
Proof.
  intros H1 H2 H3 Hg Hp. rewrite shiftl_mul by lia.
  pose proof (pow2_pos pw H2) as Hpp. pose proof (pow2_pos pgw H1) as Hgp.
  assert (E : 2 ^ (pgw + pw) = 2 ^ pgw * 2 ^ pw) by (apply Z.pow_add_r; lia).
  assert (Hb : 2 ^ (pgw + pw) <= 2 ^ 63) by (apply Z.pow_le_mono_r; lia).
  change (2 ^ 63) with W63 in Hb.
  rewrite u64_id by (unfold is_u64; nia). rewrite lor_add by lia. split; [reflexivity|]. nia.
Qed.

Lemma zip_range pgw pw : 0 <= pgw -> 0 <= pw -> pgw + pw < 64 -> forall gs ps,
  Forall (fun g => 0 <= g < 2 ^ pgw) gs -> Forall (fun p => 0 <= p < 2 ^ pw) ps ->
  Forall (fun v => 0 <= v < 2 ^ (pgw + pw)) (zipPatch pw gs ps).
Proof.
  intros H1 H2 H3. induction gs as [|g gs IH]; intros [|p ps] Hg Hp; cbn [zipPatch]; try constructor.
  - inversion Hg; inversion Hp; subst. destruct (zip_entry pgw pw g p) as [-> H]; auto.
  - inversion Hg; inversion Hp; subst. apply IH; assumption.
Qed.
Lemma zip_length pw gs : forall ps, length gs = length ps -> length (zipPatch pw gs ps) = length ps.
Proof. induction gs as [|g gs IH]; intros [|p ps] H; cbn in *; try lia. f_equal. apply IH. lia. Qed.

Lemma readPatches_spec pgw pw base w : 0 <= pgw -> 0 <= pw -> pgw + pw < 64 ->
  forall gs ps mark uvs out st i R,
  length gs = length ps ->
  Forall (fun g => 0 <= g < 2 ^ pgw) gs -> Forall (fun p => 0 <= p < 2 ^ pw) ps ->
  applyAll base w mark gs ps uvs = Ok out ->
  rst st i (packedBits (pgw + pw) (zipPatch pw gs ps) ++ R) ->
  fits (- Z.of_nat (length (packedBits (pgw + pw) (zipPatch pw gs ps) ++ R))) (pgw + pw) (length ps) = true ->
  exists st' i', run (readPatches st (length ps) pgw pw base w mark uvs) i = Ok (out, i') /\ rst st' i' R.
Proof.
  intros H1 H2 H3. induction gs as [|g gs IH]; intros ps mark uvs out st i R Hl Hg Hp Ha Hst Hf;
    destruct ps as [|p ps]; cbn [length] in Hl; try lia.
  - cbn [applyAll] in Ha. injection Ha as <-. exists st, i. split; [reflexivity|exact Hst].
  - inversion Hg as [|? ? Hg0 Hgs]; subst. inversion Hp as [|? ? Hp0 Hps]; subst.
    cbn [applyAll] in Ha. apply rbind_inv in Ha. destruct Ha as (uvs' & Ha1 & Ha2).
    destruct (zip_entry pgw pw g p H1 H2 H3 Hg0 Hp0) as [Hz Hr].
    cbn [zipPatch] in Hst, Hf. rewrite Hz in Hst, Hf.
    cbn [length readPatches]. cbn [length fits] in Hf. apply andb_prop in Hf. destruct Hf as [Hf1 Hf2].
    unfold packedBits in *. cbn [flat_map] in *. rewrite <- app_assoc in *.
    rewrite app_length, length_bitsN in *.
    destruct (readBits_spec st i (pgw + pw) (g * 2 ^ pw + p)
       (flat_map (bitsN (Z.to_nat (pgw + pw))) (zipPatch pw gs ps) ++ R) ltac:(lia) Hr)
      as (st1 & i1 & Hrd & Hst1); [exact Hst|lia|].
    rewrite run_bind, Hrd. cbn [rbind]. cbv zeta. rewrite shiftr_div, mask_mod by lia.
    pose proof (pow2_pos pw H2) as Hpp.
    replace ((g * 2 ^ pw + p) / 2 ^ pw) with g
      by (rewrite Z.add_comm, Z.div_add, Z.div_small by lia; lia).
    replace ((g * 2 ^ pw + p) mod 2 ^ pw) with p
      by (rewrite Z.add_comm, Z.mod_add, Z.mod_small by lia; lia).
    rewrite run_bind, run_plift, Ha1. cbn [rbind].
    apply (IH ps (mark + g) uvs' out st1 i1 R); try assumption; [lia|].
    rewrite <- Hf2. apply fits_mod. f_equal. lia.
Qed.

Lemma read_packedPatches pgw pw base w gs ps uvs out o pad :
  0 <= pgw -> 0 <= pw -> pgw + pw < 64 -> length gs = length ps ->
  Forall (fun g => 0 <= g < 2 ^ pgw) gs -> Forall (fun p => 0 <= p < 2 ^ pw) ps ->
  applyAll base w 0 gs ps uvs = Ok out ->
  fits 0 (pgw + pw) (length ps) = true -> bytes o -> (length pad < 8)%nat ->
  bitsOfBytes o = packedBits (pgw + pw) (zipPatch pw gs ps) ++ pad ->
  run (readPatches (0, 0) (length ps) pgw pw base w 0 uvs) o = Ok (out, []).
Proof.
  intros H1 H2 H3 Hl Hg Hp Ha Hf Hb Hpad Hbits.
  pose proof (rst_start _ Hb) as Hst. rewrite Hbits in Hst.
  destruct (readPatches_spec pgw pw base w H1 H2 H3 gs ps 0 uvs out _ _ _ Hl Hg Hp Ha Hst)
    as (st & i & Hr & Hst').
  { rewrite <- Hf. apply fits_mod.
    apply (f_equal (@length bool)) in Hbits. rewrite length_bitsOfBytes in Hbits.
    rewrite <- Hbits. zlia. }
  rewrite <- (app_nil_r pad) in Hst'. change (@nil bool) with (bitsOfBytes []) in Hst'.
  apply rst_end in Hst'; [|constructor|exact Hpad]. subst i. exact Hr.
Qed.

(** ** The base *)

Lemma read_be_value bs : forall v t,
  run (read_be (length bs) v) (bs ++ t) = Ok (be_value bs v, t).
Proof.
  induction bs as [|b bs IH]; intros v t; [reflexivity|].
  cbn [length read_be app be_value]. rewrite run_byte. apply IH.
Qed.
Lemma be_value_spec n x acc : 0 <= acc -> acc mod 2 ^ (8 * Z.of_nat n) = 0 -> 0 <= x ->
  acc + x mod 2 ^ (8 * Z.of_nat n) < W64 ->
  be_value (be_bytes n x) acc = acc + x mod 2 ^ (8 * Z.of_nat n).
Proof.
  intros Ha Hm Hx Hb. pose proof (read_be_spec n x acc [] Ha Hm Hx Hb) as H.
  pose proof (read_be_value (be_bytes n x) acc []) as H'. rewrite length_be in H'. congruence.
Qed.

(** Sign and magnitude in [n] bytes. *)
Lemma base_bytes n m (neg : bool) : 1 <= Z.of_nat n <= 8 -> 0 <= m < 2 ^ (8 * Z.of_nat n - 1) ->
  let b' := if neg then Z.lor m (u64 (Z.shiftl 1 ((Z.of_nat n - 1) * 8 + 7))) else m in
  let bb := be_bytes n b' in
  length bb = n /\ (Z.shiftr (hd 0 bb) 7 =? 1) = neg /\
  be_value (Z.land (hd 0 bb) 127 :: tl bb) 0 = m.
Proof.
  intros Hn Hm b' bb.
  destruct n as [|k]; [lia|].
  set (P := 2 ^ (8 * Z.of_nat k)).
  assert (HP : 0 < P) by (apply pow2_pos; lia).
  assert (HPS : 2 ^ (8 * Z.of_nat (S k) - 1) = 128 * P).
  { unfold P. replace (8 * Z.of_nat (S k) - 1) with (7 + 8 * Z.of_nat k) by lia.
    rewrite Z.pow_add_r by lia. reflexivity. }
  assert (HP64 : 256 * P <= W64).
  { unfold P. change 256 with (2 ^ 8). rewrite <- Z.pow_add_r by lia.
    change W64 with (2 ^ 64). apply Z.pow_le_mono_r; lia. }
  rewrite HPS in Hm.
  assert (Hb' : b' = (if neg then 1 else 0) * (128 * P) + m).
  { unfold b'. destruct neg; [|lia]. rewrite shiftl_mul by lia.
    replace ((Z.of_nat (S k) - 1) * 8 + 7) with (8 * Z.of_nat (S k) - 1) by lia. rewrite HPS.
    rewrite u64_id by (unfold is_u64; lia). rewrite <- HPS. rewrite lor_add' by (rewrite ?HPS; lia).
    reflexivity. }
  split; [apply length_be|].
  unfold bb. cbn [be_bytes hd tl]. rewrite be_byte. fold P. rewrite Hb'.
  set (s := if neg then 1 else 0). assert (Hs : 0 <= s <= 1) by (unfold s; destruct neg; lia).
  assert (Hq : (s * (128 * P) + m) / P = s * 128 + m / P).
  { replace (s * (128 * P) + m) with (m + s * 128 * P) by lia. rewrite Z.div_add by lia. lia. }
  assert (Hmp : 0 <= m / P < 128).
  { split; [apply Z.div_pos; lia|apply Z.div_lt_upper_bound; lia]. }
  rewrite Hq, (Z.mod_small (s * 128 + m / P)) by lia.
  rewrite shiftr_div, land_127 by lia. change (2 ^ 7) with 128.
  split. { replace ((s * 128 + m / P) / 128) with s by zlia. unfold s. destruct neg; reflexivity. }
  replace ((s * 128 + m / P) mod 128) with (m / P) by zlia.
  assert (Htl : be_bytes k (s * (128 * P) + m) = be_bytes k m).
  { apply bitsOfBytes_inj; try apply bytes_be. rewrite !bits_be.
    rewrite <- (bitsN_mod (8 * k) (s * (128 * P) + m) (8 * k)), <- (bitsN_mod (8 * k) m (8 * k)) by lia.
    replace (Z.of_nat (8 * k)) with (8 * Z.of_nat k) by lia. fold P.
    replace (s * (128 * P) + m) with (m + s * 128 * P) by lia. rewrite Z.mod_add by lia. reflexivity. }
  rewrite Htl.
  assert (Ebe : m / P :: be_bytes k m = be_bytes (S k) m).
  { cbn [be_bytes]. rewrite be_byte. fold P. rewrite (Z.mod_small (m / P)) by lia. reflexivity. }
  assert (Hmm : m mod 2 ^ (8 * Z.of_nat (S k)) = m).
  { apply Z.mod_small. replace (8 * Z.of_nat (S k)) with (8 + 8 * Z.of_nat k) by lia.
    rewrite Z.pow_add_r by lia. fold P. change (2 ^ 8) with 256. lia. }
  rewrite Ebe, be_value_spec; [rewrite Hmm; lia|lia|apply Zmod_0_l|lia|rewrite Hmm; lia].
Qed.

(** ** The whole run *)

Lemma minimum_spec l : forall v, minimum v l <= v /\ Forall (fun x => minimum v l <= x) l /\
  (minimum v l = v \/ In (minimum v l) l).
Proof.
  unfold minimum. induction l as [|x t IH]; intros v; cbn [fold_left].
  - repeat split; [lia|constructor|left; reflexivity].
  - destruct (Z.ltb_spec x v).
    + destruct (IH x) as (H1 & H2 & H3). split; [lia|]. split; [constructor; [lia|exact H2]|].
      right. destruct H3 as [H3|H3]; [left; symmetry; exact H3|right; exact H3].
    + destruct (IH v) as (H1 & H2 & H3). split; [exact H1|]. split; [constructor; [lia|exact H2]|].
      destruct H3 as [H3|H3]; [left; exact H3|right; right; exact H3].
Qed.
Lemma minimum_i64 v l : is_i64 v -> Forall is_i64 l -> is_i64 (minimum v l).
Proof.
  intros Hv Hl. destruct (minimum_spec l v) as (_ & _ & [->|H]); [exact Hv|].
  rewrite Forall_forall in Hl. apply Hl. exact H.
Qed.

Lemma maxWidth_64 l : Forall is_u64 l -> maxWidth getBitsWidth l <= 64.
Proof.
  intros H. destruct (maxWidth_in getBitsWidth l) as [->|(x & Hx & ->)]; [lia|].
  rewrite Forall_forall in H. apply (getBitsWidth_spec x (H x Hx)).
Qed.

Lemma tryPatch_spec values p : Forall is_u64 values -> tryPatch values = Ok (Some p) ->
  exists ds, map (offv (p_base p)) ds = values /\ Forall is_u64 ds /\ is_i64 (p_base p) /\
    splitPatches (p_width p) ds 0 0 = (p_values p, p_gaps p, p_patches p) /\
    zlen (p_patches p) <= 31 /\ p_width p < maxWidth getBitsWidth ds /\ (2 <= length values)%nat.
Proof.
  intros Hu H. destruct values as [|v0 [|v1 rest]]; [discriminate|discriminate|].
  cbn [tryPatch] in H.
  set (values := v0 :: v1 :: rest) in *.
  set (base := minimum (UnZigzag v0) (map UnZigzag (v1 :: rest))) in *.
  set (ds := map (fun v => u64 (UnZigzag v - base)) values) in *.
  change (map UnZigzag (v1 :: rest)) with (UnZigzag v1 :: map UnZigzag rest) in base.
  set (w := find_w 65 _ _ 0 0) in *.
  destruct (Z.ltb_spec w (maxWidth getBitsWidth ds)) as [Hlt|]; [|discriminate].
  destruct (splitPatches w ds 0 0) as [[vs gs] ps] eqn:E.
  destruct (Z.ltb_spec 31 (zlen ps)) as [|Hps]; [discriminate|]. injection H as <-.
  cbn [p_base p_width p_values p_gaps p_patches] in *.
  exists ds. split.
  { unfold ds. rewrite map_map. rewrite <- (map_id values) at 2. apply map_ext_in.
    intros v Hv. apply offv_back. rewrite Forall_forall in Hu. apply Hu. exact Hv. }
  split. { unfold ds. apply Forall_map. apply Forall_forall. intros; apply u64_range. }
  split. { apply minimum_i64.
           - apply UnZigzag_range. inversion Hu; assumption.
           - inversion Hu as [|? ? _ Hr]; subst. change (UnZigzag v1 :: map UnZigzag rest) with (map UnZigzag (v1 :: rest)).
             apply Forall_map. eapply Forall_impl; [|exact Hr]. intros a Ha. apply UnZigzag_range. exact Ha. }
  split; [exact E|]. split; [exact Hps|]. split; [exact Hlt|]. cbn [length values]. unfold values. cbn. lia.
Qed.

Lemma pack_inv w vs o : 0 <= w -> Forall (fun v => 0 <= v < 2 ^ w) vs -> packBits vs w = Ok o ->
  exists pad, fits 0 w (length vs) = true /\ bytes o /\ (length pad < 8)%nat /\
    bitsOfBytes o = packedBits w vs ++ pad.
Proof.
  intros Hw Hvs Ho. destruct (packBits_spec w vs Hw Hvs) as [He Hok].
  destruct (fits 0 w (length vs)) eqn:Ef.
  - destruct (Hok eq_refl) as (o' & pad & Ho' & Hb & Hp & Hbits).
    assert (o' = o) by congruence. subst o'. eauto.
  - specialize (He eq_refl). congruence.
Qed.

Lemma h23 a b : 0 <= a < 8 -> 0 <= b < 32 ->
  let h := Z.lor (u8 (Z.shiftl a 5)) (Z.land b 31) in
  is_u8 h /\ Z.land (Z.shiftr h 5) 7 = a /\ Z.land h 31 = b.
Proof.
  intros Ha Hb h.
  assert (Hh : h = a * 2 ^ 5 + b).
  { unfold h. rewrite shiftl_mul by lia. change (2 ^ 5) with 32.
    rewrite u8_id by (unfold is_u8; lia). rewrite IntRunsP.land_31, (Z.mod_small b) by lia.
    change 32 with (2 ^ 5). apply lor_add; [lia|]. cbn. lia. }
  rewrite Hh. change (2 ^ 5) with 32. split; [unfold is_u8; lia|].
  rewrite shiftr_div, land_7, IntRunsP.land_31 by lia. change (2 ^ 5) with 32. split; zlia.
Qed.

Lemma getBitsWidth_max_fits l : Forall is_u64 l ->
  Forall (fun v => 0 <= v < 2 ^ maxWidth getBitsWidth l) l.
Proof.
  intros H. rewrite Forall_forall in *. intros v Hv. apply value_fits; [apply H; exact Hv|].
  apply maxWidth_ge. exact Hv.
Qed.

Lemma Ok_inj {A} (a b : A) : Ok a = Ok b -> a = b.
Proof. intros H. injection H. auto. Qed.

Lemma writePatch_spec values p o :
  Forall is_u64 values -> (length values <= 512)%nat ->
  tryPatch values = Ok (Some p) -> writePatch p = Ok o ->
  let pw := maxWidth getBitsWidth (p_patches p) in
  let pgw := maxWidth getBitsWidth (p_gaps p) in
  1 <= p_width p -> 1 <= pgw -> pgw + pw < 64 -> - W63 < p_base p ->
  length (p_values p) = length values /\ bytes o /\ o <> [] /\
  run (decode true) o = Ok (values, []).
Proof.
  intros Hu Hlen Htry Hwr pw pgw Hw1 Hpgw Hsum Hbase.
  unfold writePatch in Hwr. apply rbind_inv in Hwr. destruct Hwr as (ew & Hew & Hwr).
  destruct (widthEncoding_range _ _ Hew) as [Her Hwr64].
  cbv zeta in Hwr. fold pw pgw in Hwr.
  apply rbind_inv in Hwr. destruct Hwr as (epw & Hepw & Hwr).
  destruct (widthEncoding_range _ _ Hepw) as [Hepr Hpwr].
  apply rbind_inv in Hwr. destruct Hwr as (ovs & Hovs & Hwr).
  destruct (Z.ltb_spec 64 (pgw + pw)); [discriminate|].
  apply rbind_inv in Hwr. destruct Hwr as (ops & Hops & Hwr). apply Ok_inj in Hwr. subst o.
  (* widths: w < 57 *)
  assert (Hw56 : p_width p <= 56 \/ p_width p = 64).
  { unfold widthEncoding in Hew.
    repeat match type of Hew with context [if ?c then _ else _] => destruct c eqn:? end;
      try discriminate; lia. }
  destruct (tryPatch_spec values p Hu Htry)
    as (ds & Hds & Hdu & Hbi & Hsplit & Hps31 & Hgt & Hl2).
  pose proof (maxWidth_64 ds Hdu) as Hmax64.
  destruct (split_length _ _ _ _ _ _ _ Hsplit) as [Hlvs Hlg].
  destruct (split_spec (p_width p) ltac:(lia) ds 0 0 _ _ _ Hdu Hsplit ltac:(lia))
    as (Hvs & Hgs & Hpsu & Hnz & Happ).
  assert (Hlen' : length (p_values p) = length values).
  { rewrite Hlvs, <- Hds, map_length. reflexivity. }
  specialize (Happ (p_base p) [] eq_refl (Forall_nil _)). cbn [app] in Happ. rewrite Hds in Happ.
  destruct Hnz as [Hnz|Hnz]; [lia|].
  assert (Hpw1 : 1 <= pw).
  { destruct Hnz as (x & Hx & Hx0). rewrite Forall_forall in Hpsu. specialize (Hpsu x Hx).
    pose proof (maxWidth_ge getBitsWidth _ x Hx) as Hge. fold pw in Hge.
    destruct (getBitsWidth_spec x Hpsu) as (Hb1 & _ & _ & Hb4). 
    destruct (Z.eq_dec (getBitsWidth x) 0) as [E|]; [apply Hb4 in E; congruence|lia]. }
  assert (Hgu : Forall is_u64 (p_gaps p)) by (eapply Forall_impl; [|exact Hgs]; unfold is_u64; lia).
  pose proof (getBitsWidth_max_fits _ Hgu) as Hgfit. fold pgw in Hgfit.
  pose proof (getBitsWidth_max_fits _ Hpsu) as Hpfit. fold pw in Hpfit.
  assert (Hpgw8 : pgw <= 8).
  { unfold pgw. destruct (maxWidth_in getBitsWidth (p_gaps p)) as [->|(x & Hx & ->)]; [lia|].
    rewrite Forall_forall in Hgs, Hgu. specialize (Hgs x Hx). specialize (Hgu x Hx).
    apply getBitsWidth_le; [exact Hgu|lia|]. change (2 ^ 8) with 256. lia. }
  destruct (pack_inv (p_width p) _ _ ltac:(lia) Hvs Hovs) as (pad1 & Hf1 & Hb1 & Hp1 & Hbits1).
  pose proof (zip_range pgw pw ltac:(lia) ltac:(lia) Hsum _ _ Hgfit Hpfit) as Hzip.
  destruct (pack_inv (pgw + pw) _ _ ltac:(lia) Hzip Hops) as (pad2 & Hf2 & Hb2 & Hp2 & Hbits2).
  rewrite zip_length in Hf2 by exact Hlg.
  (* base *)
  set (m := if p_base p <? 0 then u64 (i64 (- p_base p)) else u64 (p_base p)) in *.
  unfold is_i64 in Hbi.
  assert (Hm : m = Z.abs (p_base p)).
  { unfold m. destruct (Z.ltb_spec (p_base p) 0).
    - rewrite i64_id by (unfold is_i64; lia). rewrite u64_id by (unfold is_u64; lia). lia.
    - rewrite u64_id by (unfold is_u64; lia). lia. }
  assert (Hmu : is_u64 m) by (rewrite Hm; unfold is_u64; lia).
  destruct (getBitsWidth_spec m Hmu) as (Hbw1 & Hbw2 & _ & _).
  assert (Hbw63 : getBitsWidth m <= 63).
  { apply getBitsWidth_le; [exact Hmu|lia|]. change (2 ^ 63) with W63. rewrite Hm. lia. }
  set (bw := (getBitsWidth m + 1 + 7) / 8) in *.
  assert (Hbwr : 1 <= bw <= 8 /\ getBitsWidth m + 1 <= 8 * bw) by (unfold bw; zlia).
  set (b' := if p_base p <? 0 then Z.lor m _ else m) in *.
  destruct (base_bytes (Z.to_nat bw) m (p_base p <? 0)) as (Hbb1 & Hbb2 & Hbb3).
  { lia. }
  { split; [apply Hmu|]. eapply Z.lt_le_trans; [exact Hbw2|]. apply Z.pow_le_mono_r; lia. }
  rewrite Z2Nat.id in Hbb1, Hbb2, Hbb3 by lia. fold b' in Hbb1, Hbb2, Hbb3.
  set (bb := be_bytes (Z.to_nat bw) b') in *.
  assert (Hbbb : bytes bb) by apply bytes_be.
  (* headers *)
  assert (Hzl : 1 <= zlen (p_values p) <= 512) by (unfold zlen; lia).
  set (l := zlen (p_values p) - 1) in *.
  set (h0 := Z.lor _ (u8 (Z.land (Z.shiftr l 8) 1))) in *. set (h1 := u8 (Z.land l 255)) in *.
  assert (E0 : h0 = 128 + 2 * ew + l / 256).
  { unfold h0. rewrite land_1, shiftr_div by lia. change (2 ^ 8) with 256.
    rewrite (u8_id ((l / 256) mod 2)) by (unfold is_u8; zlia).
    replace ((l / 256) mod 2) with (l / 256) by zlia.
    replace (u8 (Z.shiftl ew 1)) with (u8 (Z.shiftl (Z.land ew 31) 1))
      by (rewrite IntRunsP.land_31, Z.mod_small by lia; reflexivity).
    apply header_byte; [auto|lia|zlia]. }
  assert (E1 : h1 = l mod 256).
  { unfold h1. rewrite land_255. unfold u8. apply Z.mod_mod. lia. }
  destruct (h23 (bw - 1) epw ltac:(lia) Hepr) as (Hh2u & Hh2a & Hh2b).
  cbv zeta in Hh2u, Hh2a, Hh2b.
  set (h2 := Z.lor (u8 (Z.shiftl (bw - 1) 5)) (Z.land epw 31)) in *.
  assert (Hpll : 0 <= zlen (p_patches p) < 32) by (pose proof (zlen_nonneg (p_patches p)); lia).
  destruct (h23 (pgw - 1) (zlen (p_patches p)) ltac:(lia) Hpll) as (Hh3u & Hh3a & Hh3b).
  cbv zeta in Hh3u, Hh3a, Hh3b.
  set (h3 := Z.lor (u8 (Z.shiftl (Z.land (u8 (pgw - 1)) 7) 5)) _) in *.
  assert (E3 : h3 = Z.lor (u8 (Z.shiftl (pgw - 1) 5)) (Z.land (zlen (p_patches p)) 31)).
  { unfold h3. rewrite (u8_id (pgw - 1)) by (unfold is_u8; lia).
    rewrite land_7, (Z.mod_small (pgw - 1)) by lia.
    rewrite (u8_id (zlen (p_patches p))) by (unfold is_u8; lia). reflexivity. }
  rewrite <- E3 in Hh3u, Hh3a, Hh3b.
  clearbody h0 h1 h2 h3.
  split; [exact Hlen'|]. split.
  { constructor; [rewrite E0; unfold is_u8; zlia|]. constructor; [rewrite E1; unfold is_u8; zlia|].
    constructor; [exact Hh2u|]. constructor; [exact Hh3u|]. repeat (apply bytes_app; split); assumption. }
  split; [discriminate|].
  unfold decode. rewrite run_byte.
  assert (Hsub : Z.shiftr h0 6 = 2) by (rewrite E0, shiftr_div by lia; change (2 ^ 6) with 64; zlia).
  rewrite Hsub. cbn [Z.eqb Pos.eqb]. unfold readPatched.
  change (h1 :: h2 :: h3 :: bb ++ ovs ++ ops) with ([h1; h2; h3] ++ bb ++ ovs ++ ops).
  rewrite run_full by reflexivity. cbn [nth]. cbv zeta.
  assert (Hwd : Z.land (Z.shiftr h0 1) 31 = ew).
  { rewrite E0, shiftr_div, IntRunsP.land_31 by lia. change (2 ^ 1) with 2. zlia. }
  rewrite Hwd, run_bind, run_plift, (width_roundtrip _ _ Hew Hw1). cbn [rbind].
  rewrite Hh2b, run_bind, run_plift, (width_roundtrip _ _ Hepw Hpw1). cbn [rbind].
  rewrite Hh2a, Hh3a, Hh3b.
  replace (pgw - 1 + 1) with pgw by lia. replace (bw - 1 + 1) with bw by lia.
  destruct (Z.leb_spec 64 (pw + pgw)); [lia|].
  rewrite run_full by exact Hbb1. cbv zeta. rewrite Hbb2, Hbb3.
  assert (Hbase' : (if p_base p <? 0 then i64 (- i64 m) else i64 m) = p_base p).
  { rewrite Hm. rewrite (i64_id (Z.abs (p_base p))) by (unfold is_i64; lia).
    destruct (Z.ltb_spec (p_base p) 0).
    - replace (- Z.abs (p_base p)) with (p_base p) by lia. apply i64_id. unfold is_i64. lia.
    - lia. }
  rewrite Hbase'.
  assert (Hlen9 : Z.lor (Z.shiftl (Z.land h0 1) 8) h1 + 1 = zlen (p_values p)).
  { rewrite E0, E1, land_1, shiftl_mul by lia.
    replace ((128 + 2 * ew + l / 256) mod 2) with (l / 256) by zlia.
    rewrite (lor_add (l / 256) (l mod 256) 8) by (change (2 ^ 8) with 256; zlia).
    change (2 ^ 8) with 256. unfold l. zlia. }
  rewrite Hlen9. unfold zlen. rewrite !Nat2Z.id. rewrite run_bind.
  rewrite (read_packed (p_width p) (p_values p) ovs pad1 ops); auto; try lia.
  cbn [rbind].
  change (map (fun d => Zigzag (i64 (p_base p + i64 d))) (p_values p))
    with (map (offv (p_base p)) (p_values p)).
  eapply read_packedPatches; try eassumption; lia.
Qed.
