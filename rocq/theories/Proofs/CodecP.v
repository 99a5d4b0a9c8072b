(** Lemmas about Model/Codec.v. *)
From Verif.Model Require Import Codec.
From Verif.Proofs Require Import Base.

(** ** Zigzag *)

Lemma lxor_ones x : 0 <= x < W64 -> Z.lxor x (W64 - 1) = W64 - 1 - x.
Proof.
  intros H.
  assert (Hl : Z.ldiff x (W64 - 1) = 0).
  { change (W64 - 1) with (Z.ones 64). apply Z.ldiff_ones_r_low; [lia|].
    destruct (Z.eq_dec x 0) as [->|]; [cbn; lia|].
    apply Z.log2_lt_pow2; lia. }
  rewrite (Z.sub_nocarry_ldiff (W64 - 1) x) by exact Hl.
  apply Z.bits_inj'. intros i Hi. rewrite Z.lxor_spec, Z.ldiff_spec.
  assert (Hb : Z.testbit (Z.ldiff x (W64 - 1)) i = false) by (rewrite Hl; apply Z.bits_0).
  rewrite Z.ldiff_spec in Hb.
  destruct (Z.testbit x i), (Z.testbit (W64 - 1) i); cbn in *; congruence.
Qed.

Lemma Zigzag_spec x : is_i64 x -> Zigzag x = if x <? 0 then - 2 * x - 1 else 2 * x.
Proof.
  unfold is_i64. intros H. unfold Zigzag.
  rewrite u64_i64, shiftl_mul, shiftr_div by lia.
  change (2 ^ 1) with 2. change (2 ^ 63) with W63.
  destruct (Z.ltb_spec x 0) as [Hn|Hp].
  - replace (x / W63) with (-1) by zlia.
    change (u64 (-1)) with (W64 - 1). rewrite lxor_ones by apply u64_range.
    unfold u64. zlia.
  - replace (x / W63) with 0 by zlia.
    change (u64 0) with 0. rewrite Z.lxor_0_r, u64_id by (unfold is_u64; lia). lia.
Qed.

Lemma UnZigzag_spec u : is_u64 u ->
  UnZigzag u = if Z.even u then u / 2 else - (u / 2) - 1.
Proof.
  unfold is_u64. intros H. unfold UnZigzag.
  rewrite land_1, shiftr_div by lia. change (2 ^ 1) with 2.
  rewrite (i64_id (u / 2)) by (unfold is_i64; zlia).
  rewrite (i64_id (u mod 2)) by (unfold is_i64; zlia).
  rewrite Zeven_mod. destruct (Z.eqb_spec (u mod 2) 0) as [He|He].
  - unfold Zeq_bool. rewrite He. cbn [Z.compare]. rewrite Z.lxor_0_r. reflexivity.
  - replace (u mod 2) with 1 by zlia. cbn [Z.opp].
    unfold Zeq_bool. cbn [Z.compare].
    rewrite Z.lxor_m1_r. unfold Z.lnot. lia.
Qed.

Lemma Zigzag_range x : is_i64 x -> is_u64 (Zigzag x).
Proof.
  intros H. rewrite Zigzag_spec by exact H. unfold is_i64, is_u64 in *.
  destruct (Z.ltb_spec x 0); lia.
Qed.
Lemma UnZigzag_range u : is_u64 u -> is_i64 (UnZigzag u).
Proof.
  intros H. rewrite UnZigzag_spec by exact H. unfold is_i64, is_u64 in *.
  destruct (Z.even u); zlia.
Qed.
Lemma Zeven_dbl u : Z.even u = true <-> u mod 2 = 0.
Proof. rewrite Zeven_mod. unfold Zeq_bool. split; intros H.
  - destruct (Z.compare_spec (u mod 2) 0); congruence.
  - rewrite H. reflexivity.
Qed.
Lemma UnZigzag_Zigzag x : is_i64 x -> UnZigzag (Zigzag x) = x.
Proof.
  intros H. pose proof (Zigzag_range x H) as Hr.
  rewrite UnZigzag_spec by exact Hr. rewrite Zigzag_spec by exact H.
  destruct (Z.ltb_spec x 0).
  - destruct (Z.even (-2 * x - 1)) eqn:E.
    + apply Zeven_dbl in E. zlia.
    + zlia.
  - destruct (Z.even (2 * x)) eqn:E.
    + zlia.
    + assert (Z.even (2 * x) = true) by (apply Zeven_dbl; zlia). congruence.
Qed.
Lemma Zigzag_UnZigzag u : is_u64 u -> Zigzag (UnZigzag u) = u.
Proof.
  intros H. pose proof (UnZigzag_range u H) as Hr.
  rewrite Zigzag_spec by exact Hr. rewrite UnZigzag_spec by exact H.
  unfold is_u64 in H.
  destruct (Z.even u) eqn:E.
  - apply Zeven_dbl in E. destruct (Z.ltb_spec (u / 2) 0); zlia.
  - assert (u mod 2 <> 0) by (rewrite <- Zeven_dbl; congruence).
    destruct (Z.ltb_spec (- (u / 2) - 1) 0); zlia.
Qed.
Lemma Convert_UnZigzag u : is_u64 u -> Convert u = UnZigzag u.
Proof.
  intros H. rewrite UnZigzag_spec by exact H. unfold Convert, is_u64 in *.
  rewrite land_1, shiftr_div by lia. change (2 ^ 1) with 2.
  rewrite i64_id by (unfold is_i64; zlia).
  destruct (Z.even u) eqn:E.
  - apply Zeven_dbl in E. rewrite E. reflexivity.
  - assert (u mod 2 <> 0) by (rewrite <- Zeven_dbl; congruence).
    destruct (Z.eqb_spec (u mod 2) 0); [lia|]. cbn [negb]. unfold Z.lnot. lia.
Qed.

(** ** Varints *)

(** A decidable fact about small numbers follows from checking all of them. *)
Lemma sweep (n : nat) (f : Z -> bool) :
  forallb f (map Z.of_nat (seq 0 n)) = true -> forall b, 0 <= b < Z.of_nat n -> f b = true.
Proof.
  intros H b Hb. rewrite forallb_forall in H. apply H.
  apply in_map_iff. exists (Z.to_nat b). rewrite in_seq. lia.
Qed.

Lemma lor_128 b : is_u8 b -> Z.lor b 128 = 128 + b mod 128.
Proof.
  intros Hb. apply Z.eqb_eq.
  apply (sweep 256 (fun b => Z.lor b 128 =? 128 + b mod 128)); [vm_compute; reflexivity|exact Hb].
Qed.

Lemma PutUvarint_bytes room x o : 0 <= x -> PutUvarint room x = Ok o -> bytes o.
Proof.
  revert x o. induction room as [|r IH]; intros x o Hx H; [discriminate|].
  cbn [PutUvarint] in H. destruct (Z.ltb_spec x 128).
  - injection H as <-. constructor; [apply u8_range|constructor].
  - apply rbind_inv in H. destruct H as (t & Ht & H). injection H as <-.
    constructor.
    + rewrite lor_128 by apply u8_range. unfold is_u8. zlia.
    + apply (IH (Z.shiftr x 7) t); [apply Z.shiftr_nonneg; lia|exact Ht].
Qed.

(** The decoder accumulates [acc + x * 2^s]; [left] iterations remain, i.e.
    s = 7 * (10 - left). *)
Lemma read_put left : forall room x acc s o rest,
  0 <= x -> s = 7 * (10 - Z.of_nat left) -> (1 <= left <= 10)%nat ->
  0 <= acc < 2 ^ s -> x * 2 ^ s + acc < W64 ->
  PutUvarint room x = Ok o ->
  run (read_uvarint left acc s) (o ++ rest) = Ok (acc + x * 2 ^ s, rest).
Proof.
  induction left as [|l IH]; intros room x acc s o rest Hx Hs Hl Hacc Hb H; [lia|].
  assert (Hs0 : 0 <= s) by lia. pose proof (pow2_pos s Hs0) as Hp.
  destruct room as [|r]; [discriminate|]. cbn [PutUvarint] in H.
  destruct (Z.ltb_spec x 128) as [Hlt|Hge].
  - injection H as <-. cbn [app read_uvarint]. rewrite run_byte.
    rewrite u8_id by (unfold is_u8; lia).
    destruct (Z.ltb_spec x 128); [|lia].
    assert (Hov : (Nat.eqb l 0 && (1 <? x)) = false).
    { destruct (Nat.eqb_spec l 0) as [->|]; [|reflexivity]. cbn [andb].
      replace s with 63 in Hb by lia. change (2 ^ 63) with W63 in Hb. lia. }
    rewrite Hov, run_ret. do 2 f_equal.
    rewrite shiftl_mul by lia. rewrite u64_id by (unfold is_u64; lia).
    rewrite lor_add' by lia. lia.
  - apply rbind_inv in H. destruct H as (t & Ht & H). injection H as <-.
    cbn [app read_uvarint]. rewrite run_byte.
    rewrite lor_128 by apply u8_range.
    assert (Hu : u8 x mod 128 = x mod 128) by (unfold u8; zlia). rewrite Hu.
    destruct (Z.ltb_spec (128 + x mod 128) 128); [zlia|].
    rewrite land_127.
    replace ((128 + x mod 128) mod 128) with (x mod 128) by zlia.
    rewrite shiftl_mul by lia.
    assert (Hxs : x mod 128 * 2 ^ s <= x * 2 ^ s) by (apply Z.mul_le_mono_nonneg_r; zlia).
    assert (Hxm : 0 <= x mod 128 * 2 ^ s) by (apply Z.mul_nonneg_nonneg; zlia).
    rewrite u64_id by (unfold is_u64; lia).
    rewrite lor_add' by lia.
    rewrite shiftr_div in Ht by lia. change (2 ^ 7) with 128 in Ht.
    assert (Hpow : 2 ^ (s + 7) = 128 * 2 ^ s) by (rewrite Z.pow_add_r by lia; change (2 ^ 7) with 128; lia).
    assert (Hdec : x * 2 ^ s = x / 128 * (128 * 2 ^ s) + x mod 128 * 2 ^ s).
    { rewrite (Z.div_mod x 128) at 1 by lia. ring. }
    assert (Hl1 : (1 <= l)%nat).
    { destruct l; [|lia]. replace s with 63 in Hb by lia. change (2 ^ 63) with W63 in Hb. lia. }
    rewrite (IH r (x / 128) (x mod 128 * 2 ^ s + acc) (s + 7) t rest); try lia.
    + do 2 f_equal. rewrite Hpow. lia.
    + rewrite Hpow. split; [lia|].
      assert (x mod 128 * 2 ^ s <= 127 * 2 ^ s) by (apply Z.mul_le_mono_nonneg_r; zlia). lia.
    + exact Ht.
Qed.

Lemma ReadUvarint_Put room x o rest :
  is_u64 x -> PutUvarint room x = Ok o -> run ReadUvarint (o ++ rest) = Ok (x, rest).
Proof.
  unfold is_u64. intros Hx H. unfold ReadUvarint.
  rewrite (read_put 10 room x 0 0 o rest) by (try exact H; cbn; lia).
  do 2 f_equal. change (2 ^ 0) with 1. lia.
Qed.

(** PutUvarint succeeds exactly when the value fits in 7 bits per byte. *)
Lemma PutUvarint_room room : forall x, 0 <= x ->
  (exists o, PutUvarint room x = Ok o) <-> (0 < room)%nat /\ x < 2 ^ (7 * Z.of_nat room).
Proof.
  induction room as [|r IH]; intros x Hx.
  - cbn. split; [intros (o & H); discriminate | lia].
  - cbn [PutUvarint]. destruct (Z.ltb_spec x 128).
    + split; [|eauto]. intros _. split; [lia|].
      apply Z.lt_le_trans with (2 ^ 7); [change (2 ^ 7) with 128; lia|].
      apply Z.pow_le_mono_r; lia.
    + rewrite shiftr_div by lia. change (2 ^ 7) with 128.
      assert (Hd : 0 <= x / 128) by (apply Z.div_pos; lia).
      specialize (IH (x / 128) Hd).
      assert (Hpow : 2 ^ (7 * Z.of_nat (S r)) = 128 * 2 ^ (7 * Z.of_nat r)).
      { replace (7 * Z.of_nat (S r)) with (7 + 7 * Z.of_nat r) by lia.
        rewrite Z.pow_add_r by lia. reflexivity. }
      rewrite Hpow. split.
      * intros (o & Ho). apply rbind_inv in Ho. destruct Ho as (t & Ht & _).
        destruct IH as [IH _]. destruct IH as [Hr Hlt]; [eauto|]. split; [lia|].
        set (p := 2 ^ (7 * Z.of_nat r)) in *. clearbody p. zlia.
      * intros [_ Hlt].
        destruct IH as [_ IH]. destruct IH as (t & Ht).
        -- split.
           ++ destruct r; [|lia]. cbn in Hlt. lia.
           ++ apply Z.div_lt_upper_bound; lia.
        -- rewrite Ht. cbn [rbind]. eauto.
Qed.

Lemma PutUvarint_not_err room x : PutUvarint room x <> Err.
Proof.
  revert x. induction room as [|r IH]; intros x; cbn [PutUvarint]; [discriminate|].
  destruct (x <? 128); [discriminate|]. specialize (IH (Z.shiftr x 7)).
  destruct (PutUvarint r (Z.shiftr x 7)); cbn; congruence.
Qed.

Lemma PutUvarint_length room : forall x o, 0 <= x -> PutUvarint room x = Ok o ->
  (1 <= length o <= room)%nat.
Proof.
  induction room as [|r IH]; intros x o Hx H; [discriminate|].
  cbn [PutUvarint] in H. destruct (Z.ltb_spec x 128).
  - injection H as <-. cbn. lia.
  - apply rbind_inv in H. destruct H as (t & Ht & H). injection H as <-.
    apply IH in Ht; [cbn [length]; lia|]. apply Z.shiftr_nonneg; lia.
Qed.

Lemma PutVarint_Zigzag room x : is_i64 x -> PutVarint room x = PutUvarint room (Zigzag x).
Proof.
  intros H. unfold PutVarint. f_equal. rewrite Zigzag_spec by exact H. unfold is_i64 in H.
  rewrite shiftl_mul by lia. change (2 ^ 1) with 2. unfold u64, Z.lnot.
  destruct (Z.ltb_spec x 0); zlia.
Qed.

Lemma ReadVarint_Put room x o rest :
  is_i64 x -> PutVarint room x = Ok o -> run ReadVarint (o ++ rest) = Ok (x, rest).
Proof.
  intros Hx H. rewrite PutVarint_Zigzag in H by exact Hx.
  unfold ReadVarint. rewrite run_bind.
  rewrite (ReadUvarint_Put _ _ _ _ (Zigzag_range x Hx) H). cbn [rbind].
  rewrite run_ret. do 2 f_equal.
  change (Convert (Zigzag x) = x).
  rewrite Convert_UnZigzag by (apply Zigzag_range; exact Hx). apply UnZigzag_Zigzag; exact Hx.
Qed.

Lemma PutVarint_room room x : is_i64 x ->
  (exists o, PutVarint room x = Ok o) <-> (0 < room)%nat /\ Zigzag x < 2 ^ (7 * Z.of_nat room).
Proof.
  intros H. rewrite PutVarint_Zigzag by exact H. apply PutUvarint_room.
  apply Zigzag_range in H. unfold is_u64 in H. lia.
Qed.

Lemma varint64_total v : is_i64 v -> exists o, varint64_Encode v = Ok o /\ bytes o.
Proof.
  intros H. destruct (PutVarint_room 10 v H) as [_ Hr].
  destruct Hr as (o & Ho).
  - split; [lia|]. apply Zigzag_range in H. unfold is_u64 in H.
    change (2 ^ (7 * Z.of_nat 10)) with 1180591620717411303424. lia.
  - exists o. split; [exact Ho|]. rewrite PutVarint_Zigzag in Ho by exact H.
    eapply PutUvarint_bytes; [|exact Ho]. apply Zigzag_range in H. unfold is_u64 in H. lia.
Qed.

(** Truncated input is an error. *)
Lemma read_uvarint_trunc left : forall room x acc s o p q,
  0 <= x -> PutUvarint room x = Ok o -> o = p ++ q -> q <> [] ->
  run (read_uvarint left acc s) p = Err.
Proof.
  induction left as [|l IH]; intros room x acc s o p q Hx H Ho Hq; [reflexivity|].
  destruct p as [|b p]; [reflexivity|].
  destruct room as [|r]; [discriminate|]. cbn [PutUvarint] in H.
  destruct (Z.ltb_spec x 128).
  - injection H as <-. destruct p; destruct q; cbn in Ho; congruence.
  - apply rbind_inv in H. destruct H as (t & Ht & H). injection H as <-.
    cbn [app] in Ho. injection Ho as <- Ho.
    cbn [read_uvarint]. rewrite run_byte. rewrite lor_128 by apply u8_range.
    destruct (Z.ltb_spec (128 + u8 x mod 128) 128); [zlia|].
    eapply IH; [|exact Ht|exact Ho|exact Hq]. apply Z.shiftr_nonneg; lia.
Qed.

(** ** Nanoseconds *)

(** Number of factors moved by the loop. *)
Lemma nano_loop_spec fuel : forall n tz n' tz',
  0 <= n -> 1 <= tz <= 7 -> nano_loop fuel n tz = (n', tz') ->
  tz <= tz' <= 7 /\ 0 <= n' <= n /\ n = n' * 10 ^ (tz' - tz).
Proof.
  induction fuel as [|f IH]; intros n tz n' tz' Hn Htz H; cbn [nano_loop] in H.
  - injection H as <- <-. rewrite Z.sub_diag. lia.
  - destruct (Z.eqb_spec (n mod 10) 0) as [He|He]; cbn [andb] in H.
    + destruct (Z.ltb_spec tz 7) as [Hlt|Hge].
      * apply IH in H; [|apply Z.div_pos; lia|lia].
        destruct H as (H1 & H2 & H3). split; [lia|]. split; [zlia|].
        replace (tz' - tz) with (Z.succ (tz' - (tz + 1))) by lia.
        rewrite Z.pow_succ_r by lia. 
        rewrite (Z.div_mod n 10) by lia. rewrite He, H3 at 1. ring.
      * injection H as <- <-. rewrite Z.sub_diag. lia.
    + injection H as <- <-. rewrite Z.sub_diag. lia.
Qed.

Lemma mul10_spec k : forall n, 0 <= n -> n * 10 ^ Z.of_nat k < W64 ->
  mul10 k n = n * 10 ^ Z.of_nat k.
Proof.
  induction k as [|k IH]; intros n Hn Hb.
  - cbn. lia.
  - cbn [mul10].
    assert (Hpow : 10 ^ Z.of_nat (S k) = 10 * 10 ^ Z.of_nat k)
      by (rewrite Nat2Z.inj_succ, Z.pow_succ_r by lia; reflexivity).
    rewrite Hpow in *.
    assert (0 < 10 ^ Z.of_nat k) by (apply Z.pow_pos_nonneg; lia).
    assert (n * 10 * 1 <= n * 10 * 10 ^ Z.of_nat k) by (apply Z.mul_le_mono_nonneg_l; lia).
    rewrite u64_id by (unfold is_u64; lia).
    rewrite IH by lia. ring.
Qed.

Lemma nano_roundtrip n : 0 <= n < 2 ^ 61 -> DecodingNano (EncodingNano n) = n.
Proof.
  change (2 ^ 61) with 2305843009213693952. intros Hn. unfold EncodingNano.
  destruct (Z.eqb_spec n 0) as [->|Hn0]; [reflexivity|].
  destruct (Z.eqb_spec (n mod 100) 0) as [He|He]; cbn [negb].
  - destruct (nano_loop 6 (n / 100) 1) as [n' tz'] eqn:E.
    apply nano_loop_spec in E; [|apply Z.div_pos; lia|lia].
    destruct E as (Htz & Hn' & Heq).
    rewrite shiftl_mul by lia. change (2 ^ 3) with 8.
    rewrite (u64_id (n' * 8)) by (unfold is_u64; zlia).
    rewrite (u64_id tz') by (unfold is_u64; lia).
    change 8 with (2 ^ 3). rewrite lor_add by (cbn; lia).
    unfold DecodingNano. rewrite Z.land_comm, land_7, shiftr_div by lia.
    change (2 ^ 3) with 8.
    replace ((n' * 8 + tz') mod 8) with tz' by zlia.
    replace ((n' * 8 + tz') / 8) with n' by zlia.
    destruct (Z.eqb_spec tz' 0); [lia|]. cbn [negb].
    assert (Hn2 : n = n' * 10 ^ Z.of_nat (Z.to_nat (tz' + 1))).
    { rewrite Z2Nat.id by lia. replace (tz' + 1) with (2 + (tz' - 1)) by lia.
      rewrite Z.pow_add_r by lia. change (10 ^ 2) with 100. zlia. }
    rewrite mul10_spec; lia.
  - rewrite shiftl_mul by lia. change (2 ^ 3) with 8.
    rewrite u64_id by (unfold is_u64; lia).
    unfold DecodingNano. rewrite Z.land_comm, land_7, shiftr_div by lia.
    change (2 ^ 3) with 8.
    replace ((n * 8) mod 8) with 0 by zlia. cbn [Z.eqb negb].
    zlia.
Qed.
Lemma nano_fits n : 0 <= n -> is_u64 (EncodingNano n).
Proof.
  intros Hn. unfold EncodingNano.
  destruct (n =? 0); [unfold is_u64; lia|].
  destruct (negb (n mod 100 =? 0)); [apply u64_range|].
  destruct (nano_loop 6 (n / 100) 1) as [n' tz'] eqn:E.
  apply nano_loop_spec in E; [|apply Z.div_pos; lia|lia].
  destruct E as (Htz & Hn' & Heq).
  rewrite (u64_id tz') by (unfold is_u64; lia).
  pose proof (u64_range (Z.shiftl n' 3)) as Hr. unfold is_u64 in *.
  split.
  - apply Z.lor_nonneg. lia.
  - destruct (Z.eq_dec (Z.lor (u64 (Z.shiftl n' 3)) tz') 0) as [->|]; [lia|].
    assert (Z.lor (u64 (Z.shiftl n' 3)) tz' < 2 ^ 64) as Hlt; [|exact Hlt].
    apply Z.log2_lt_pow2.
    + assert (0 <= Z.lor (u64 (Z.shiftl n' 3)) tz') by (apply Z.lor_nonneg; lia). lia.
    + rewrite Z.log2_lor by lia. apply Z.max_lub_lt.
      * destruct (Z.eq_dec (u64 (Z.shiftl n' 3)) 0) as [->|]; [cbn; lia|].
        apply Z.log2_lt_pow2; lia.
      * apply Z.log2_lt_pow2; lia.
Qed.
(** What the packed form is: low three bits count the removed zeros (minus one). *)
Lemma nano_form n : 0 < n < 2 ^ 61 ->
  exists d z, EncodingNano n = d * 8 + z /\ 0 <= z <= 7 /\
    n = d * (if z =? 0 then 1 else 10 ^ (z + 1)).
Proof.
  change (2 ^ 61) with 2305843009213693952. intros Hn. unfold EncodingNano.
  destruct (Z.eqb_spec n 0); [lia|].
  destruct (Z.eqb_spec (n mod 100) 0) as [He|He]; cbn [negb].
  - destruct (nano_loop 6 (n / 100) 1) as [n' tz'] eqn:E.
    apply nano_loop_spec in E; [|apply Z.div_pos; lia|lia].
    destruct E as (Htz & Hn' & Heq). exists n', tz'.
    rewrite shiftl_mul by lia. change (2 ^ 3) with 8.
    rewrite (u64_id (n' * 8)) by (unfold is_u64; zlia).
    rewrite (u64_id tz') by (unfold is_u64; lia).
    change 8 with (2 ^ 3) at 1. rewrite lor_add by (cbn; lia).
    split; [reflexivity|]. split; [lia|].
    destruct (Z.eqb_spec tz' 0); [lia|].
    replace (tz' + 1) with (2 + (tz' - 1)) by lia.
    rewrite Z.pow_add_r by lia. change (10 ^ 2) with 100. zlia.
  - exists n, 0. rewrite shiftl_mul by lia. change (2 ^ 3) with 8.
    rewrite u64_id by (unfold is_u64; lia). cbn [Z.eqb]. lia.
Qed.

(** ** Widths *)

Lemma widthEncoding_range w e : widthEncoding w = Ok e -> 0 <= e < 32 /\ 0 <= w <= 64.
Proof.
  unfold widthEncoding, u8. intros H.
  repeat match type of H with
  | context [if ?c then _ else _] => destruct c eqn:?
  end; try discriminate; injection H as <-; zlia.
Qed.
Lemma width_roundtrip w e : widthEncoding w = Ok e -> 1 <= w -> widthDecoding e false = Ok w.
Proof.
  intros H Hw. pose proof (widthEncoding_range _ _ H) as [_ Hr].
  assert (Hin : In w (map Z.of_nat (seq 0 65))).
  { apply in_map_iff. exists (Z.to_nat w). rewrite in_seq. lia. }
  clear Hr. revert H Hw. revert e.
  assert (Hall : forallb (fun w => match widthEncoding w with
     | Ok e => match widthDecoding e false with Ok w' => (w =? 0) || (w =? w') | _ => false end
     | _ => true end) (map Z.of_nat (seq 0 65)) = true) by (vm_compute; reflexivity).
  rewrite forallb_forall in Hall. specialize (Hall w Hin). intros e H Hw.
  rewrite H in Hall. destruct (widthDecoding e false) as [w'| |]; try discriminate.
  f_equal. lia.
Qed.
Lemma width_roundtrip_delta w e :
  widthEncoding w = Ok e -> w <> 1 -> widthDecoding e true = Ok w.
Proof.
  intros H Hw. pose proof (widthEncoding_range _ _ H) as [_ Hr].
  assert (Hin : In w (map Z.of_nat (seq 0 65))).
  { apply in_map_iff. exists (Z.to_nat w). rewrite in_seq. lia. }
  assert (Hall : forallb (fun w => match widthEncoding w with
     | Ok e => match widthDecoding e true with Ok w' => (w =? 1) || (w =? w') | _ => false end
     | _ => true end) (map Z.of_nat (seq 0 65)) = true) by (vm_compute; reflexivity).
  rewrite forallb_forall in Hall. specialize (Hall w Hin).
  rewrite H in Hall. destruct (widthDecoding e true) as [w'| |]; try discriminate.
  f_equal. lia.
Qed.

(** ** Bit widths *)

Lemma bits_loop_acc fuel : forall x w, bits_loop fuel x w = bits_loop fuel x 0 + w.
Proof.
  induction fuel as [|f IH]; intros x w; cbn [bits_loop]; [lia|].
  destruct (x =? 0); [lia|]. rewrite IH, (IH _ 1). lia.
Qed.
Lemma bits_loop_spec fuel : forall x, 0 <= x < 2 ^ Z.of_nat fuel ->
  let w := bits_loop fuel x 0 in
  0 <= w <= Z.of_nat fuel /\ x < 2 ^ w /\ (0 < x -> 2 ^ (w - 1) <= x) /\ (x = 0 <-> w = 0).
Proof.
  induction fuel as [|f IH]; intros x Hx.
  - cbn in Hx. replace x with 0 by lia. cbn. lia.
  - cbn [bits_loop]. destruct (Z.eqb_spec x 0) as [->|Hn0]; [cbn; lia|].
    rewrite bits_loop_acc. cbv zeta. change (0 + 1) with 1.
    rewrite shiftr_div by lia. change (2 ^ 1) with 2.
    assert (Hd : 0 <= x / 2 < 2 ^ Z.of_nat f).
    { rewrite Nat2Z.inj_succ, Z.pow_succ_r in Hx by lia. zlia. }
    specialize (IH (x / 2) Hd). cbv zeta in IH.
    set (w := bits_loop f (x / 2) 0) in *. destruct IH as (H1 & H2 & H3 & H4).
    assert (Hp : 2 ^ (w + 1) = 2 * 2 ^ w) by (rewrite Z.pow_add_r by lia; change (2 ^ 1) with 2; lia).
    split; [lia|]. split; [clearbody w; rewrite Hp; zlia|]. split; [|lia].
    intros _. replace (w + 1 - 1) with w by lia.
      destruct (Z.eq_dec (x / 2) 0) as [Hz|Hz].
      + apply H4 in Hz. rewrite Hz. cbn. lia.
      + assert (Hx2 : 0 < x / 2) by lia. specialize (H3 Hx2).
        assert (Hw0 : w <> 0) by (intros E; apply H4 in E; lia).
        replace w with (Z.succ (w - 1)) by lia. rewrite Z.pow_succ_r by lia. zlia.
Qed.
Lemma getBitsWidth_spec x : is_u64 x ->
  0 <= getBitsWidth x <= 64 /\ x < 2 ^ getBitsWidth x /\
  (0 < x -> 2 ^ (getBitsWidth x - 1) <= x) /\ (x = 0 <-> getBitsWidth x = 0).
Proof. intros H. apply (bits_loop_spec 64 x). exact H. Qed.

Lemma getBitsWidth_le x n : is_u64 x -> 0 <= n -> (getBitsWidth x <= n <-> x < 2 ^ n).
Proof.
  intros Hx Hn. destruct (getBitsWidth_spec x Hx) as (H1 & H2 & H3 & H4). split; intros H.
  - apply Z.lt_le_trans with (2 ^ getBitsWidth x); [exact H2|]. apply Z.pow_le_mono_r; lia.
  - destruct (Z.le_gt_cases (getBitsWidth x) n) as [|Hgt]; [assumption|exfalso].
    unfold is_u64 in Hx.
    assert (0 < x) by (destruct (Z.eq_dec x 0) as [E|]; [apply H4 in E; lia|lia]).
    assert (2 ^ n <= 2 ^ (getBitsWidth x - 1)) by (apply Z.pow_le_mono_r; lia).
    specialize (H3 ltac:(lia)). lia.
Qed.

(** The aligned width is a legal width not below the exact one. *)
Definition aligned (w : Z) : bool :=
  existsb (Z.eqb w) [0; 1; 2; 4; 8; 12; 16; 24; 32; 40; 48; 56; 64].
Lemma getAlignedWidth_spec x : is_u64 x ->
  getBitsWidth x <= getAlignedWidth x /\ aligned (getAlignedWidth x) = true.
Proof.
  intros H. pose proof (proj1 (getBitsWidth_spec x H)) as Hr.
  unfold getAlignedWidth. fold (getBitsWidth x).
  set (n := getBitsWidth x) in *. clearbody n.
  assert (Hin : In n (map Z.of_nat (seq 0 65))).
  { apply in_map_iff. exists (Z.to_nat n). rewrite in_seq. lia. }
  revert n Hr Hin.
  assert (Hall : forallb (fun n => let a := (if (2 <? n) && (n <=? 4) then 4
  else if (4 <? n) && (n <=? 8) then 8
  else if (8 <? n) && (n <=? 16) then (if n =? 12 then n else 16)
  else if (16 <? n) && (n <=? 24) then 24
  else if (24 <? n) && (n <=? 32) then 32
  else if (32 <? n) && (n <=? 40) then 40
  else if (40 <? n) && (n <=? 48) then 48
  else if (48 <? n) && (n <=? 56) then 56
  else if (56 <? n) && (n <=? 64) then 64
  else n) in (n <=? a) && aligned a) (map Z.of_nat (seq 0 65)) = true) by (vm_compute; reflexivity).
  intros n _ Hin. rewrite forallb_forall in Hall. specialize (Hall n Hin). cbv zeta in Hall.
  apply andb_prop in Hall. destruct Hall as [H1 H2]. split; [lia|exact H2].
Qed.
Lemma aligned_encodes w : aligned w = true -> exists e, widthEncoding w = Ok e.
Proof.
  unfold aligned. cbn [existsb]. intros H.
  repeat (apply orb_prop in H; destruct H as [H|H];
    [apply Z.eqb_eq in H; subst w; vm_compute; eauto|]).
  discriminate.
Qed.

(** ** Floats *)

Lemma u8_shiftr v n : 0 <= n -> u8 (Z.shiftr v n) = (v / 2 ^ n) mod 256.
Proof. intros. unfold u8. rewrite shiftr_div by lia. reflexivity. Qed.

Lemma be32_roundtrip v : 0 <= v < 2 ^ 32 -> un_be32 (be32 v) = v.
Proof.
  change (2 ^ 32) with 4294967296. intros H. unfold un_be32, be32.
  rewrite !u8_shiftr by lia. unfold u8.
  rewrite !shiftl_mul by lia.
  rewrite (lor_add' _ _ 8) by zlia.
  rewrite (lor_add' _ _ 16) by (change (2 ^ 16) with 65536; change (2 ^ 8) with 256; zlia).
  rewrite (lor_add' _ _ 24)
    by (change (2 ^ 24) with 16777216; change (2 ^ 16) with 65536; change (2 ^ 8) with 256; zlia).
  change (2 ^ 24) with 16777216; change (2 ^ 16) with 65536; change (2 ^ 8) with 256. zlia.
Qed.
Lemma bytes_be32 v : bytes (be32 v).
Proof. unfold be32. repeat (constructor; [apply u8_range|]). constructor. Qed.
Lemma bytes_le64 v : bytes (le64 v).
Proof. unfold le64. repeat (constructor; [apply u8_range|]). constructor. Qed.

Lemma le64_roundtrip v : is_u64 v -> un_le64 (le64 v) = v.
Proof.
  unfold is_u64. intros H. unfold un_le64, le64.
  rewrite !u8_shiftr by lia. unfold u8.
  rewrite !shiftl_mul by lia.
  set (d0 := v mod 256). set (d1 := (v / 2 ^ 8) mod 256). set (d2 := (v / 2 ^ 16) mod 256).
  set (d3 := (v / 2 ^ 24) mod 256). set (d4 := (v / 2 ^ 32) mod 256).
  set (d5 := (v / 2 ^ 40) mod 256). set (d6 := (v / 2 ^ 48) mod 256).
  set (d7 := (v / 2 ^ 56) mod 256).
  assert (R : forall x, 0 <= x mod 256 < 256) by (intros; apply Z.mod_pos_bound; lia).
  pose proof (R v : 0 <= d0 < 256) as R0.
  pose proof (R _ : 0 <= d1 < 256) as R1. pose proof (R _ : 0 <= d2 < 256) as R2.
  pose proof (R _ : 0 <= d3 < 256) as R3. pose proof (R _ : 0 <= d4 < 256) as R4.
  pose proof (R _ : 0 <= d5 < 256) as R5. pose proof (R _ : 0 <= d6 < 256) as R6.
  pose proof (R _ : 0 <= d7 < 256) as R7.
  assert (E : v = d0 + d1 * 2 ^ 8 + d2 * 2 ^ 16 + d3 * 2 ^ 24 + d4 * 2 ^ 32 + d5 * 2 ^ 40
                  + d6 * 2 ^ 48 + d7 * 2 ^ 56).
  { subst d0 d1 d2 d3 d4 d5 d6 d7. clear R0 R1 R2 R3 R4 R5 R6 R7.
    change (2 ^ 8) with 256. change (2 ^ 16) with (256 * 256).
    change (2 ^ 24) with (256 * 256 * 256). change (2 ^ 32) with (256 * 256 * 256 * 256).
    change (2 ^ 40) with (256 * 256 * 256 * 256 * 256).
    change (2 ^ 48) with (256 * 256 * 256 * 256 * 256 * 256).
    change (2 ^ 56) with (256 * 256 * 256 * 256 * 256 * 256 * 256).
    rewrite <- !Z.div_div by lia.
    pose proof (Z.div_mod v 256 ltac:(lia)) as E0. set (q1 := v / 256) in *.
    pose proof (Z.div_mod q1 256 ltac:(lia)) as E1. set (q2 := q1 / 256) in *.
    pose proof (Z.div_mod q2 256 ltac:(lia)) as E2. set (q3 := q2 / 256) in *.
    pose proof (Z.div_mod q3 256 ltac:(lia)) as E3. set (q4 := q3 / 256) in *.
    pose proof (Z.div_mod q4 256 ltac:(lia)) as E4. set (q5 := q4 / 256) in *.
    pose proof (Z.div_mod q5 256 ltac:(lia)) as E5. set (q6 := q5 / 256) in *.
    pose proof (Z.div_mod q6 256 ltac:(lia)) as E6. set (q7 := q6 / 256) in *.
    assert (Hq : q7 mod 256 = q7).
    { apply Z.mod_small.
      pose proof (R v). pose proof (R q1). pose proof (R q2). pose proof (R q3).
      pose proof (R q4). pose proof (R q5). pose proof (R q6). lia. }
    rewrite Hq. lia. }
  clearbody d0 d1 d2 d3 d4 d5 d6 d7.
  change (2 ^ 8) with 256 in *. change (2 ^ 16) with 65536 in *.
  change (2 ^ 24) with 16777216 in *. change (2 ^ 32) with 4294967296 in *.
  change (2 ^ 40) with 1099511627776 in *. change (2 ^ 48) with 281474976710656 in *.
  change (2 ^ 56) with 72057594037927936 in *.
  pose proof (lor_add' d1 d0 8 ltac:(lia)) as L1. change (2 ^ 8) with 256 in L1. rewrite L1 by lia.
  pose proof (lor_add' d2 (d1 * 256 + d0) 16 ltac:(lia)) as L2. change (2 ^ 16) with 65536 in L2.
  rewrite L2 by lia.
  pose proof (lor_add' d3 (d2 * 65536 + (d1 * 256 + d0)) 24 ltac:(lia)) as L3.
  change (2 ^ 24) with 16777216 in L3. rewrite L3 by lia.
  pose proof (lor_add' d4 (d3 * 16777216 + (d2 * 65536 + (d1 * 256 + d0))) 32 ltac:(lia)) as L4.
  change (2 ^ 32) with 4294967296 in L4. rewrite L4 by lia.
  pose proof (lor_add' d5 (d4 * 4294967296 + (d3 * 16777216 + (d2 * 65536 + (d1 * 256 + d0))))
    40 ltac:(lia)) as L5. change (2 ^ 40) with 1099511627776 in L5. rewrite L5 by lia.
  pose proof (lor_add' d6 (d5 * 1099511627776 + (d4 * 4294967296 + (d3 * 16777216
    + (d2 * 65536 + (d1 * 256 + d0))))) 48 ltac:(lia)) as L6.
  change (2 ^ 48) with 281474976710656 in L6. rewrite L6 by lia.
  pose proof (lor_add' d7 (d6 * 281474976710656 + (d5 * 1099511627776 + (d4 * 4294967296
    + (d3 * 16777216 + (d2 * 65536 + (d1 * 256 + d0)))))) 56 ltac:(lia)) as L7.
  change (2 ^ 56) with 72057594037927936 in L7. rewrite L7 by lia. lia.
Qed.

Lemma DecodeFloat_Encode v rest : 0 <= v < 2 ^ 32 ->
  run DecodeFloat (float_Encode v ++ rest) = Ok (v, rest).
Proof.
  intros H. unfold DecodeFloat. rewrite run_full by reflexivity.
  unfold float_Encode. rewrite be32_roundtrip by exact H. reflexivity.
Qed.
Lemma DecodeDouble_Encode v rest : is_u64 v ->
  run DecodeDouble (double_Encode v ++ rest) = Ok (v, rest).
Proof.
  intros H. unfold DecodeDouble. rewrite run_full by reflexivity.
  unfold double_Encode. rewrite le64_roundtrip by exact H. reflexivity.
Qed.
Lemma DecodeBytes_Encode bs rest :
  run (DecodeBytes (zlen bs)) (string_Encode bs ++ rest) = Ok (bs, rest).
Proof.
  unfold DecodeBytes, string_Encode. pose proof (zlen_nonneg bs).
  destruct (Z.ltb_spec (zlen bs) 0); [lia|].
  rewrite run_full; [reflexivity|]. unfold zlen. lia.
Qed.
