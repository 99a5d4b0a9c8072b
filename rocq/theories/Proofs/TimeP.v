(** Dates and timestamps. *)
From Verif.Model Require Import Go Time.
From Verif.Proofs Require Import Base.

(** ** Integers are represented exactly *)
Definition isInt (x : Z * Z) (k : Z) : Prop := num x = k * den x /\ 0 < den x.

Lemma roundPos_exact k d : 1 <= k < 2 ^ 53 -> 0 < d ->
  exists e, e <= 0 /\ roundPos (k * d) d = (k * 2 ^ (- e), e).
Proof.
  intros Hk Hd. unfold roundPos.
  pose proof (Z.log2_mul_below k d ltac:(lia) Hd) as L1.
  pose proof (Z.log2_mul_above k d ltac:(lia) ltac:(lia)) as L2.
  assert (0 <= Z.log2 k <= 52) as Lk.
  { split; [apply Z.log2_nonneg|]. apply Z.lt_succ_r. apply Z.log2_lt_pow2; lia. }
  set (l := Z.log2 (k * d) - Z.log2 d). assert (Z.log2 k <= l <= Z.log2 k + 1) as Hl by (subst l; lia).
  destruct (Z.leb_spec 0 l) as [_|C]; [|lia].
  set (e := if k * d <? d * 2 ^ l then l - 53 else l - 52).
  assert (e <= 0) as He.
  { subst e. destruct (Z.ltb_spec (k * d) (d * 2 ^ l)) as [C|C]; [lia|].
    destruct (Z.eq_dec l 53) as [E|]; [|lia]. rewrite E in C. nia. }
  exists e. split; [exact He|].
  assert ((if 0 <=? e then k * d else k * d * 2 ^ - e) = (k * 2 ^ - e) * d) as N.
  { destruct (Z.leb_spec 0 e) as [C|C]; [|ring]. assert (e = 0) as -> by lia. cbn. ring. }
  assert ((if 0 <=? e then d * 2 ^ e else d) = d) as D.
  { destruct (Z.leb_spec 0 e) as [C|C]; [|reflexivity]. assert (e = 0) as -> by lia. cbn. ring. }
  rewrite N, D, Z.div_mul, Z.mod_mul by lia.
  destruct (Z.ltb_spec (2 * 0) d) as [_|C]; [reflexivity|lia].
Qed.

Lemma round_exact k d : Z.abs k < 2 ^ 53 -> 0 < d -> isInt (round (k * d) d) k.
Proof.
  intros Hk Hd. unfold round. destruct (Z.eqb_spec (k * d) 0) as [C|C].
  - assert (k = 0) as -> by nia. split; cbn; lia.
  - replace (Z.abs (k * d)) with (Z.abs k * d) by (rewrite Z.abs_mul; f_equal; lia).
    destruct (roundPos_exact (Z.abs k) d ltac:(nia) Hd) as (e & He & ->).
    assert (Z.sgn (k * d) * Z.abs k = k) as Sg.
    { rewrite Z.sgn_mul, (Z.sgn_pos d Hd), Z.mul_1_r. destruct k; cbn; lia. }
    pose proof (Z.pow_pos_nonneg 2 (- e) ltac:(lia) ltac:(lia)) as P.
    unfold isInt, num, den. destruct (Z.leb_spec 0 e) as [H0|H0].
    + assert (e = 0) as -> by lia. cbn [Z.opp]. change (2 ^ 0) with 1. split; [nia|lia].
    + split; [|exact P]. rewrite Z.mul_assoc, Sg. reflexivity.
Qed.

Lemma ofInt_exact k : Z.abs k < 2 ^ 53 -> isInt (ofInt k) k.
Proof. intros. unfold ofInt. rewrite <- (Z.mul_1_r k) at 1. apply round_exact; lia. Qed.
Lemma fadd_exact x y a b : isInt x a -> isInt y b -> Z.abs (a + b) < 2 ^ 53 -> isInt (fadd x y) (a + b).
Proof.
  intros (N1 & D1) (N2 & D2) H. unfold fadd. rewrite N1, N2.
  replace (a * den x * den y + b * den y * den x) with ((a + b) * (den x * den y)) by ring.
  apply round_exact; [exact H|]. apply Z.mul_pos_pos; assumption.
Qed.
Lemma fdiv_exact x y c b : isInt x (c * b) -> isInt y b -> b <> 0 -> Z.abs c < 2 ^ 53 -> isInt (fdiv x y) c.
Proof.
  intros (N1 & D1) (N2 & D2) Hb H. unfold fdiv. rewrite N1, N2.
  rewrite Z.abs_mul, Z.sgn_mul, (Z.sgn_pos (den y)), (Z.abs_eq (den y)) by lia.
  replace (c * b * den x * den y * (Z.sgn b * 1)) with (c * (den x * ((b * Z.sgn b) * den y))) by ring.
  replace (b * Z.sgn b) with (Z.abs b) by (destruct b; cbn; lia).
  apply round_exact; [exact H|]. nia.
Qed.
Lemma toInt_exact x k : isInt x k -> toInt x = k.
Proof. intros (N & D). unfold toInt. rewrite N. apply Z.quot_mul. lia. Qed.

(** ** Days *)
Lemma FromDays_exact n : Z.abs n <= 106751 -> FromDays n = n * DayNs.
Proof. intros. unfold FromDays. rewrite (i64_id (n * 24)), i64_id; unfold is_i64; lia. Qed.

Lemma ToDays_midnight n : Z.abs n <= 106751 -> ToDays (n * DayNs) = n.
Proof.
  intros H. unfold ToDays, Sub. rewrite Z.sub_0_r, Z.min_r, Z.max_r by lia.
  assert (isInt (Hours (n * DayNs)) (n * 24)) as Hh.
  { unfold Hours. replace (n * DayNs) with (n * 24 * HourNs) by ring.
    rewrite Z.quot_mul, Z.rem_mul by lia.
    replace (n * 24) with (n * 24 + 0) at 2 by ring.
    apply fadd_exact; [apply ofInt_exact; lia| |lia].
    apply (fdiv_exact _ _ 0 HourNs); [apply ofInt_exact; lia|apply ofInt_exact; lia|lia|lia]. }
  rewrite (toInt_exact _ n); [unfold i32; destruct (Z.ltb_spec (n mod 4294967296) 2147483648); zlia|].
  apply (fdiv_exact _ _ n 24); [exact Hh|apply ofInt_exact; lia|lia|lia].
Qed.

Lemma days_round_trip n : Z.abs n <= 106751 -> ToDays (FromDays n) = n.
Proof. intros. rewrite FromDays_exact by assumption. apply ToDays_midnight. assumption. Qed.

(** ** Timestamps *)
Lemma GetTimestamp_Time loc t : is_i64 (t / 1000000000 - 1420070400) ->
  Time (GetTimestamp loc t) = t - loc * 1000000000.
Proof.
  intros H. unfold Time, GetTimestamp, Unix, base. cbn [ts_loc ts_seconds ts_nanos].
  rewrite Z.sub_0_r, (i64_id _ H), (i64_id (t mod 1000000000)).
  - zlia.
  - unfold is_i64. zlia.
Qed.
