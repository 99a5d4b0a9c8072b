(** Milliseconds of timestamps, decimals as floats, null checks. *)
From Verif.Model Require Import Go Time Decimal Schema.
From Verif.Spec Require Import SchemaSpec ValueSpec.
From Verif.Proofs Require Import Base TimeP SchemaP.

Lemma instant_split t : legal t -> Time t = (base (ts_loc t) + ts_seconds t) * 1000000000 + ts_nanos t /\
  milliseconds (Time t) = (base (ts_loc t) + ts_seconds t) * 1000 + ts_nanos t / 1000000 /\
  Unix (Time t) = base (ts_loc t) + ts_seconds t.
Proof.
  intros (H1 & H2 & H3). change (2 ^ 52) with 4503599627370496 in H1. unfold Time. rewrite (i64_id (ts_nanos t)) by (unfold is_i64; lia).
  split; [reflexivity|]. unfold milliseconds, Unix. set (s := base (ts_loc t) + ts_seconds t). clearbody s. split; zlia.
Qed.
Lemma GetMilliSeconds_value t : legal t ->
  GetMilliSeconds t = milliseconds (Time t) - 2000 * base (ts_loc t) + (ts_nanos t / 1000 - ts_nanos t / 1000000).
Proof.
  intros H. destruct (instant_split t H) as (_ & -> & _). destruct H as (H1 & H2 & H3). change (2 ^ 52) with 4503599627370496 in H1.
  unfold GetMilliSeconds, base in *.
  rewrite (i64_id (ts_seconds t - _)) by (unfold is_i64; lia). rewrite (i64_id (_ * 1000)) by (unfold is_i64; lia).
  rewrite (i64_id (ts_nanos t / 1000)) by (unfold is_i64; zlia). rewrite i64_id by (unfold is_i64; zlia). lia.
Qed.
Lemma GetMilliSeconds_wrong t : legal t -> GetMilliSeconds t < milliseconds (Time t).
Proof.
  intros H. rewrite (GetMilliSeconds_value t H). destruct H as (_ & H2 & H3). unfold base. zlia.
Qed.
Lemma GetMilliSecondsUtc_value t : legal t ->
  GetMilliSecondsUtc t = 1420070400 + Unix (Time t) + ts_nanos t / 1000.
Proof.
  intros H. pose proof (instant_split t H) as (_ & _ & E). rewrite E. unfold GetMilliSecondsUtc. rewrite E.
  destruct H as (H1 & H2 & H3). change (2 ^ 52) with 4503599627370496 in H1. unfold base. rewrite Z.sub_0_r.
  rewrite (i64_id (1420070400 + _)) by (unfold is_i64; lia). rewrite (i64_id (ts_nanos t / 1000)) by (unfold is_i64; zlia).
  rewrite i64_id by (unfold is_i64; zlia). reflexivity.
Qed.
Lemma GetMilliSecondsUtc_exact t : legal t ->
  (GetMilliSecondsUtc t = milliseconds (Time t) <-> 999 * Unix (Time t) = 1420070400 + ts_nanos t / 1000 - ts_nanos t / 1000000).
Proof.
  intros H. rewrite (GetMilliSecondsUtc_value t H). destruct (instant_split t H) as (_ & -> & ->). lia.
Qed.

(** ** Decimals *)
Lemma fmul_exact x y a b : isInt x a -> isInt y b -> Z.abs (a * b) < 2 ^ 53 -> isInt (fmul x y) (a * b).
Proof.
  intros (N1 & D1) (N2 & D2) H. unfold fmul. rewrite N1, N2.
  replace (a * den x * (b * den y)) with (a * b * (den x * den y)) by ring.
  apply round_exact; [exact H|]. apply Z.mul_pos_pos; assumption.
Qed.
Lemma roundPos_nonneg n d : 0 <= n -> 0 < d -> 0 <= fst (roundPos n d).
Proof.
  intros Hn Hd. unfold roundPos. cbv zeta. cbn [fst].
  match goal with |- context [if 0 <=? ?x then n else _] => generalize x; intros e end.
  assert (H1 : 0 <= (if 0 <=? e then n else n * 2 ^ - e)) by (destruct (Z.leb_spec 0 e); [lia|apply Z.mul_nonneg_nonneg; [lia|apply Z.pow_nonneg; lia]]).
  assert (H2 : 0 < (if 0 <=? e then d * 2 ^ e else d)) by (destruct (Z.leb_spec 0 e); [apply Z.mul_pos_pos; [lia|apply Z.pow_pos_nonneg; lia]|lia]).
  revert H1 H2. generalize (if 0 <=? e then n else n * 2 ^ - e), (if 0 <=? e then d * 2 ^ e else d). intros nu de H1 H2.
  pose proof (Z.div_pos nu de H1 H2). pose proof (Z.mod_pos_bound (nu / de) 2 ltac:(lia)).
  destruct (2 * (nu mod de) <? de); [lia|]. destruct (de <? 2 * (nu mod de)); lia.
Qed.
Lemma num_sign m e : Z.sgn (num (m, e)) = Z.sgn m.
Proof.
  unfold num. destruct (Z.leb_spec 0 e); [|reflexivity]. rewrite Z.sgn_mul. rewrite (Z.sgn_pos (2 ^ e)) by (apply Z.pow_pos_nonneg; lia). lia.
Qed.
Lemma round_sign n d : 0 < d -> num (round n d) = 0 \/ Z.sgn (num (round n d)) = Z.sgn n.
Proof.
  intros Hd. unfold round. destruct (Z.eqb_spec n 0) as [->|Hn]; [left; reflexivity|].
  pose proof (roundPos_nonneg (Z.abs n) d ltac:(lia) Hd) as Hp. destruct (roundPos (Z.abs n) d) as [m e]. cbn [fst] in Hp.
  destruct (Z.eq_dec m 0) as [->|Hm]; [left; unfold num; rewrite Z.mul_0_r; destruct (0 <=? e); reflexivity|].
  right. rewrite num_sign, Z.sgn_mul, (Z.sgn_pos m) by lia. destruct n; reflexivity.
Qed.
Lemma den_pos x : 0 < den x.
Proof. destruct x as [m e]. unfold den. destruct (Z.leb_spec 0 e); [lia|apply Z.pow_pos_nonneg; lia]. Qed.
Lemma Float64_positive p s : 0 < s -> Z.abs p < 2 ^ 53 -> Z.abs (p * (10 * s)) < 2 ^ 53 -> 10 * s < 2 ^ 53 ->
  is_rational (Float64 {| Precision := p; Scale := s |}) (p * (10 * s)) 1.
Proof.
  intros Hs Hp Hps Hs53. unfold Float64. cbn [Precision Scale]. replace (s =? 0) with false by lia. replace (0 <? s) with true by lia.
  change (2 ^ 53) with 9007199254740992 in *. rewrite (i64_id (10 * s)) by (unfold is_i64; lia).
  destruct (fmul_exact (ofInt p) (ofInt (10 * s)) p (10 * s)) as [H _].
  - apply ofInt_exact. exact Hp.
  - apply ofInt_exact. change (2 ^ 53) with 9007199254740992. lia.
  - exact Hps.
  - unfold is_rational. rewrite H. ring.
Qed.
Lemma Float64_negative p s : - 2 ^ 49 < s < 0 -> Z.abs p < 2 ^ 53 ->
  let x := Float64 {| Precision := p; Scale := s |} in num x = 0 \/ Z.sgn (num x) = - Z.sgn p.
Proof.
  intros Hs Hp. cbv zeta. unfold Float64. cbn [Precision Scale]. replace (s =? 0) with false by lia. replace (0 <? s) with false by lia.
  change (2 ^ 49) with 562949953421312 in *. rewrite (i64_id (10 * s)) by (unfold is_i64; lia).
  destruct (ofInt_exact p Hp) as [N1 D1]. destruct (ofInt_exact (10 * s)) as [N2 D2]; [change (2 ^ 53) with 9007199254740992; lia|].
  unfold fdiv. set (x := ofInt p) in *. set (y := ofInt (10 * s)) in *. clearbody x y.
  assert (Hny : num y < 0) by nia.
  assert (Hd : 0 < den x * Z.abs (num y)) by nia.
  destruct (round_sign (num x * den y * Z.sgn (num y)) (den x * Z.abs (num y)) Hd) as [E|E]; [left; exact E|right]. rewrite E, N1.
  rewrite !Z.sgn_mul, (Z.sgn_pos (den x)), (Z.sgn_pos (den y)), (Z.sgn_neg (num y)) by lia. cbn. destruct p; reflexivity.
Qed.
Lemma Float64_wrong p s : p <> 0 -> s <> 0 -> Z.abs p < 2 ^ 53 -> Z.abs (p * (10 * s)) < 2 ^ 53 -> - 2 ^ 49 < s < 2 ^ 49 ->
  ~ is_value (Float64 {| Precision := p; Scale := s |}) {| Precision := p; Scale := s |}.
Proof.
  intros Hp0 Hs0 Hp Hps Hs H. change (2 ^ 49) with 562949953421312 in *. unfold is_value in H. cbn [Precision Scale] in H.
  destruct (Z.leb_spec 0 s).
  - pose proof (Float64_positive p s ltac:(lia) Hp Hps ltac:(change (2 ^ 53) with 9007199254740992; lia)) as E. unfold is_rational in *.
    set (x := Float64 _) in *. clearbody x. pose proof (den_pos x). pose proof (proj1 (Z.pow_gt_1 10 s ltac:(lia)) ltac:(lia)).
    rewrite Z.mul_1_r in E. rewrite E in H. assert (Hq : (p * den x) * (10 * s * 10 ^ s - 1) = 0) by lia.
    apply Z.mul_eq_0 in Hq. nia.
  - destruct (Float64_negative p s ltac:(change (2 ^ 49) with 562949953421312; lia) Hp) as [E|E]; unfold is_rational in H;
      set (x := Float64 _) in *; clearbody x; pose proof (den_pos x); pose proof (Z.pow_pos_nonneg 10 (- s) ltac:(lia) ltac:(lia)) as Hpw; rewrite Z.mul_1_r in H.
    + rewrite E in H. nia.
    + rewrite H in E. rewrite !Z.sgn_mul, (Z.sgn_pos (den x)), (Z.sgn_pos (10 ^ _)) in E by lia. destruct p; cbn in E; lia.
Qed.
Lemma Float64_zero_scale p : Z.abs p < 2 ^ 53 -> is_value (Float64 {| Precision := p; Scale := 0 |}) {| Precision := p; Scale := 0 |}.
Proof.
  intros H. unfold is_value, Float64. cbn [Precision Scale Z.eqb Z.leb]. destruct (ofInt_exact p H) as [N D].
  unfold is_rational. change (0 <=? 0) with true. change (10 ^ 0) with 1. rewrite N. ring.
Qed.

(** ** Nulls *)
Lemma CheckNulls_spec t : no_union t ->
  (CheckNulls t = Err <-> td_hasNulls t = true /\ exists p s, p <> [] /\ at_path t p = Some s /\ td_hasNulls s = true).
Proof.
  intros Hu. unfold CheckNulls, checkNulls. destruct (td_hasNulls t); cbv iota; [|split; [discriminate|intros [H _]; discriminate]].
  match goal with |- (if ?b then _ else _) = _ <-> _ => assert (Hb : b = false <-> exists p s, p <> [] /\ at_path t p = Some s /\ td_hasNulls s = true) end.
  { destruct t as [i k ns e h cs]. cbn [td_children]. split.
    - intros H. apply not_true_iff_false in H.
      assert (Hex : exists c, In c cs /\ (negb (hasUnion c) && forallb (fun x => negb (td_hasNulls x)) (flatten c))%bool = false).
      { clear Hu. induction cs as [|c r IH]; [exfalso; apply H; reflexivity|]. cbn [forallb] in H.
        destruct (negb (hasUnion c) && _)%bool eqn:E; [|exists c; split; [left; reflexivity|exact E]].
        destruct IH as (d & Hd & Ed); [exact H|]. exists d. split; [right; exact Hd|exact Ed]. }
      destruct Hex as (c & Hc & E).
      assert (Hcu : hasUnion c = false).
      { apply hasUnion_spec. intros s Hs. apply Hu. eapply Column_child; eassumption. }
      rewrite Hcu in E. cbn [negb andb] in E.
      assert (Hx : exists x, In x (flatten c) /\ td_hasNulls x = true).
      { clear - E. induction (flatten c) as [|x l IH]; [discriminate|]. cbn [forallb] in E. destruct (td_hasNulls x) eqn:Ex; [exists x; split; [left; reflexivity|exact Ex]|].
        cbn in E. destruct (IH E) as (y & Hy & Ey). exists y. split; [right; exact Hy|exact Ey]. }
      destruct Hx as (x & Hx & Ex). apply flatten_Column in Hx. destruct Hx as (q & Hq).
      destruct (In_nth_error _ _ Hc) as (j & Hj). exists (j :: q), x. split; [discriminate|]. cbn [at_path td_children]. rewrite Hj. auto.
    - intros (p & s & Hp & Hs & Hn). destruct p as [|j q]; [contradiction|]. cbn [at_path td_children] in Hs.
      destruct (nth_error cs j) as [c|] eqn:Ec; [|discriminate]. apply nth_error_In in Ec.
      apply not_true_iff_false. intros Hf. rewrite forallb_forall in Hf. specialize (Hf c Ec). apply andb_true_iff in Hf. destruct Hf as [_ Hf].
      rewrite forallb_forall in Hf. specialize (Hf s (proj2 (flatten_Column c s) (ex_intro _ q Hs))). rewrite Hn in Hf. discriminate. }
  rewrite <- Hb. destruct (forallb _ _); split; try discriminate; intros H; try (destruct H; discriminate); auto.
Qed.
Lemma pow10_above s : 2 <= s -> 10 * s < 10 ^ s.
Proof.
  intros H. assert (G : forall n : nat, 10 * (2 + Z.of_nat n) < 10 ^ (2 + Z.of_nat n)).
  { induction n as [|n IH]; [reflexivity|]. rewrite Nat2Z.inj_succ. replace (2 + Z.succ (Z.of_nat n)) with (Z.succ (2 + Z.of_nat n)) by lia.
    rewrite Z.pow_succ_r by lia. lia. }
  specialize (G (Z.to_nat (s - 2))). rewrite Z2Nat.id in G by lia. replace (2 + (s - 2)) with s in G by lia. exact G.
Qed.
Lemma Float64_not_power p s : p <> 0 -> 2 <= s -> Z.abs p < 2 ^ 53 -> Z.abs (p * (10 * s)) < 2 ^ 53 -> 10 * s < 2 ^ 53 ->
  ~ is_rational (Float64 {| Precision := p; Scale := s |}) (p * 10 ^ s) 1.
Proof.
  intros Hp0 Hs Hp Hps Hs53 H. pose proof (Float64_positive p s ltac:(lia) Hp Hps Hs53) as E. pose proof (pow10_above s Hs) as G.
  unfold is_rational in *. set (x := Float64 _) in *. clearbody x. pose proof (den_pos x). rewrite E in H.
  assert (Hq : (p * den x) * (10 ^ s - 10 * s) = 0) by lia. apply Z.mul_eq_0 in Hq. nia.
Qed.
