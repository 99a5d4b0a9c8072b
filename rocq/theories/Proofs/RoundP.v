(** Rounding to the nearest float64 (Model/Time.v, [roundPos]). *)
From Coq Require Import ZifyBool ZifyNat.
From Verif.Model Require Import Go Time.
From Verif.Proofs Require Import Base.

Lemma half_even num den : 0 <= num -> 0 < den ->
  let q := num / den in let r := num mod den in
  let m := if 2 * r <? den then q else if den <? 2 * r then q + 1 else q + q mod 2 in
  2 * Z.abs (m * den - num) <= den /\ (2 * Z.abs (m * den - num) = den -> Z.even m = true) /\ q <= m <= q + 1.
Proof.
  intros Hn Hd q r m. pose proof (Z.div_mod num den ltac:(lia)) as E. fold q r in E. pose proof (Z.mod_pos_bound num den Hd) as Hr. fold r in Hr.
  subst m. destruct (Z.ltb_spec (2 * r) den); [|destruct (Z.ltb_spec den (2 * r))].
  - replace (q * den - num) with (- r) by lia. split; [lia|]. split; lia.
  - replace ((q + 1) * den - num) with (den - r) by lia. split; [lia|]. split; lia.
  - pose proof (Z.mod_pos_bound q 2 ltac:(lia)) as Hq.
    replace ((q + q mod 2) * den - num) with (q mod 2 * den - r) by lia.
    split; [assert (q mod 2 = 0 \/ q mod 2 = 1) as [-> | ->] by lia; lia|]. split; [|lia]. intros _.
    rewrite Z.even_spec. pose proof (Z.div_mod q 2 ltac:(lia)). exists (q / 2 + q mod 2). lia.
Qed.

Lemma scaled D den num N K A B : 0 < D -> 0 < den -> num * D = N * den * K -> A * D <= N * K < B * D -> A * den <= num < B * den.
Proof.
  intros HD Hd E [H1 H2]. apply (Z.mul_le_mono_pos_l _ _ den Hd) in H1. apply (Z.mul_lt_mono_pos_l den _ _ Hd) in H2.
  replace (den * (N * K)) with (num * D) in H1, H2 by (rewrite E; ring).
  split; [apply (Z.mul_le_mono_pos_r _ _ D HD)|apply (Z.mul_lt_mono_pos_r D _ _ HD)]; lia.
Qed.
Lemma roundPos_nearest n d m e : 0 < n -> 0 < d -> roundPos n d = (m, e) ->
  2 ^ 52 <= m <= 2 ^ 53 /\
  2 * Z.abs (m * 2 ^ Z.max e 0 * d - n * 2 ^ Z.max (- e) 0) <= 2 ^ Z.max e 0 * d /\
  (2 * Z.abs (m * 2 ^ Z.max e 0 * d - n * 2 ^ Z.max (- e) 0) = 2 ^ Z.max e 0 * d -> Z.even m = true).
Proof.
  intros Hn Hd H. unfold roundPos in H.
  set (l := Z.log2 n - Z.log2 d) in *. set (below := if 0 <=? l then n <? d * 2 ^ l else n * 2 ^ (- l) <? d) in *.
  set (e' := if below then l - 53 else l - 52) in *. cbv zeta in H.
  assert (e = e') as -> by congruence.
  set (num := if 0 <=? e' then n else n * 2 ^ (- e')) in *. set (den := if 0 <=? e' then d * 2 ^ e' else d) in *.
  assert (En : n * 2 ^ Z.max (- e') 0 = num).
  { subst num. destruct (Z.leb_spec 0 e'); [rewrite Z.max_r by lia; lia|rewrite Z.max_l by lia; reflexivity]. }
  assert (Ed : 2 ^ Z.max e' 0 * d = den).
  { subst den. destruct (Z.leb_spec 0 e'); [rewrite Z.max_l by lia; lia|rewrite Z.max_r by lia; lia]. }
  assert (0 < 2 ^ Z.max (- e') 0) by (apply Z.pow_pos_nonneg; lia). assert (0 < 2 ^ Z.max e' 0) by (apply Z.pow_pos_nonneg; lia).
  assert (Hnum : 0 < num) by (rewrite <- En; apply Z.mul_pos_pos; assumption). assert (Hden : 0 < den) by (rewrite <- Ed; apply Z.mul_pos_pos; assumption).
  destruct (half_even num den ltac:(lia) Hden) as (A & B & Cq). 
  match type of H with (?z, _) = _ => assert (m = z) as -> by congruence end. clear H.
  rewrite En.
  match type of A with 2 * Z.abs (?z * _ - _) <= _ => set (mm := z) in * end.
  replace (mm * 2 ^ Z.max e' 0 * d) with (mm * den) by (rewrite <- Ed; ring). rewrite Ed.
  split; [|split; [exact A|exact B]].
  (* the quotient has 53 bits *)
  assert (Hq : 2 ^ 52 * den <= num < 2 ^ 53 * den).
  { pose proof (Z.log2_spec n Hn) as Ln. pose proof (Z.log2_spec d Hd) as Ld. rewrite Z.pow_succ_r in Ln, Ld by apply Z.log2_nonneg.
    set (a := Z.log2 n) in *. set (b := Z.log2 d) in *. assert (0 <= a) by apply Z.log2_nonneg. assert (0 <= b) by apply Z.log2_nonneg.
    (* n / d in (2^(l-1), 2^(l+1)) scaled by a common power *)
    assert (G : 2 ^ Z.max l 0 * d < 2 * (n * 2 ^ Z.max (- l) 0) /\ n * 2 ^ Z.max (- l) 0 < 2 * (2 ^ Z.max l 0 * d)).
    { assert (Ep : 2 ^ a * 2 ^ Z.max (- l) 0 = 2 ^ Z.max l 0 * 2 ^ b) by (rewrite <- !Z.pow_add_r by lia; f_equal; lia).
      assert (HX : 0 < 2 ^ Z.max (- l) 0) by (apply Z.pow_pos_nonneg; lia). assert (HY : 0 < 2 ^ Z.max l 0) by (apply Z.pow_pos_nonneg; lia).
      revert Ep HX HY. generalize (2 ^ Z.max (- l) 0) (2 ^ Z.max l 0). intros X Y Ep HX HY.
      pose proof (Z.mul_lt_mono_pos_l Y d (2 * 2 ^ b) HY) as U1. pose proof (Z.mul_le_mono_pos_r (2 ^ a) n X HX) as U2.
      pose proof (Z.mul_le_mono_pos_l (2 ^ b) d Y HY) as U3. pose proof (Z.mul_lt_mono_pos_r X n (2 * 2 ^ a) HX) as U4.
      clear - Ln Ld Ep U1 U2 U3 U4. replace (Y * (2 * 2 ^ b)) with (2 * (Y * 2 ^ b)) in U1 by ring. replace (2 * 2 ^ a * X) with (2 * (2 ^ a * X)) in U4 by ring. lia. }
    assert (Hb : below = (n * 2 ^ Z.max (- l) 0 <? 2 ^ Z.max l 0 * d)).
    { subst below. destruct (Z.leb_spec 0 l); [rewrite Z.max_r, Z.max_l by lia; f_equal; lia|rewrite Z.max_l, Z.max_r by lia; f_equal; lia]. }
    set (N := n * 2 ^ Z.max (- l) 0) in *. set (D := 2 ^ Z.max l 0 * d) in *.
    (* num / den = (N / D) * 2^(l - e') *)
    assert (Es : num * D = N * den * 2 ^ (l - e')).
    { rewrite <- En, <- Ed. subst N D. assert (0 <= l - e') by (subst e'; destruct below; lia).
      assert (Ep : 2 ^ Z.max (- e') 0 * 2 ^ Z.max l 0 = 2 ^ Z.max (- l) 0 * 2 ^ Z.max e' 0 * 2 ^ (l - e')) by (rewrite <- !Z.pow_add_r by lia; f_equal; lia).
      transitivity (n * d * (2 ^ Z.max (- e') 0 * 2 ^ Z.max l 0)); [ring|]. rewrite Ep. ring. }
    assert (HD : 0 < D) by (subst D; apply Z.mul_pos_pos; [apply Z.pow_pos_nonneg; lia|exact Hd]).
    subst e'. rewrite Hb in *. destruct (Z.ltb_spec N D).
    - replace (l - (l - 53)) with 53 in Es by lia. apply (scaled D den num N _ _ _ HD Hden Es). clear - G H3. change (2 ^ 53) with 9007199254740992. change (2 ^ 52) with 4503599627370496. lia.
    - replace (l - (l - 52)) with 52 in Es by lia. apply (scaled D den num N _ _ _ HD Hden Es). clear - G H3. change (2 ^ 53) with 9007199254740992. change (2 ^ 52) with 4503599627370496. lia. }
  assert (2 ^ 52 <= num / den) by (apply Z.div_le_lower_bound; lia).
  assert (num / den < 2 ^ 53) by (apply Z.div_lt_upper_bound; lia). lia.
Qed.
