(** The run forms of Model/IntRle.v: short repeat, direct, delta. *)
From Verif.Model Require Import Codec IntRle.
From Verif.Spec Require Import Bits Session IntSpec.
From Verif.Proofs Require Import Base CodecP SessionP BitsP.

(** A program that consumes its whole input behaves the same with more behind it. *)
Lemma run_closed {A} (p : prog A) o a : run p o = Ok (a, []) ->
  forall t, run p (o ++ t) = Ok (a, t).
Proof.
  intros H. apply run_local in H. destruct H as (c & Hc & Hr). rewrite app_nil_r in Hc.
  subst c. exact Hr.
Qed.
Lemma Runs_closed {A} (dec : prog (list A)) o vs :
  o <> [] -> run dec o = Ok (vs, []) -> Runs dec o vs.
Proof. intros Ho H. apply Runs_one; [exact Ho|]. apply run_closed. exact H. Qed.

(** ** Widths over a list *)

Lemma maxWidth_gen (f : Z -> Z) vs : forall w0,
  w0 <= fold_left (fun w v => if w <? f v then f v else w) vs w0 /\
  (forall v, In v vs -> f v <= fold_left (fun w v => if w <? f v then f v else w) vs w0) /\
  (fold_left (fun w v => if w <? f v then f v else w) vs w0 = w0 \/
   exists v, In v vs /\ fold_left (fun w v => if w <? f v then f v else w) vs w0 = f v).
Proof.
  induction vs as [|x t IH]; intros w0; cbn [fold_left].
  - split; [lia|]. split; [intros v []|left; reflexivity].
  - set (w1 := if w0 <? f x then f x else w0). destruct (IH w1) as (H1 & H2 & H3).
    assert (Hw1 : w0 <= w1 /\ f x <= w1) by (unfold w1; destruct (Z.ltb_spec w0 (f x)); lia).
    split; [lia|]. split.
    + intros v [->|Hv]; [lia|auto].
    + destruct H3 as [H3|(v & Hv & H3)]; [|right; exists v; cbn; auto].
      rewrite H3. unfold w1. destruct (Z.ltb_spec w0 (f x)); [right; exists x; cbn; auto|auto].
Qed.
Lemma maxWidth_ge f vs v : In v vs -> f v <= maxWidth f vs.
Proof. apply (maxWidth_gen f vs 0). Qed.
Lemma maxWidth_nonneg f vs : 0 <= maxWidth f vs.
Proof. apply (maxWidth_gen f vs 0). Qed.
Lemma maxWidth_in f vs : maxWidth f vs = 0 \/ exists v, In v vs /\ maxWidth f vs = f v.
Proof. apply (maxWidth_gen f vs 0). Qed.

Lemma value_fits x w : is_u64 x -> getBitsWidth x <= w -> 0 <= x < 2 ^ w.
Proof.
  intros Hx Hw. destruct (getBitsWidth_spec x Hx) as (H1 & _).
  split; [apply Hx|]. apply getBitsWidth_le; [exact Hx|lia|exact Hw].
Qed.

Lemma aligned_max vs : Forall is_u64 vs ->
  aligned (maxWidth getAlignedWidth vs) = true /\
  Forall (fun v => 0 <= v < 2 ^ maxWidth getAlignedWidth vs) vs /\
  (maxWidth getAlignedWidth vs = 0 <-> Forall (fun v => v = 0) vs).
Proof.
  intros H. split; [|split].
  - destruct (maxWidth_in getAlignedWidth vs) as [E|(v & Hv & E)]; rewrite E; [reflexivity|].
    apply getAlignedWidth_spec. rewrite Forall_forall in H. auto.
  - rewrite Forall_forall in *. intros v Hv. apply value_fits; [auto|].
    apply Z.le_trans with (getAlignedWidth v); [apply getAlignedWidth_spec; auto|].
    apply maxWidth_ge. exact Hv.
  - rewrite Forall_forall in *. split; intros E.
    + intros v Hv. pose proof (maxWidth_ge getAlignedWidth vs v Hv) as Hm.
      destruct (getAlignedWidth_spec v (H v Hv)) as [Ha _].
      destruct (getBitsWidth_spec v (H v Hv)) as (Hr & _ & _ & Hz). apply Hz. lia.
    + destruct (maxWidth_in getAlignedWidth vs) as [E0|(v & Hv & E0)]; [exact E0|].
      rewrite E0, (E v Hv). reflexivity.
Qed.

Lemma fits_aligned w n : aligned w = true -> fits 0 w n = true.
Proof.
  unfold aligned. cbn [existsb]. intros H.
  repeat (apply orb_prop in H; destruct H as [H|H];
    [apply Z.eqb_eq in H; subst w; first [apply fits_small; lia | apply fits_64; reflexivity]|]).
  discriminate.
Qed.

(** ** Headers *)

Lemma header_byte sub ew b : (sub = 64 \/ sub = 128 \/ sub = 192) -> 0 <= ew < 32 -> 0 <= b < 2 ->
  Z.lor (Z.lor sub (u8 (Z.shiftl (Z.land ew 31) 1))) b = sub + 2 * ew + b.
Proof.
  intros Hs He Hb.
  pose (f := fun ew => forallb (fun p => Z.lor (Z.lor (fst p) (u8 (Z.shiftl (Z.land ew 31) 1))) (snd p)
                                 =? fst p + 2 * ew + snd p)
     [(64,0);(64,1);(128,0);(128,1);(192,0);(192,1)]).
  assert (H : f ew = true) by (apply (sweep 32 f); [vm_compute; reflexivity|exact He]).
  unfold f in H. cbn [forallb fst snd] in H.
  assert (Hbb : b = 0 \/ b = 1) by lia.
  destruct Hs as [-> | [-> | ->]]; destruct Hbb as [-> | ->]; lia.
Qed.

Lemma land_511 x : Z.land x 511 = x mod 512.
Proof. apply (land_ones_mod x 9). lia. Qed.
Lemma land_31 x : Z.land x 31 = x mod 32.
Proof. apply (land_ones_mod x 5). lia. Qed.

(** ** Direct *)

Lemma writeDirect_spec signed values :
  Forall is_u64 values -> 1 <= zlen values <= 512 -> ~ Forall (fun v => v = 0) values ->
  exists o, writeDirect values true = Ok o /\ bytes o /\ o <> [] /\
    run (decode signed) o = Ok (values, []).
Proof.
  intros Hu Hl Hnz. unfold writeDirect.
  destruct (aligned_max values Hu) as (Ha & Hfit & Hz).
  set (w := maxWidth getAlignedWidth values) in *.
  destruct (aligned_encodes w Ha) as (ew & Hew).
  pose proof (widthEncoding_range w ew Hew) as [Hr Hwr].
  assert (Hw0 : w <> 0) by tauto.
  rewrite Hew. cbn [rbind].
  destruct (packBits_spec w values ltac:(lia) Hfit) as [_ Hok].
  destruct (Hok (fits_aligned w _ Ha)) as (o & pad & Ho & Hbo & Hpad & Hbits).
  rewrite Ho. cbn [rbind].
  set (l := zlen values - 1) in *.
  assert (Hb : Z.land (u8 (Z.shiftr l 8)) 1 = l / 256).
  { rewrite land_1, shiftr_div by lia. change (2 ^ 8) with 256.
    rewrite u8_id by (unfold is_u8; zlia). zlia. }
  rewrite Hb, header_byte by (auto || lia || zlia).
  assert (Hh1 : u8 l = l mod 256) by reflexivity. rewrite Hh1.
  eexists. split; [reflexivity|]. split.
  { constructor; [unfold is_u8; zlia|]. constructor; [unfold is_u8; zlia|]. exact Hbo. }
  split; [discriminate|].
  unfold decode. rewrite run_byte.
  assert (Hsub : Z.shiftr (64 + 2 * ew + l / 256) 6 = 1).
  { rewrite shiftr_div by lia. change (2 ^ 6) with 64. zlia. }
  rewrite Hsub. cbn [Z.eqb Pos.eqb]. unfold readDirect. rewrite run_byte.
  assert (Hhd : Z.lor (Z.shiftl (64 + 2 * ew + l / 256) 8) (l mod 256)
                = 16384 + ew * 512 + l).
  { rewrite shiftl_mul by lia. rewrite lor_add by (change (2 ^ 8) with 256; zlia).
    change (2 ^ 8) with 256. zlia. }
  rewrite Hhd.
  assert (Hw : Z.land (Z.shiftr (16384 + ew * 512 + l) 9) 31 = ew).
  { rewrite land_31, shiftr_div by lia. change (2 ^ 9) with 512. zlia. }
  rewrite Hw, run_bind, run_plift, (width_roundtrip w ew Hew) by lia. cbn [rbind].
  assert (Hlen : Z.to_nat (Z.land (16384 + ew * 512 + l) 511 + 1) = length values).
  { rewrite land_511. unfold l, zlen in *. zlia. }
  rewrite Hlen, <- (app_nil_r o).
  apply (read_packed w values o pad []); auto; try lia; try constructor.
  apply fits_aligned. exact Ha.
Qed.

(** All zeros: the header announces one bit per value but no payload follows. *)
Lemma writeDirect_zeros signed values :
  Forall (fun v => v = 0) values -> 1 <= zlen values <= 512 ->
  exists h0 h1, writeDirect values true = Ok [h0; h1] /\ run (decode signed) [h0; h1] = Err.
Proof.
  intros Hz Hl. unfold writeDirect.
  assert (Hu : Forall is_u64 values).
  { eapply Forall_impl; [|exact Hz]. intros v ->. unfold is_u64. lia. }
  destruct (aligned_max values Hu) as (_ & _ & Hw). destruct Hw as [_ Hw]. rewrite (Hw Hz).
  change (widthEncoding 0) with (Ok 0). cbn [rbind].
  assert (Hp : packBits values 0 = Ok []).
  { unfold packBits. assert (H : writeBitsAll (0, 0) values 0 = Ok ((0, 0), [])).
    { clear -Hz. induction Hz as [|v t -> Ht IH]; [reflexivity|].
      cbn [writeBitsAll]. change (writeBits (0, 0) 0 0) with (@Ok ((Z * Z) * list Z) ((0, 0), [])).
      cbn [rbind]. rewrite IH. reflexivity. }
    rewrite H. reflexivity. }
  rewrite Hp. cbn [rbind]. set (l := zlen values - 1) in *.
  assert (Hb : Z.land (u8 (Z.shiftr l 8)) 1 = l / 256).
  { rewrite land_1, shiftr_div by lia. change (2 ^ 8) with 256.
    rewrite u8_id by (unfold is_u8; zlia). zlia. }
  rewrite Hb, header_byte by (auto || lia || zlia).
  do 2 eexists. split; [reflexivity|].
  unfold decode. rewrite run_byte.
  assert (Hsub : Z.shiftr (64 + 2 * 0 + l / 256) 6 = 1).
  { rewrite shiftr_div by lia. change (2 ^ 6) with 64. zlia. }
  rewrite Hsub. cbn [Z.eqb Pos.eqb]. unfold readDirect. rewrite run_byte.
  assert (Hhd : Z.lor (Z.shiftl (64 + 2 * 0 + l / 256) 8) (u8 l) = 16384 + l).
  { rewrite shiftl_mul by lia. unfold u8. rewrite lor_add by (change (2 ^ 8) with 256; zlia).
    change (2 ^ 8) with 256. zlia. }
  rewrite Hhd.
  assert (Hwd : Z.land (Z.shiftr (16384 + l) 9) 31 = 0).
  { rewrite land_31, shiftr_div by lia. change (2 ^ 9) with 512. zlia. }
  rewrite Hwd, run_bind, run_plift. change (widthDecoding 0 false) with (Ok 1). cbn [rbind].
  assert (Hlen : Z.to_nat (Z.land (16384 + l) 511 + 1) = S (Z.to_nat l)).
  { rewrite land_511. zlia. }
  rewrite Hlen. cbn [readBitsAll]. rewrite run_bind. reflexivity.
Qed.

(** ** Big-endian bytes *)

Lemma be_byte v m : u8 (Z.land (Z.shiftr v (8 * Z.of_nat m)) 255) = (v / 2 ^ (8 * Z.of_nat m)) mod 256.
Proof.
  rewrite shiftr_div by lia. change 255 with (2 ^ 8 - 1). rewrite land_ones_mod by lia.
  change (2 ^ 8) with 256. unfold u8. apply Z.mod_mod. lia.
Qed.
Lemma bytes_be n v : bytes (be_bytes n v).
Proof. induction n as [|n IH]; cbn [be_bytes]; constructor; [apply u8_range|exact IH]. Qed.
Lemma length_be n v : length (be_bytes n v) = n.
Proof. induction n as [|n IH]; cbn [be_bytes length]; [reflexivity|]. f_equal. exact IH. Qed.
Lemma bits_be n v : bitsOfBytes (be_bytes n v) = bitsN (8 * n) v.
Proof.
  induction n as [|n IH]; [reflexivity|]. cbn [be_bytes]. rewrite bitsOfBytes_cons, IH, be_byte.
  replace (8 * S n)%nat with (8 + 8 * n)%nat by lia. rewrite bitsN_app. f_equal.
  change 256 with (2 ^ Z.of_nat 8). rewrite bitsN_mod by lia. do 2 f_equal. lia.
Qed.

Lemma read_be_spec n : forall x acc t, 0 <= acc -> acc mod 2 ^ (8 * Z.of_nat n) = 0 ->
  0 <= x -> acc + x mod 2 ^ (8 * Z.of_nat n) < W64 ->
  run (read_be n acc) (be_bytes n x ++ t) = Ok (acc + x mod 2 ^ (8 * Z.of_nat n), t).
Proof.
  induction n as [|n IH]; intros x acc t Ha Hm Hx Hb.
  - cbn [read_be be_bytes app]. rewrite run_ret. do 2 f_equal. change (2 ^ (8 * Z.of_nat 0)) with 1. zlia.
  - cbn [read_be be_bytes app]. rewrite run_byte, be_byte.
    set (p := 2 ^ (8 * Z.of_nat n)) in *.
    assert (Hp : 0 < p) by (apply pow2_pos; lia).
    assert (Hpow : 2 ^ (8 * Z.of_nat (S n)) = p * 256).
    { replace (8 * Z.of_nat (S n)) with (8 * Z.of_nat n + 8) by lia.
      rewrite Z.pow_add_r by lia. reflexivity. }
    rewrite Hpow in *.
    assert (Hrem : x mod (p * 256) = x mod p + p * ((x / p) mod 256)) by (apply Z.rem_mul_r; lia).
    set (b := (x / p) mod 256) in *.
    assert (Hbr : 0 <= b < 256) by (apply Z.mod_pos_bound; lia).
    assert (Hxp : 0 <= x mod p < p) by (apply Z.mod_pos_bound; lia).
    assert (Hpb : 0 <= p * b) by (apply Z.mul_nonneg_nonneg; lia).
    rewrite shiftl_mul by lia. fold p. rewrite u64_id by (unfold is_u64; lia).
    assert (Hlor : Z.lor acc (b * p) = acc + b * p).
    { apply Z.mod_divide in Hm; [|lia]. destruct Hm as (q & ->).
      replace (q * (p * 256)) with (q * 2 ^ (8 * Z.of_nat n + 8))
        by (rewrite Z.pow_add_r by lia; reflexivity).
      apply lor_add; [lia|]. rewrite Z.pow_add_r by lia. change (2 ^ 8) with 256. fold p.
      split; [lia|]. rewrite (Z.mul_comm p). apply Z.mul_lt_mono_pos_r; lia. }
    rewrite Hlor.
    rewrite IH.
    + do 2 f_equal. rewrite Hrem. ring.
    + lia.
    + apply Z.mod_divide in Hm; [|lia]. destruct Hm as (q & ->).
      replace (q * (p * 256) + b * p) with ((q * 256 + b) * p) by ring. apply Z.mod_mul. lia.
    + exact Hx.
    + rewrite Hrem in Hb. lia.
Qed.

Lemma read_be_short n : forall i acc, (length i < n)%nat -> run (read_be n acc) i = Err.
Proof.
  induction n as [|n IH]; intros i acc H; [lia|]. destruct i as [|b i]; [reflexivity|].
  cbn [read_be]. rewrite run_byte. apply IH. cbn [length] in H. lia.
Qed.

(** ** Short repeat *)

Definition nz (b : Z) : bool := negb (b =? 0).

Lemma sr_loop_low n x : forall w, Z.of_nat n <= w + 1 ->
  sr_loop n x w = (w, filter nz (be_bytes n x)).
Proof.
  induction n as [|j IH]; intros w Hw; [reflexivity|]. cbn [sr_loop be_bytes].
  assert (E : u8 (Z.shiftr x (8 * Z.of_nat j)) = u8 (Z.land (Z.shiftr x (8 * Z.of_nat j)) 255)).
  { rewrite be_byte, shiftr_div by lia. reflexivity. }
  rewrite <- E. cbn [filter]. fold (nz (u8 (Z.shiftr x (8 * Z.of_nat j)))).
  destruct (nz (u8 (Z.shiftr x (8 * Z.of_nat j)))).
  - destruct (Z.ltb_spec w (Z.of_nat j)); [lia|]. rewrite IH by lia. reflexivity.
  - apply IH. lia.
Qed.

(** [top x n]: x has exactly n significant bytes. *)
Definition sig_bytes (x : Z) (n : nat) : Prop :=
  (1 <= n)%nat /\ 2 ^ (8 * (Z.of_nat n - 1)) <= x < 2 ^ (8 * Z.of_nat n).

Lemma sig_exists m : forall x, 0 < x < 2 ^ (8 * Z.of_nat m) -> exists n, sig_bytes x n /\ (n <= m)%nat.
Proof.
  induction m as [|m IH]; intros x Hx; [cbn in Hx; lia|].
  destruct (Z.lt_ge_cases x (2 ^ (8 * Z.of_nat m))) as [H|H].
  - destruct (IH x ltac:(lia)) as (n & Hn & Hm). exists n. split; [exact Hn|lia].
  - exists (S m). split; [|lia]. split; [lia|].
    replace (8 * (Z.of_nat (S m) - 1)) with (8 * Z.of_nat m) by lia. lia.
Qed.

Lemma sr_loop_sig m : forall x n, sig_bytes x n -> (n <= m)%nat ->
  sr_loop m x 0 = (Z.of_nat n - 1, filter nz (be_bytes n x)).
Proof.
  induction m as [|j IH]; intros x n Hs Hn; [destruct Hs; lia|].
  destruct (Nat.eq_dec n (S j)) as [->|Hne].
  - destruct Hs as [_ Hs]. replace (8 * (Z.of_nat (S j) - 1)) with (8 * Z.of_nat j) in Hs by lia.
    cbn [sr_loop be_bytes].
    assert (E : u8 (Z.shiftr x (8 * Z.of_nat j)) = u8 (Z.land (Z.shiftr x (8 * Z.of_nat j)) 255)).
    { rewrite be_byte, shiftr_div by lia. reflexivity. }
    rewrite <- E.
    assert (Hnz : u8 (Z.shiftr x (8 * Z.of_nat j)) <> 0).
    { rewrite shiftr_div by lia. unfold u8.
      set (p := 2 ^ (8 * Z.of_nat j)) in *. assert (0 < p) by (apply pow2_pos; lia).
      assert (Hpow : 2 ^ (8 * Z.of_nat (S j)) = p * 256).
      { replace (8 * Z.of_nat (S j)) with (8 * Z.of_nat j + 8) by lia.
        rewrite Z.pow_add_r by lia. reflexivity. }
      rewrite Hpow in Hs.
      assert (1 <= x / p) by (apply Z.div_le_lower_bound; lia).
      assert (x / p < 256) by (apply Z.div_lt_upper_bound; lia).
      rewrite Z.mod_small by lia. lia. }
    cbn [filter]. fold (nz (u8 (Z.shiftr x (8 * Z.of_nat j)))).
    assert (Hn1 : nz (u8 (Z.shiftr x (8 * Z.of_nat j))) = true)
      by (unfold nz; destruct (Z.eqb_spec (u8 (Z.shiftr x (8 * Z.of_nat j))) 0); [lia|reflexivity]).
    rewrite Hn1.
    assert (Hw : (if 0 <? Z.of_nat j then Z.of_nat j else 0) = Z.of_nat j)
      by (destruct (Z.ltb_spec 0 (Z.of_nat j)); lia).
    rewrite Hw, sr_loop_low by lia. f_equal. lia.
  - cbn [sr_loop].
    assert (Hz : u8 (Z.shiftr x (8 * Z.of_nat j)) = 0).
    { rewrite shiftr_div by lia. rewrite Z.div_small; [reflexivity|].
      destruct Hs as [Hn1 Hs]. assert (0 < 2 ^ (8 * (Z.of_nat n - 1))) by (apply pow2_pos; lia).
      split; [lia|]. apply Z.lt_le_trans with (2 ^ (8 * Z.of_nat n)); [apply Hs|].
      apply Z.pow_le_mono_r; lia. }
    rewrite Hz. cbn [Z.eqb negb]. apply IH; [exact Hs|lia].
Qed.

Lemma filter_length_le {A} (f : A -> bool) l : (length (filter f l) <= length l)%nat.
Proof. induction l as [|x t IH]; cbn; [lia|]. destruct (f x); cbn; lia. Qed.
Lemma filter_all {A} (f : A -> bool) l : (forall x, In x l -> f x = true) -> filter f l = l.
Proof.
  induction l as [|x t IH]; intros H; cbn; [reflexivity|].
  rewrite (H x) by (left; reflexivity). f_equal. apply IH. intros y Hy. apply H. right. exact Hy.
Qed.
Lemma filter_lt {A} (f : A -> bool) l x : In x l -> f x = false ->
  (length (filter f l) < length l)%nat.
Proof.
  induction l as [|y t IH]; intros Hin Hf; [destruct Hin|]. cbn [filter].
  destruct Hin as [->|Hin].
  - rewrite Hf. cbn [length]. pose proof (filter_length_le f t). lia.
  - specialize (IH Hin Hf). destruct (f y); cbn [length]; lia.
Qed.


Lemma pow256 j : 0 <= j -> 256 ^ j = 2 ^ (8 * j).
Proof. intros H. rewrite Z.pow_mul_r by lia. reflexivity. Qed.

Lemma in_be n v b : In b (be_bytes n v) <->
  exists j, (j < n)%nat /\ b = (v / 2 ^ (8 * Z.of_nat j)) mod 256.
Proof.
  induction n as [|n IH]; cbn [be_bytes In]; [split; [tauto|intros (j & Hj & _); lia]|].
  rewrite IH, be_byte. split.
  - intros [<-|(j & Hj & ->)]; [exists n; split; [lia|reflexivity]|exists j; split; [lia|reflexivity]].
  - intros (j & Hj & ->). destruct (Nat.eq_dec j n) as [->|]; [left; reflexivity|].
    right. exists j. split; [lia|reflexivity].
Qed.

Lemma sig_dense x n : sig_bytes x n ->
  (dense x <-> forall b, In b (be_bytes n x) -> nz b = true).
Proof.
  intros [Hn Hs].
  assert (Hx : 0 < x) by (pose proof (pow2_pos (8 * (Z.of_nat n - 1)) ltac:(lia)); lia).
  split.
  - intros [_ Hd] b Hb. apply in_be in Hb. destruct Hb as (j & Hj & ->).
    specialize (Hd (Z.of_nat j) ltac:(lia)). rewrite pow256 in Hd by lia.
    unfold nz. destruct (Z.eqb_spec ((x / 2 ^ (8 * Z.of_nat j)) mod 256) 0) as [E|]; [|reflexivity].
    exfalso. apply Hd; [|exact E]. apply Z.le_trans with (2 ^ (8 * (Z.of_nat n - 1))); [|lia].
    apply Z.pow_le_mono_r; lia.
  - intros H. split; [exact Hx|]. intros j Hj Hle E.
    rewrite pow256 in * by lia.
    assert (Hjn : (Z.to_nat j < n)%nat).
    { destruct (Nat.lt_ge_cases (Z.to_nat j) n) as [|Hge]; [assumption|exfalso].
      assert (2 ^ (8 * Z.of_nat n) <= 2 ^ (8 * j)) by (apply Z.pow_le_mono_r; lia). lia. }
    specialize (H ((x / 2 ^ (8 * j)) mod 256)). unfold nz in H. rewrite E in H. cbn in H.
    assert (In 0 (be_bytes n x)); [|specialize (H H0); discriminate].
    apply in_be. exists (Z.to_nat j). split; [exact Hjn|]. rewrite Z2Nat.id by lia. auto.
Qed.

Lemma sr_header c w : 0 <= c < 8 -> 0 <= w < 8 ->
  let h := Z.lor (Z.land (u8 c) 7) (u8 (Z.shiftl w 3)) in
  is_u8 h /\ Z.shiftr h 6 = 0 /\ Z.land (Z.shiftr h 3) 7 = w /\ Z.land h 7 = c.
Proof.
  intros Hc Hw h.
  assert (Hh : h = w * 2 ^ 3 + c).
  { unfold h. rewrite (u8_id c) by (unfold is_u8; lia). rewrite land_7.
    rewrite Z.mod_small by lia. rewrite shiftl_mul by lia. change (2 ^ 3) with 8.
    rewrite u8_id by (unfold is_u8; lia). change 8 with (2 ^ 3). apply lor_add'; cbn; lia. }
  rewrite Hh. change (2 ^ 3) with 8. rewrite !land_7, !shiftr_div by lia.
  change (2 ^ 6) with 64. change (2 ^ 3) with 8. unfold is_u8. zlia.
Qed.

Lemma shortRepeat_bytes c x : is_u64 x -> bytes (writeShortRepeat c x).
Proof.
  intros Hx. unfold writeShortRepeat. destruct (sr_loop 8 x 0) as [w bb] eqn:E.
  assert (Hb : bytes bb /\ 0 <= w < 8).
  { unfold is_u64 in Hx. destruct (Z.eq_dec x 0) as [->|Hx0].
    - injection E as <- <-. split; [constructor|lia].
    - destruct (sig_exists 8 x) as (n & Hs & Hn); [change (2 ^ (8 * Z.of_nat 8)) with W64; lia|].
      rewrite (sr_loop_sig 8 x n Hs Hn) in E. injection E as <- <-. destruct Hs. split; [|lia].
      pose proof (bytes_be n x) as Hb. unfold bytes in *. rewrite Forall_forall in *.
      intros b Hin. apply filter_In in Hin. apply Hb. tauto. }
  constructor; [|apply Hb].
  assert (H : is_u8 (Z.lor (Z.land (u8 c) 7) (u8 (Z.shiftl w 3)))); [|exact H].
  rewrite land_7. assert (Hm : 0 <= u8 c mod 8 < 8) by (apply Z.mod_pos_bound; lia).
  rewrite shiftl_mul by lia. change (2 ^ 3) with 8. rewrite (u8_id (w * 8)) by (unfold is_u8; lia).
  change 8 with (2 ^ 3) at 2. rewrite lor_add' by (cbn; lia). unfold is_u8. change (2 ^ 3) with 8. lia.
Qed.

(** Exactly the dense values survive a short repeat run. *)
Lemma shortRepeat_iff signed r x : 3 <= r <= 10 -> is_u64 x ->
  (dense x -> run (decode signed) (writeShortRepeat (r - 3) x) = Ok (repeat x (Z.to_nat r), [])) /\
  (~ dense x -> run (decode signed) (writeShortRepeat (r - 3) x) = Err).
Proof.
  intros Hr Hx. unfold writeShortRepeat.
  destruct (Z.eq_dec x 0) as [->|Hx0].
  { split; [intros [H _]; lia|]. intros _.
    change (sr_loop 8 0 0) with (0, @nil Z).
    destruct (sr_header (r - 3) 0 ltac:(lia) ltac:(lia)) as (_ & H1 & H2 & H3).
    unfold decode. rewrite run_byte, H1. cbn [Z.eqb]. unfold readShortRepeat.
    rewrite H2, run_bind. reflexivity. }
  unfold is_u64 in Hx.
  destruct (sig_exists 8 x) as (n & Hs & Hn); [change (2 ^ (8 * Z.of_nat 8)) with W64; lia|].
  rewrite (sr_loop_sig 8 x n Hs Hn). pose proof Hs as [Hn1 Hrange].
  destruct (sr_header (r - 3) (Z.of_nat n - 1) ltac:(lia) ltac:(lia)) as (_ & H1 & H2 & H3).
  unfold decode. rewrite !run_byte, H1. cbn [Z.eqb]. unfold readShortRepeat.
  rewrite H2, H3, run_bind. replace (Z.to_nat (1 + (Z.of_nat n - 1))) with n by lia.
  pose proof (sig_dense x n Hs) as Hsd. split; intros Hd.
  - rewrite filter_all by (apply Hsd; exact Hd).
    rewrite <- (app_nil_r (be_bytes n x)), read_be_spec.
    + cbn [rbind]. rewrite run_ret. do 3 f_equal; [|lia]. rewrite Z.mod_small by lia. lia.
    + lia.
    + apply Z.mod_0_l. pose proof (pow2_pos (8 * Z.of_nat n) ltac:(lia)). lia.
    + lia.
    + rewrite Z.mod_small by lia. lia.
  - rewrite read_be_short; [reflexivity|].
    assert (He : exists b, In b (be_bytes n x) /\ nz b = false).
    { destruct (existsb (fun b => negb (nz b)) (be_bytes n x)) eqn:E.
      - apply existsb_exists in E. destruct E as (b & Hb & Hz). exists b. split; [exact Hb|].
        destruct (nz b); [discriminate|reflexivity].
      - exfalso. apply Hd, Hsd. intros b Hb. destruct (nz b) eqn:Eb; [reflexivity|].
        assert (existsb (fun b => negb (nz b)) (be_bytes n x) = true); [|congruence].
        apply existsb_exists. exists b. rewrite Eb. auto. }
    destruct He as (b & Hb & Hz). rewrite <- (length_be n x) at 2. eapply filter_lt; eauto.
Qed.
