(** User level statements about integer streams. *)
From Coq Require Import Sorting.Sorted.
From Verif.Model Require Import Codec IntRle.
From Verif.Spec Require Import Bits Session IntSpec.
From Verif.Proofs Require Import Base CodecP SessionP BitsP IntRunsP IntDeltaP IntPatchP IntStreamP.

(** ** Streams made of full blocks *)
Section Blocks.
  Variable signed : bool.
  Variable P : list Z -> Prop.
  Hypothesis Pu : forall l, P l -> Forall is_u64 l.
  Hypothesis Psplit : forall a b, P (a ++ b) -> P a /\ P b.
  Hypothesis Pfull : forall l, P l -> length l = 512%nat -> step_ok signed false l = true /\
    (getRepeats l = 512%nat \/ (getRepeats l < 3)%nat /\
       exists base ds, tryDelta signed l = Some (base, ds) /\ length ds = 510%nat).
  Hypothesis Pend : forall l, P l -> l <> [] -> (length l < 512)%nat -> write_ok signed true l = true.

  Lemma blocks_ok vs : forall e, i_signed e = signed -> (length (i_values e) < 512)%nat ->
    P (i_values e ++ map (rawv signed) vs) -> stream_ok e vs = true.
  Proof using Pu Psplit Pfull Pend.
    induction vs as [|v t IH]; intros e Hs Hl HP; cbn [stream_ok].
    - cbn [map] in HP. rewrite app_nil_r in HP. destruct (i_values e) as [|x l] eqn:E; [reflexivity|].
      cbn [nonempty negb orb]. rewrite Hs. apply Pend; [exact HP|discriminate|exact Hl].
    - rewrite Hs. fold (rawv signed v). set (buf := i_values e ++ [rawv signed v]).
      assert (HP' : P (buf ++ map (rawv signed) t)).
      { unfold buf. rewrite <- app_assoc. exact HP. }
      destruct (Psplit _ _ HP') as [HPb HPt].
      assert (Hlb : length buf = S (length (i_values e))) by (unfold buf; rewrite app_length; cbn; lia).
      unfold int_Encode. rewrite Hs. fold (rawv signed v). fold buf. cbv zeta. unfold MaxIntRunLength.
      destruct (Z.ltb_spec (zlen buf) 512) as [Hlt|Hge].
      + destruct (Z.leb_spec 512 (zlen buf)); [lia|]. cbn [orb andb rbind].
        apply IH; cbn [i_values i_signed]; [reflexivity|unfold zlen in Hlt; lia|exact HP'].
      + destruct (Z.leb_spec 512 (zlen buf)); [|lia].
        assert (H512 : length buf = 512%nat) by (unfold zlen in Hge; lia).
        destruct (Pfull buf HPb H512) as [Hstep Hfull].
        unfold write_ok, write. rewrite H512. cbn [Nat.leb orb]. rewrite Hstep. cbn [andb].
        destruct (writeStep_spec signed false buf) as (rest & o & done & Hw & _ & _ & _ & Hrest);
          [intros E; rewrite E in H512; discriminate|apply Pu; exact HPb|exact Hstep|].
        assert (rest = []) as ->.
        { destruct Hfull as [Hr|(Hr & base & ds & Htd & Hld)].
          - rewrite Hr in Hrest. change (3 <=? 512)%nat with true in Hrest. rewrite Hrest.
            apply skipn_all2. lia.
          - destruct (Nat.leb_spec 3 (getRepeats buf)); [lia|].
            destruct Hrest as [_ Hrest]. apply (Hrest base ds Htd). lia. }
        rewrite Hw. cbn [rbind]. apply IH; cbn [i_values i_signed app length]; [reflexivity|lia|exact HPt].
  Qed.
End Blocks.

(** ** Constant streams *)

Lemma getRepeats_repeat v n : getRepeats (repeat v n) = n.
Proof.
  destruct n as [|n]; [reflexivity|]. cbn [repeat getRepeats]. f_equal.
  induction n as [|n IH]; [reflexivity|]. cbn [repeat leadingEq]. rewrite Z.eqb_refl. f_equal. exact IH.
Qed.

Lemma repeat_split {A} (x : A) n : forall a b, repeat x n = a ++ b ->
  a = repeat x (length a) /\ b = repeat x (length b).
Proof.
  induction n as [|n IH]; intros a b H; cbn [repeat] in H.
  - symmetry in H. apply app_eq_nil in H. destruct H as [-> ->]. split; reflexivity.
  - destruct a as [|y a]; cbn [app] in H.
    + split; [reflexivity|]. rewrite <- H. cbn [length]. rewrite repeat_length. reflexivity.
    + injection H as <- H. apply IH in H. destruct H as [H1 H2]. split; [cbn; f_equal; exact H1|exact H2].
Qed.

Lemma constant_ok signed raw e n : is_u64 raw -> dense raw -> raw < 2 ^ 56 ->
  i_signed e = signed -> i_values e = [] ->
  forall v, rawv signed v = raw -> stream_ok e (repeat v n) = true.
Proof.
  intros Hu Hd H56 Hs He v Hv.
  apply (blocks_ok signed (fun l => l = repeat raw (length l))).
  - intros l ->. apply Forall_forall. intros x Hx. apply repeat_spec in Hx. subst x. exact Hu.
  - intros a b H. symmetry in H. apply repeat_split in H. exact H.
  - intros l -> Hl. rewrite repeat_length in Hl. rewrite Hl. unfold step_ok.
    rewrite getRepeats_repeat. change (3 <=? 512)%nat with true. change (512 <=? 10)%nat with false.
    cbv iota. split; [|left; reflexivity]. unfold fixed_ok. cbn [repeat hd].
    apply andb_true_intro. split; [apply Z.ltb_lt; exact H56|reflexivity].
  - intros l -> Hne Hl. rewrite repeat_length in Hl. set (k := length l) in *. unfold write_ok.
    rewrite repeat_length.
    assert (Hz : raw <> 0) by (destruct Hd; lia).
    destruct (Nat.leb_spec k 3) as [H3|H3].
    + unfold direct_ok, zlen. rewrite repeat_length. apply andb_true_intro.
      split; [apply Z.leb_le; lia|]. destruct k as [|k]; [exfalso; apply Hne; reflexivity|].
      cbn [repeat existsb]. apply orb_true_intro. left. apply negb_true_iff, Z.eqb_neq. exact Hz.
    + destruct k as [|k]; [lia|]. cbn [end_ok repeat]. change (raw :: repeat raw k) with (repeat raw (S k)).
      rewrite getRepeats_repeat. unfold step_ok. rewrite getRepeats_repeat.
      destruct (Nat.leb_spec 3 (S k)); [|lia].
      rewrite skipn_all2 by (rewrite repeat_length; lia).
      apply andb_true_intro. split; [|destruct k; reflexivity].
      cbn [repeat hd]. destruct (Nat.leb_spec (S k) 10).
      * apply denseb_iff; assumption.
      * unfold fixed_ok. apply andb_true_intro. split; [apply Z.ltb_lt; exact H56|apply Nat.leb_le; lia].
  - exact Hs.
  - rewrite He. cbn. lia.
  - rewrite He. cbn [app]. rewrite map_length, repeat_length.
    clear - Hv. induction n as [|n IH]; cbn [repeat map]; [reflexivity|]. rewrite Hv, IH. reflexivity.
Qed.

Lemma int_constant signed p v n : is_int signed v ->
  let raw := if signed then Zigzag v else v in dense raw -> raw < 2 ^ 56 ->
  exists e o, segment int_Encode int_Flush (NewIntRLV2 signed p) (repeat v n) = Ok (e, o) /\
    decode_all (DecodeFor signed) o = Ok (repeat v n).
Proof.
  intros Hv raw Hd H56.
  destruct (int_lossless signed p (repeat v n)) as (e & o & H1 & _ & H2).
  - apply Forall_forall. intros x Hx. apply repeat_spec in Hx. subst x. exact Hv.
  - apply (constant_ok signed raw); auto. apply rawv_u64. exact Hv.
  - eauto.
Qed.

(** ** Strictly increasing streams *)

Fixpoint gaps (prev : Z) (l : list Z) : list Z :=
  match l with [] => [] | x :: t => (x - prev) :: gaps x t end.
Lemma length_gaps l : forall prev, length (gaps prev l) = length l.
Proof. induction l as [|x t IH]; intros prev; cbn; [reflexivity|]. f_equal. apply IH. Qed.

Definition near (a b : Z) : Prop := 0 < b - a < 2048.
Definition small (signed : bool) (v : Z) : Prop := 0 < v < (if signed then 2 ^ 55 else 2 ^ 56).

Lemma small_raw signed v : small signed v -> is_int signed v /\ is_u64 (rawv signed v) /\
  0 < rawv signed v < 2 ^ 56 /\ (signed = true -> UnZigzag (rawv signed v) = v) /\
  (signed = false -> rawv signed v = v).
Proof.
  intros H. unfold small in H.
  assert (Hi : is_int signed v).
  { destruct signed; cbn; unfold is_i64, is_u64;
      [change (2 ^ 55) with 36028797018963968 in H|change (2 ^ 56) with 72057594037927936 in H]; lia. }
  split; [exact Hi|]. split; [apply rawv_u64; exact Hi|].
  destruct signed; cbn [rawv]; (split; [|split; [intros E; try discriminate|intros E; try discriminate]]).
  - rewrite Zigzag_spec by exact Hi. destruct (Z.ltb_spec v 0); [lia|].
    change (2 ^ 55) with 36028797018963968 in H. change (2 ^ 56) with 72057594037927936. lia.
  - apply UnZigzag_Zigzag. exact Hi.
  - exact H.
  - reflexivity.
Qed.

Lemma gaps_near l : forall prev, Sorted near (prev :: l) ->
  Forall (fun d => 0 < d < 2048) (gaps prev l).
Proof.
  induction l as [|x t IH]; intros prev H; cbn [gaps]; [constructor|].
  apply Sorted_inv in H. destruct H as [H1 H2]. apply HdRel_inv in H2.
  constructor; [exact H2|]. apply IH. exact H1.
Qed.

Lemma moreDeltas_near signed base l : 0 <= base -> forall prev,
  Sorted near (prev :: l) -> Forall (small signed) (prev :: l) ->
  moreDeltas signed base (rawv signed prev) (map (rawv signed) l) = gaps prev l.
Proof.
  intros Hb. induction l as [|x t IH]; intros prev Hs Hv; cbn [map moreDeltas gaps]; [reflexivity|].
  apply Sorted_inv in Hs. destruct Hs as [Hs1 Hs2]. apply HdRel_inv in Hs2. unfold near in Hs2.
  inversion Hv as [|? ? Hp Hv']; subst. inversion Hv' as [|? ? Hx _]; subst.
  destruct (small_raw _ _ Hp) as (_ & _ & _ & Hp1 & Hp2).
  destruct (small_raw _ _ Hx) as (_ & _ & _ & Hx1 & Hx2).
  destruct (Z.leb_spec 0 base); [|lia].
  destruct signed.
  - rewrite Hp1, Hx1 by reflexivity. destruct (Z.leb_spec prev x); [|lia].
    rewrite u64_id by (unfold is_u64; lia). f_equal. apply IH; assumption.
  - rewrite Hp2, Hx2 by reflexivity. destruct (Z.leb_spec prev x); [|lia].
    rewrite u64_id by (unfold is_u64; lia). f_equal.
    rewrite <- Hx2 by reflexivity. rewrite IH by assumption. rewrite Hx2 by reflexivity. reflexivity.
Qed.

Lemma Sorted_app {A} (R : A -> A -> Prop) a : forall b, Sorted R (a ++ b) -> Sorted R a /\ Sorted R b.
Proof.
  induction a as [|x t IH]; intros b H; cbn [app] in *; [split; [constructor|exact H]|].
  apply Sorted_inv in H. destruct H as [H1 H2]. destruct (IH b H1) as [Ha Hb]. split; [|exact Hb].
  constructor; [exact Ha|]. destruct t as [|y t]; [constructor|].
  cbn [app] in H2. apply HdRel_inv in H2. constructor. exact H2.
Qed.

Lemma tryDelta_near signed a b c t :
  Sorted near (a :: b :: c :: t) -> Forall (small signed) (a :: b :: c :: t) ->
  tryDelta signed (map (rawv signed) (a :: b :: c :: t)) = Some (b - a, gaps b (c :: t)) /\
  getRepeats (map (rawv signed) (a :: b :: c :: t)) = 1%nat.
Proof.
  intros Hs Hv. pose proof Hs as Hs0.
  apply Sorted_inv in Hs. destruct Hs as [Hs1 Hab]. apply HdRel_inv in Hab. unfold near in Hab.
  pose proof Hs1 as Hs2. apply Sorted_inv in Hs2. destruct Hs2 as [Hs3 Hbc]. apply HdRel_inv in Hbc.
  unfold near in Hbc.
  inversion Hv as [|? ? Ha Hv1]; subst. inversion Hv1 as [|? ? Hb Hv2]; subst.
  inversion Hv2 as [|? ? Hc Hv3]; subst.
  destruct (small_raw _ _ Ha) as (Hia & Hua & _ & Ha1 & Ha2).
  destruct (small_raw _ _ Hb) as (Hib & Hub & _ & Hb1 & Hb2).
  destruct (small_raw _ _ Hc) as (Hic & Huc & _ & Hc1 & Hc2).
  assert (Hne : rawv signed a <> rawv signed b).
  { destruct signed.
    - intros E. apply (f_equal UnZigzag) in E. rewrite Ha1, Hb1 in E by reflexivity. lia.
    - rewrite Ha2, Hb2 by reflexivity. lia. }
  assert (Hmd : forall base, 0 <= base ->
    moreDeltas signed base (rawv signed c) (map (rawv signed) t) = gaps c t).
  { intros base H0. apply moreDeltas_near; assumption. }
  split.
  - cbn [map tryDelta gaps]. destruct (Z.eqb_spec (rawv signed a) (rawv signed b)); [contradiction|].
    destruct signed.
    + rewrite Ha1, Hb1, Hc1 by reflexivity. rewrite i64_id by (unfold is_i64; lia).
      destruct (Z.ltb_spec 0 (b - a)); [|lia]. destruct (Z.leb_spec b c); [|lia].
      rewrite u64_id by (unfold is_u64; lia). rewrite Hmd by lia. reflexivity.
    + rewrite Ha2, Hb2, Hc2 in * by reflexivity. destruct (Z.ltb_spec a b); [|lia].
      rewrite (u64_id (b - a)) by (unfold is_u64; lia). rewrite i64_id by (unfold is_i64; lia).
      destruct (Z.ltb_spec 0 (b - a)); [|lia]. destruct (Z.leb_spec b c); [|lia].
      rewrite u64_id by (unfold is_u64; lia). rewrite Hmd by lia. reflexivity.
  - cbn [map getRepeats leadingEq]. destruct (Z.eqb_spec (rawv signed b) (rawv signed a)); [congruence|reflexivity].
Qed.

Lemma step_near signed toEnd a b c t : (length t <= 509)%nat ->
  Sorted near (a :: b :: c :: t) -> Forall (small signed) (a :: b :: c :: t) ->
  step_ok signed toEnd (map (rawv signed) (a :: b :: c :: t)) = true.
Proof.
  intros Hl Hs Hv. destruct (tryDelta_near signed a b c t Hs Hv) as [Htd Hr].
  unfold step_ok. rewrite Hr. change (3 <=? 1)%nat with false. cbv iota. rewrite Htd.
  apply andb_true_intro. split.
  - unfold delta_ok. cbn [map hd].
    inversion Hv as [|? ? Ha Hv1]; subst. destruct (small_raw _ _ Ha) as (_ & _ & Ha56 & _).
    pose proof Hs as Hs0. apply Sorted_inv in Hs. destruct Hs as [Hs1 Hab].
    apply HdRel_inv in Hab. unfold near in Hab.
    pose proof (gaps_near (c :: t) b Hs1) as Hg.
    repeat (apply andb_true_intro; split).
    + apply Z.ltb_lt. apply Ha56.
    + rewrite Zigzag_spec by (unfold is_i64; lia). destruct (Z.ltb_spec (b - a) 0); [lia|].
      apply Z.ltb_lt. change (2 ^ 56) with 72057594037927936. lia.
    + apply Z.leb_le. unfold zlen. rewrite length_gaps. cbn [length]. lia.
    + cbn [gaps existsb]. inversion Hg; subst. apply orb_true_intro. left.
      apply negb_true_iff, Z.eqb_neq. lia.
    + apply orb_true_intro. left. apply negb_true_iff. apply not_true_iff_false. intros E.
      apply existsb_exists in E. destruct E as (d & Hd & E). rewrite Forall_forall in Hg.
      specialize (Hg d Hd). unfold twelve in E. lia.
  - rewrite skipn_all2; [|rewrite map_length, length_gaps; cbn [length]; lia].
    cbn [nonempty negb orb]. destruct toEnd; reflexivity.
Qed.

Lemma increasing_ok signed e vs : i_signed e = signed -> i_values e = [] ->
  Sorted near vs -> Forall (small signed) vs -> stream_ok e vs = true.
Proof.
  intros Hs He Hsorted Hsmall.
  apply (blocks_ok signed (fun l => exists vs, l = map (rawv signed) vs /\ Sorted near vs /\ Forall (small signed) vs)).
  - intros l (ws & -> & _ & H). apply Forall_map. eapply Forall_impl; [|exact H].
    intros a Ha. apply small_raw. exact Ha.
  - intros a b (ws & H & Hso & Hsm). symmetry in H. apply map_eq_app in H.
    destruct H as (l1 & l2 & -> & <- & <-).
    apply Sorted_app in Hso. apply Forall_app in Hsm. destruct Hso, Hsm.
    split; eexists; split; [reflexivity| |reflexivity|]; split; assumption.
  - intros l (ws & -> & Hso & Hsm) Hl. rewrite map_length in Hl.
    destruct ws as [|a [|b [|c t]]]; try discriminate. cbn [length] in Hl.
    split; [apply step_near; [lia|assumption|assumption]|]. right.
    destruct (tryDelta_near signed a b c t Hso Hsm) as [Htd Hr]. rewrite Hr. split; [lia|].
    eexists. eexists. split; [exact Htd|]. rewrite length_gaps. cbn [length]. lia.
  - intros l (ws & -> & Hso & Hsm) Hne Hl. unfold write_ok. rewrite map_length in *.
    destruct (Nat.leb_spec (length ws) 3).
    + unfold direct_ok, zlen. rewrite map_length. apply andb_true_intro. split; [apply Z.leb_le; lia|].
      destruct ws as [|a t]; [exfalso; apply Hne; reflexivity|]. cbn [map existsb].
      inversion Hsm as [|? ? Ha _]; subst. destruct (small_raw _ _ Ha) as (_ & _ & H0 & _).
      apply orb_true_intro. left. apply negb_true_iff, Z.eqb_neq. lia.
    + destruct ws as [|a [|b [|c t]]]; cbn [length] in *; try lia.
      change (map (rawv signed) (a :: b :: c :: t)) with
        (rawv signed a :: map (rawv signed) (b :: c :: t)) at 1. cbn [end_ok].
      change (rawv signed a :: map (rawv signed) (b :: c :: t)) with (map (rawv signed) (a :: b :: c :: t)).
      destruct (tryDelta_near signed a b c t Hso Hsm) as [_ Hr]. rewrite Hr.
      change (3 <=? 1)%nat with false. cbv iota. rewrite step_near by (assumption || lia). reflexivity.
  - exact Hs.
  - rewrite He. cbn. lia.
  - rewrite He. exists vs. auto.
Qed.

Lemma int_increasing (signed : bool) p (vs : list Z) :
  Sorted (fun a b => 0 < b - a < 2048) vs ->
  Forall (fun v => 0 < v < (if signed then 2 ^ 55 else 2 ^ 56)) vs ->
  exists e o, segment int_Encode int_Flush (NewIntRLV2 signed p) vs = Ok (e, o) /\
    decode_all (DecodeFor signed) o = Ok vs.
Proof.
  intros Hs Hv. destruct (int_lossless signed p vs) as (e & o & H1 & _ & H2).
  - eapply Forall_impl; [|exact Hv]. intros a Ha. apply small_raw. exact Ha.
  - apply (increasing_ok signed); auto.
  - eauto.
Qed.

(** ** Single runs, as the writer produces them *)

Definition deltaRun (signed : bool) (values : list Z) (base : Z) (ds : list Z) : res (list Z) :=
  let! first := putFirst signed (hd 0 values) in
  writeDelta first base (2 + zlen ds) ds.

Lemma putFirst_room signed v : is_u64 v -> (exists o, putFirst signed v = Ok o) -> v < 2 ^ 56.
Proof.
  intros Hv [o Ho]. unfold putFirst in Ho. destruct signed.
  - pose proof (UnZigzag_range v Hv) as Hr.
    destruct (PutVarint_room 8 (UnZigzag v) Hr) as [H _]. rewrite Zigzag_UnZigzag in H by exact Hv.
    apply H. exists o. exact Ho.
  - destruct (PutUvarint_room 8 v ltac:(apply Hv)) as [H _]. apply H. exists o. exact Ho.
Qed.

Lemma delta_run signed values base ds : Forall is_u64 values -> tryDelta signed values = Some (base, ds) ->
  zlen ds <= 510 ->
  (delta_ok (hd 0 values) base ds = true <-> exists o, deltaRun signed values base ds = Ok o) /\
  (forall o, deltaRun signed values base ds = Ok o ->
     bytes o /\ run (decode signed) o = Ok (firstn (2 + length ds) values, [])).
Proof.
  intros Hu Htd Hlen.
  destruct (tryDelta_spec signed values base ds Hu Htd) as (a & b & rest & Hval & Hbi & Hb0 & Hdu & Hdne & Hsec).
  assert (Ha : is_u64 a) by (rewrite Hval in Hu; inversion Hu; assumption).
  assert (Hhd : hd 0 values = a) by (rewrite Hval; reflexivity).
  assert (Hpos : 1 <= zlen ds) by (destruct ds; [congruence|unfold zlen; cbn [length]; lia]).
  assert (Hfirst : firstn (2 + length ds) values = a :: b :: undelta signed base b ds).
  { rewrite Hval. cbn [Nat.add firstn]. f_equal. f_equal.
    rewrite firstn_app, length_undelta, Nat.sub_diag, firstn_O, app_nil_r.
    rewrite <- (length_undelta signed base ds b) at 1. apply firstn_all. }
  destruct (maxWidth_cases ds Hdu) as [Hc0 Hc12].
  assert (Hgood : delta_ok a base ds = true -> exists o, deltaRun signed values base ds = Ok o /\ bytes o /\
     run (decode signed) o = Ok (firstn (2 + length ds) values, [])).
  { intros Hd. unfold delta_ok in Hd. apply andb_prop in Hd. destruct Hd as [Hd Hd5].
    apply andb_prop in Hd. destruct Hd as [Hd Hd4]. apply andb_prop in Hd. destruct Hd as [Hd Hd3].
    apply andb_prop in Hd. destruct Hd as [Hd1 Hd2]. apply Z.ltb_lt in Hd1, Hd2.
    destruct (putFirst_ok signed a Ha Hd1) as (first & Hf & Hfb & _).
    destruct (writeDelta_spec signed a first base ds Ha Hf Hfb Hbi Hd2 Hdu ltac:(lia)) as (o & Ho & Hb & _ & Hrun).
    { apply Hc0. exact Hd4. }
    { apply Hc12. exact Hd5. }
    exists o. unfold deltaRun. rewrite Hhd, Hf. cbn [rbind]. split; [exact Ho|]. split; [exact Hb|].
    rewrite Hfirst, Hrun, Hsec. reflexivity. }
  assert (Hback : forall o, deltaRun signed values base ds = Ok o -> delta_ok a base ds = true).
  { intros o Ho. unfold deltaRun in Ho. rewrite Hhd in Ho. apply rbind_inv in Ho. destruct Ho as (first & Hf & Ho).
    unfold writeDelta in Ho. apply rbind_inv in Ho. destruct Ho as (ew & _ & Ho). cbv zeta in Ho.
    apply rbind_inv in Ho. destruct Ho as (db & Hdb & Ho). apply rbind_inv in Ho. destruct Ho as (pk & Hpk & _).
    assert (H1 : a < 2 ^ 56) by (apply (putFirst_room signed); [exact Ha|exists first; exact Hf]).
    assert (H2 : Zigzag base < 2 ^ 56) by (destruct (PutVarint_room 8 base Hbi) as [H _]; apply H; exists db; exact Hdb).
    set (w := maxWidth getAlignedWidth ds) in *.
    assert (Hw : w <> 0 /\ w <> 12).
    { unfold packDeltas in Hpk. destruct ds as [|d ds']; [congruence|].
      clearbody w. split; intros ->; discriminate. }
    destruct Hw as [Hw0 Hw12]. unfold delta_ok. rewrite (proj1 Hc0 Hw0), (proj1 Hc12 Hw12).
    rewrite (proj2 (Z.ltb_lt _ _) H1), (proj2 (Z.ltb_lt _ _) H2), (proj2 (Z.leb_le _ _) Hlen). reflexivity. }
  rewrite Hhd. split.
  - split; [intros H; destruct (Hgood H) as (o & Ho & _); exists o; exact Ho|].
    intros [o Ho]. eapply Hback. exact Ho.
  - intros o Ho. destruct (Hgood (Hback o Ho)) as (o' & Ho' & Hr).
    assert (o' = o) by congruence. subst o'. exact Hr.
Qed.

Lemma patch_run values p o : Forall is_u64 values -> tryPatch values = Ok (Some p) ->
  writePatch p = Ok o -> patch_ok values p = true ->
  bytes o /\ run DecodeInt o = Ok (map UnZigzag values, []).
Proof.
  intros Hu Htry Hwr Hok. unfold patch_ok in Hok.
  apply andb_prop in Hok. destruct Hok as [Hok _]. apply andb_prop in Hok. destruct Hok as [Hok H5].
  apply andb_prop in Hok. destruct Hok as [Hok H4]. apply andb_prop in Hok. destruct Hok as [Hok H3].
  apply andb_prop in Hok. destruct Hok as [H1 H2].
  apply Nat.leb_le in H1. apply Z.leb_le in H2. apply Z.ltb_lt in H4, H5.
  assert (Hpgw : 1 <= maxWidth getBitsWidth (p_gaps p)).
  { apply existsb_exists in H3. destruct H3 as (g & Hg & Hg0). apply negb_true_iff, Z.eqb_neq in Hg0.
    destruct (tryPatch_spec values p Hu Htry) as (ds & _ & Hdu & _ & Hspl & _ & Hgt & _).
    destruct (Z.lt_ge_cases (p_width p) 63) as [Hw|Hw].
    - destruct (split_spec (p_width p) ltac:(lia) ds 0 0 _ _ _ Hdu Hspl ltac:(lia)) as (_ & Hgs & _).
      rewrite Forall_forall in Hgs. specialize (Hgs g Hg).
      assert (Hgu : is_u64 g) by (unfold is_u64; lia).
      pose proof (maxWidth_ge getBitsWidth _ g Hg).
      destruct (getBitsWidth_spec g Hgu) as (Hb1 & _ & _ & Hb4).
      destruct (Z.eq_dec (getBitsWidth g) 0) as [E|]; [apply Hb4 in E; congruence|lia].
    - exfalso. unfold writePatch in Hwr. apply rbind_inv in Hwr. destruct Hwr as (ew & Hew & _).
      pose proof (maxWidth_64 ds Hdu). replace (p_width p) with 63 in Hew by lia. discriminate. }
  destruct (writePatch_spec values p o Hu H1 Htry Hwr H2 Hpgw H4 H5) as (_ & Hb & _ & Hr).
  split; [exact Hb|]. unfold DecodeInt. rewrite run_bind, Hr. reflexivity.
Qed.
