(** Short unsigned streams whose neighbours are different and close (C12, C39). *)
From Coq Require Import Sorting.Sorted.
From Verif.Model Require Import Codec IntRle.
From Verif.Spec Require Import Bits Session IntSpec.
From Verif.Proofs Require Import Base CodecP SessionP IntStreamP IntClaimsP SizeP.

Definition apart (a b : Z) : Prop := a <> b /\ Z.abs (b - a) < 2048.
Definition low (v : Z) : Prop := 0 < v < 2 ^ 56.

Lemma more_apart base l : forall prev, Sorted apart (prev :: l) -> Forall low (prev :: l) ->
  Forall (fun d => 0 < d < 2048) (moreDeltas false base prev l).
Proof.
  induction l as [|x t IH]; intros prev Hs Hl; cbn [moreDeltas]; [constructor|].
  apply Sorted_inv in Hs. destruct Hs as [Hs1 Hs2]. apply HdRel_inv in Hs2. unfold apart in Hs2.
  inversion Hl as [|? ? Hp Hl']; subst. inversion Hl' as [|? ? Hx _]; subst. unfold low in Hp, Hx.
  change (2 ^ 56) with 72057594037927936 in *.
  destruct (0 <=? base).
  - destruct (Z.leb_spec prev x); [|constructor]. rewrite u64_id by (unfold is_u64; lia).
    constructor; [lia|apply IH; assumption].
  - destruct (Z.ltb_spec x prev); [|constructor]. rewrite u64_id by (unfold is_u64; lia).
    constructor; [lia|apply IH; assumption].
Qed.
Lemma try_apart l base ds : Sorted apart l -> Forall low l -> tryDelta false l = Some (base, ds) ->
  Forall (fun d => 0 < d < 2048) ds /\ ds <> [] /\ Z.abs base < 2048.
Proof.
  destruct l as [|a [|b [|c t]]]; try discriminate. intros Hs Hl H.
  apply Sorted_inv in Hs. destruct Hs as [Hs1 Hab]. apply HdRel_inv in Hab. unfold apart in Hab.
  pose proof Hs1 as Hs2. apply Sorted_inv in Hs2. destruct Hs2 as [Hs3 Hbc]. apply HdRel_inv in Hbc. unfold apart in Hbc.
  inversion Hl as [|? ? Ha Hl1]; subst. inversion Hl1 as [|? ? Hb Hl2]; subst. inversion Hl2 as [|? ? Hc _]; subst.
  unfold low in Ha, Hb, Hc. change (2 ^ 56) with 72057594037927936 in *.
  cbn [tryDelta] in H. destruct (Z.eqb_spec a b); [discriminate|].
  set (bs := if a <? b then _ else _) in H.
  assert (Hbs : bs = b - a).
  { unfold bs. destruct (Z.ltb_spec a b).
    - rewrite u64_id by (unfold is_u64; lia). apply i64_id. unfold is_i64. lia.
    - rewrite u64_id by (unfold is_u64; lia). rewrite (i64_id (a - b)) by (unfold is_i64; lia).
      rewrite i64_id by (unfold is_i64; lia). lia. }
  assert (G : forall d, 0 < d < 2048 -> Some (bs, d :: moreDeltas false bs c t) = Some (base, ds) ->
    Forall (fun d => 0 < d < 2048) ds /\ ds <> [] /\ Z.abs base < 2048).
  { intros d Hd E. assert (ds = d :: moreDeltas false bs c t) as -> by congruence.
    assert (base = bs) as -> by congruence. split; [|split; [discriminate|lia]].
    constructor; [exact Hd|]. apply more_apart; assumption. }
  destruct (0 <? bs).
  - destruct (Z.leb_spec b c); [|discriminate]. rewrite u64_id in H by (unfold is_u64; lia).
    eapply G; [|exact H]. lia.
  - destruct (Z.ltb_spec c b); [|discriminate]. rewrite u64_id in H by (unfold is_u64; lia).
    eapply G; [|exact H]. lia.
Qed.
Lemma direct_low l : Forall low l -> l <> [] -> (length l <= 512)%nat -> direct_ok l = true.
Proof.
  intros Hl Hne Hn. unfold direct_ok. apply andb_true_intro. split; [apply Z.leb_le; unfold zlen; lia|].
  destruct l as [|a t]; [congruence|]. inversion Hl as [|? ? Ha _]; subst. unfold low in Ha.
  cbn [existsb]. apply orb_true_intro. left. apply negb_true_iff, Z.eqb_neq. lia.
Qed.
Lemma repeats_apart l : Sorted apart l -> (getRepeats l <= 1)%nat.
Proof.
  intros H. destruct l as [|a [|b t]]; cbn [getRepeats leadingEq]; [lia|lia|].
  apply Sorted_inv in H. destruct H as [_ H]. apply HdRel_inv in H. unfold apart in H.
  destruct (Z.eqb_spec b a); [lia|lia].
Qed.
Lemma low_skipn n l : Forall low l -> Forall low (skipn n l).
Proof. rewrite !Forall_forall. intros H x Hx. apply H. rewrite <- (firstn_skipn n l). apply in_or_app. auto. Qed.
Lemma step_apart toEnd l : Sorted apart l -> Forall low l -> l <> [] -> (length l <= 512)%nat ->
  step_ok false toEnd l = true.
Proof.
  intros Hs Hl Hne Hn. unfold step_ok. cbv zeta. pose proof (repeats_apart l Hs).
  destruct (Nat.leb_spec 3 (getRepeats l)); [lia|].
  destruct (tryDelta false l) as [[base ds]|] eqn:E.
  - pose proof (tryDelta_le _ _ _ _ E) as Hle. destruct (try_apart l base ds Hs Hl E) as (Hd & Hdne & Hb).
    apply andb_true_intro. split.
    + unfold delta_ok. repeat (apply andb_true_intro; split).
      * apply Z.ltb_lt. destruct l as [|a t]; [congruence|]. inversion Hl as [|? ? Ha _]; subst. apply Ha.
      * apply Z.ltb_lt. rewrite Zigzag_spec by (unfold is_i64; lia). change (2 ^ 56) with 72057594037927936.
        destruct (base <? 0); lia.
      * apply Z.leb_le. unfold zlen. lia.
      * destruct ds as [|d ds]; [congruence|]. inversion Hd as [|? ? Hd1 _]; subst. cbn [existsb].
        apply orb_true_intro. left. apply negb_true_iff, Z.eqb_neq. lia.
      * apply orb_true_intro. left. apply negb_true_iff. apply not_true_iff_false. intros Ex.
        apply existsb_exists in Ex. destruct Ex as (d & Hin & Ex). rewrite Forall_forall in Hd.
        specialize (Hd d Hin). unfold twelve in Ex. lia.
    + destruct toEnd; [|reflexivity]. cbn [negb orb].
      destruct (skipn (2 + length ds) l) as [|x r] eqn:Er; [reflexivity|]. cbn [nonempty negb orb].
      rewrite <- Er. apply direct_low; [apply low_skipn; exact Hl|rewrite Er; discriminate|].
      rewrite skipn_length. lia.
  - destruct toEnd; [|reflexivity]. cbn [negb orb]. apply direct_low; assumption.
Qed.
Lemma write_apart toEnd l : Sorted apart l -> Forall low l -> l <> [] -> (length l <= 512)%nat ->
  write_ok false toEnd l = true.
Proof.
  intros Hs Hl Hne Hn. unfold write_ok. destruct (length l <=? 3)%nat; [apply direct_low; assumption|].
  destruct toEnd; [|apply step_apart; assumption].
  destruct l as [|a t] eqn:E; [congruence|]. rewrite <- E in *.
  assert (En : length l = S (length t)) by (rewrite E; reflexivity). rewrite En.
  cbn [end_ok]. rewrite E. rewrite <- E. rewrite step_apart by assumption.
  pose proof (repeats_apart l Hs). destruct (Nat.leb_spec 3 (getRepeats l)); [lia|reflexivity].
Qed.
Lemma low_u64 l : Forall low l -> Forall is_u64 l.
Proof. apply Forall_impl. unfold low, is_u64. change (2 ^ 56) with 72057594037927936. lia. Qed.

Lemma apart_ok vs : forall e, i_signed e = false -> Sorted apart (i_values e ++ vs) ->
  Forall low (i_values e ++ vs) -> (length (i_values e ++ vs) <= 512)%nat -> stream_ok e vs = true.
Proof.
  induction vs as [|v t IH]; intros e Hsg Hs Hl Hn; cbn [stream_ok].
  - rewrite app_nil_r in *. destruct (i_values e) as [|a r] eqn:E; [reflexivity|].
    cbn [nonempty negb orb]. rewrite Hsg. apply write_apart; auto. discriminate.
  - rewrite Hsg. set (buf := i_values e ++ [v]).
    assert (Eb : i_values e ++ v :: t = buf ++ t) by (unfold buf; rewrite <- app_assoc; reflexivity).
    rewrite Eb in *. rewrite app_length in Hn.
    assert (Hbs : Sorted apart buf) by (apply Sorted_app in Hs; apply Hs).
    assert (Hbl : Forall low buf) by (apply Forall_app in Hl; apply Hl).
    assert (Hbne : buf <> []) by (unfold buf; destruct (i_values e); discriminate).
    assert (Hw : write_ok false false buf = true) by (apply write_apart; auto; lia).
    apply andb_true_intro. split; [apply orb_true_intro; right; exact Hw|].
    unfold int_Encode. rewrite Hsg. fold buf. unfold MaxIntRunLength.
    destruct (Z.leb_spec 512 (zlen buf)) as [H512|H512].
    + assert (t = []) as -> by (destruct t; [reflexivity|]; unfold zlen in H512; cbn [length] in Hn; lia).
      destruct (write_spec false false buf Hbne (low_u64 _ Hbl) Hw) as (vs' & o & done & Ew & _ & Ed & _).
      rewrite Ew. cbn [rbind]. rewrite Ed in Hbs, Hbl, Hn. rewrite app_length in Hn.
      apply Sorted_app in Hbs. apply Forall_app in Hbl.
      apply IH; cbn [i_values i_signed]; [reflexivity| | |]; rewrite app_nil_r; [apply Hbs|apply Hbl|lia].
    + cbn [rbind]. apply IH; cbn [i_values i_signed]; try assumption; [reflexivity|]. rewrite app_length. lia.
Qed.

Lemma int_apart p vs : Sorted apart vs -> Forall low vs -> (length vs <= 512)%nat ->
  exists e o, segment int_Encode int_Flush (NewIntRLV2 false p) vs = Ok (e, o) /\
    decode_all (DecodeFor false) o = Ok vs.
Proof.
  intros Hs Hl Hn. destruct (int_lossless false p vs) as (e & o & H1 & _ & H2).
  - exact (low_u64 _ Hl).
  - apply apart_ok; auto.
  - eauto.
Qed.
