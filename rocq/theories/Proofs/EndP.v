(** From a closed file to the rows a client gets. *)
From Coq Require Import ZifyBool ZifyNat.
From Verif.Model Require Import Go Codec ByteBool IntRle Chunk Stream Schema Rows Time File Column Wire Assembled.
From Verif.Spec Require Import Session StreamSpec ChunkSpec SchemaSpec RowsSpec FileSpec ColumnSpec AssemblySpec EndSpec.
From Verif.Proofs Require Import Base SchemaP ChunkP TailP RowsP ReadP ColumnP ColumnReadP BatchP.

(** ** The batch reader follows the abstract one of Rows.v *)
Section Follow.
Variable inflate : list Z -> res (list Z).
Variable o : opts.
Variable hn : list bool.
Variable b : batchOption.
Variable t : td.
Variable c : Z.
Hypothesis Hc : 0 < c.
Hypothesis Hinc : IsInclude b (td_id t) = true.
Hypothesis Hfl : flagged hn t.
Notation stripeNext := (stripeNext inflate o hn).
Notation readLoop := (readLoop inflate o hn).
Notation readNext := (readNext inflate o hn).
Notation fit := (fun v => fits b c false t v /\ Cap v = c).
Notation holds := (holds b).

Definition SimS (s : stripeRd) (s' : stripeR (row value)) : Prop :=
  sr_rows s = zlen (s_rows s') /\ sr_cursor s = s_cursor s' /\ s_pos s' = s_cursor s' /\
  0 <= s_cursor s' <= zlen (s_rows s') /\ zlen (s_rows s') < 2 ^ 62 /\ onceEach b (s_rows s') None t /\
  exists tr, sr_tree s = Some tr /\ gives inflate o b (zdrop (s_pos s') (s_rows s')) None t tr.

Lemma onceEach_drop n rows par : onceEach b rows par t -> onceEach b (zdrop n rows) par t.
Proof. intros H. eapply Forall_impl; [|exact H]. intros x Hx. apply single_skip. exact Hx. Qed.

Lemma stripe_sim s s' v : SimS s s' -> fit v -> Len v = 0 ->
  exists s1 s1' v1 rows e, stripeNext s v = Ok (s1, v1, e) /\ stripe_next c s' [] = Ok (s1', rows, e) /\
    SimS s1 s1' /\ fit v1 /\ holds rows t v1 /\ Len v1 = zlen rows /\ (e = false -> zlen rows = c).
Proof.
  intros (H1 & H2 & H3 & H4 & H5 & H6 & tr & H7 & H8) [Hf Hcap] Hlen.
  change (2 ^ 62) with 4611686018427387904 in *.
  unfold Assembled.stripeNext, stripe_next. rewrite Hcap. rewrite Hlen. rewrite H1. rewrite H2. rewrite H7. change (zlen (@nil (row value))) with 0. rewrite Z.sub_0_r.
  set (rows := s_rows s') in *. set (cur := s_cursor s') in *.
  assert (Hleft : i64 (u64 (zlen rows - cur)) = zlen rows - cur).
  { rewrite u64_id by (unfold is_u64; lia). apply i64_id. unfold is_i64. lia. }
  rewrite Hleft. set (page := if zlen rows - cur <? c then zlen rows - cur else c).
  assert (Hpage : 0 <= page <= c /\ cur + page <= zlen rows /\ (page < c -> page = zlen rows - cur)).
  { unfold page. destruct (Z.ltb_spec (zlen rows - cur) c); lia. }
  clearbody page. destruct Hpage as (Hp1 & Hp2 & Hp3).
  assert (Hzd : zlen (zdrop cur rows) = zlen rows - cur) by (apply zlen_zdrop; lia).
  rewrite H3 in *.
  destruct (batch_step inflate o b hn c (zdrop cur rows) t tr v page Hinc Hfl Hf H8 Hp1 ltac:(lia) (onceEach_drop _ _ _ H6))
    as (v1 & x & tr' & E1 & E2 & E3 & E4 & E5).
  rewrite E1. cbn [rbind]. rewrite E2. cbn [rbind].
  destruct (Z.ltb_spec page 0); [lia|]. destruct (Z.leb_spec (cur + page) (zlen rows)); [|lia].
  assert (Hzt : zlen (ztake page (zdrop cur rows)) = page) by (apply zlen_ztake; lia).
  assert (Ecap : Cap (put v1 x) = c) by (rewrite <- Hcap; eapply Cap_same; eassumption).
  assert (Elen : Len (put v1 x) = page) by (rewrite <- Hzt; eapply Len_holds; [exact E4|exact E5|lia]).
  do 5 eexists. split; [reflexivity|]. rewrite Elen, Hzt. split; [reflexivity|].
  assert (Hu : u64 (cur + page) = cur + page) by (apply u64_id; unfold is_u64; lia).
  split; [|split; [|split; [|split]]].
  - unfold SimS. cbn [sr_rows sr_cursor sr_tree s_rows s_cursor s_pos]. rewrite Hu. change (2 ^ 62) with 4611686018427387904.
    split; [reflexivity|]. split; [reflexivity|]. split; [reflexivity|]. split; [lia|]. split; [exact H5|]. split; [exact H6|].
    exists tr'. split; [reflexivity|]. rewrite <- zdrop_zdrop by lia. exact E3.
  - split; assumption.
  - exact E5.
  - congruence.
  - rewrite ?Hzt, Hu, u64_id by (unfold is_u64; lia). intros He. apply Z.leb_gt in He. destruct (Z.eq_dec page c); [assumption|]. lia.
Qed.

Lemma Clear_holds u : forall par v, fits b c par u v -> holds [] u (Clear v).
Proof.
  induction u as [id k ns e h cs IH] using td_rect'. intros par v Hf.
  inversion Hf as [? ? ? ? ? ? a rest Hk Hcc Hnull|? ? ? ? ? ? s vs Hs Hp Hvs]; subst; cbn [Clear clearVals map].
  - constructor; auto.
  - constructor.
    + destruct h; [destruct Hs as (a & rest & -> & _); cbn [clearVals]; eexists _, _; auto|subst s; reflexivity].
    + apply (kept_Forall b) in IH. clear - Hvs IH. induction Hvs as [|u v us vs Hv Hvs IHv]; [constructor|].
      inversion IH; subst. cbn [map]. constructor; eauto.
Qed.

Definition SimW (x : batchRd) (y : batchR (row value)) : Prop :=
  Forall2 SimS (br_stripes x) (b_stripes y) /\ br_index x = b_index y /\ br_total x = b_total y /\ br_cursor x = b_cursor y.
Definition SimB (x : batchRd) (y : batchR (row value)) : Prop := SimW x y /\ (br_index x < length (br_stripes x))%nat.
Lemma SimW_opened x l : SimW x (opened l) -> l <> [] -> SimB x (opened l).
Proof.
  intros H Hl. split; [exact H|]. destruct H as (H & -> & _). cbn [opened b_stripes b_index] in *. destruct l as [|a l]; [congruence|]. inversion H. cbn [length]. apply Nat.lt_0_succ.
Qed.
Lemma Forall2_nth {A B} (R : A -> B -> Prop) l m : Forall2 R l m -> forall i,
  match nth_error l i, nth_error m i with Some x, Some y => R x y | None, None => True | _, _ => False end.
Proof. intros H. induction H as [|x y l m Hx Hl IH]; intros [|i]; cbn; auto. apply IH. Qed.
Lemma Forall2_set {A B} (R : A -> B -> Prop) l m : Forall2 R l m -> forall i x y, R x y -> Forall2 R (set_nth l i x) (set_nth m i y).
Proof. intros H. induction H as [|x y l m Hx Hl IH]; intros [|i] x' y' Hr; cbn; constructor; auto. Qed.
Lemma Forall2_len {A B} (R : A -> B -> Prop) l m : Forall2 R l m -> length l = length m.
Proof. intros H. induction H; cbn; auto. Qed.

Lemma set_nth_length {A} (l : list A) : forall i x, length (set_nth l i x) = length l.
Proof. induction l as [|y l IH]; intros [|i] x; cbn; auto. Qed.
Lemma stepBack_lt i n : (i < n \/ i = n /\ n <> 0)%nat -> (stepBack i n < n)%nat.
Proof. intros H. unfold stepBack. destruct (Nat.eqb_spec i n) as [->|]; [destruct n|]; lia. Qed.
Lemma next_sim x y v : SimB x y -> fit v ->
  exists x1 y1 v1 rows e, readNext x v = Ok (x1, v1, e) /\ Next c y = Ok (y1, rows, e) /\
    SimB x1 y1 /\ fit v1 /\ holds rows t v1.
Proof.
  intros ((Hs & Hi & Ht & Hcu) & Hlt) [Hf Hcap]. destruct (Clear_fits b c t false v Hf) as [Hf0 Hl0].
  assert (Hcap0 : Cap (Clear v) = c) by (rewrite Clear_Cap; exact Hcap).
  unfold Assembled.readNext, Next. rewrite <- Ht, <- Hcu, <- Hi.
  destruct (u64 (br_total x - 1) <=? br_cursor x).
  { do 5 eexists. split; [reflexivity|]. split; [reflexivity|]. split; [split; [split; auto|exact Hlt]|]. split; [split; assumption|]. eapply Clear_holds. exact Hf. }
  cbn [Assembled.readLoop nextLoop].
  pose proof (Forall2_nth _ _ _ Hs (br_index x)) as Hn. pose proof (Forall2_len _ _ _ Hs) as Hlen.
  destruct (nth_error (br_stripes x) (br_index x)) as [s|] eqn:E1; destruct (nth_error (b_stripes y) (br_index x)) as [s'|] eqn:E2; try contradiction.
  - destruct (stripe_sim s s' (Clear v) Hn (conj Hf0 Hcap0) Hl0) as (s1 & s1' & v1 & rows & e & H1 & H2 & H3 & H4 & H5 & H6 & H7).
    rewrite H1, H2. cbn [rbind].
    assert (Hsz : Forall2 SimS (set_nth (br_stripes x) (br_index x) s1) (set_nth (b_stripes y) (br_index x) s1')) by (apply Forall2_set; assumption).
    assert (Hl2 := Forall2_len _ _ _ Hsz).
    destruct H4 as [H4 H4c]. destruct e.
    + cbn [rbind]. rewrite <- Hl2, H6. do 5 eexists. split; [reflexivity|]. split; [reflexivity|].
      split; [split; [split; cbn; auto|cbn; apply stepBack_lt; rewrite set_nth_length; lia]|]. split; [split|]; assumption.
    + rewrite H4c, H6, (H7 eq_refl), Z.leb_refl. cbn [rbind]. rewrite <- Hl2, H6, (H7 eq_refl). do 5 eexists. split; [reflexivity|]. split; [reflexivity|].
      split; [split; [split; cbn; auto|cbn; apply stepBack_lt; rewrite set_nth_length; lia]|]. split; [split|]; assumption.
  - apply nth_error_None in E1. lia.
Qed.

Variable r : fileR colstats.
Hypothesis Hro : o = readerOpts r.
Hypothesis Hrh : hn = fr_hasNulls r.

Lemma iter_batches y out : Iter c y out -> forall x v, SimB x y -> fit v ->
  exists vs rss, Batches inflate r x v vs /\ Forall2 (fun rows w => holds rows t w) rss vs /\ out = concat rss.
Proof.
  intros H. induction H as [y y' rows Hn|y y' rows out Hn Hi IH]; intros x v Hs Hv.
  - destruct (next_sim x y v Hs Hv) as (x1 & y1 & v1 & rows1 & e & H1 & H2 & H3 & H4 & H5). rewrite Hn in H2.
    assert (rows1 = rows /\ e = true) as [-> ->] by (split; congruence).
    exists [v1], [rows]. split; [eapply BatchesEnd; unfold batchNext; rewrite <- Hro, <- Hrh; exact H1|].
    split; [constructor; [exact H5|constructor]|]. cbn. rewrite app_nil_r. reflexivity.
  - destruct (next_sim x y v Hs Hv) as (x1 & y1 & v1 & rows1 & e & H1 & H2 & H3 & H4 & H5). rewrite Hn in H2.
    assert (rows1 = rows /\ e = false /\ y1 = y') as (-> & -> & ->) by (repeat split; congruence).
    destruct (IH x1 v1 H3 H4) as (vs & rss & E1 & E2 & E3).
    exists (v1 :: vs), (rows :: rss). split; [eapply BatchesMore; [unfold batchNext; rewrite <- Hro, <- Hrh; exact H1|exact E1]|].
    split; [constructor; assumption|]. cbn. congruence.
Qed.
Lemma batches_iter x v vs : Batches inflate r x v vs -> forall y, SimB x y -> fit v ->
  exists rss, Iter c y (concat rss) /\ Forall2 (fun rows w => holds rows t w) rss vs.
Proof.
  intros H. induction H as [x v x' v' Hn|x v x' v' vs Hn Hb IH]; intros y Hs Hv;
    unfold batchNext in Hn; rewrite <- Hro, <- Hrh in Hn;
    destruct (next_sim x y v Hs Hv) as (x1 & y1 & v1 & rows1 & e & H1 & H2 & H3 & H4 & H5); rewrite Hn in H1.
  - assert (v1 = v' /\ e = true) as [-> ->] by (split; congruence).
    exists [rows1]. split; [cbn; rewrite app_nil_r; eapply IterEnd; exact H2|]. constructor; [exact H5|constructor].
  - assert (v1 = v' /\ e = false /\ x1 = x') as (-> & -> & ->) by (repeat split; congruence).
    destruct (IH y1 H3 H4) as (rss & E1 & E2). exists (rows1 :: rss). split; [cbn; eapply IterMore; eassumption|]. constructor; assumption.
Qed.
End Follow.
