(** Skipping rows and reading them. *)
From Coq Require Import ZifyBool ZifyNat.
From Verif.Model Require Import Go Codec ByteBool IntRle Chunk Stream Schema Rows Time File Column Wire Nested Tree Assembled.
From Verif.Spec Require Import Session StreamSpec ChunkSpec IntSpec ColumnSpec SeekSpec EndSpec.
From Verif.Proofs Require Import Base SchemaP ReadP ColumnP ColumnReadP TreeP BatchP StatsP SeekP.

Section Skip.
Variable inflate : list Z -> res (list Z).
Variable o : opts.
Notation nextValue := (nextValue inflate o).
Notation skipRows := (skipRows inflate o).
Notation NextBatch := (NextBatch inflate o).
Notation tree_NextBatch := (tree_NextBatch inflate o).

Definition after {A B} (r : res (A * B)) : res B := let! (_, c) := r in Ok c.

Lemma nextValue_after c g g' : accepts (cr_kind c) g -> accepts (cr_kind c) g' -> after (nextValue c g) = after (nextValue c g').
Proof.
  unfold after, Column.nextValue. destruct (cr_kind c); cbn [accepts]; intros H H'; try reflexivity.
  - destruct H as (t & ->), H' as (t' & ->). destruct (nextRun inflate o DecodeInt (cr_data c)) as [[x d]| |]; try reflexivity. cbn [rbind].
    destruct (nextSecond inflate o DecodeUInt (cr_second c)) as [[y s]| |]; reflexivity.
  - destruct H as (p & q & ->), H' as (p' & q' & ->). destruct (nextRaw inflate o DecodeVarInt64 (cr_data c)) as [[x d]| |]; try reflexivity. cbn [rbind].
    destruct (nextSecond inflate o DecodeInt (cr_second c)) as [[y s]| |]; reflexivity.
Qed.
Lemma skipOld_accepts k : accepts k (skipOld k).
Proof. destruct k; cbn; eauto. Qed.

Lemma nextRow_same c v x c' : nextRow inflate o c v = Ok (x, c') -> Same c c'.
Proof.
  intros H. assert (Hn : NextBatch c [v] = Ok ([x], c')) by (cbn [Column.NextBatch]; rewrite H; reflexivity).
  eapply NextBatch_base. exact Hn.
Qed.
Lemma Same_none c c' : Same c c' -> (cr_present c' = None <-> cr_present c = None).
Proof. intros [_ _ _ H _ _]. destruct (cr_present c), (cr_present c'); cbn in H; split; congruence. Qed.

(** One row. *)
Lemma skip_row c v : (cr_present c = None -> Null v = false) -> accepts (cr_kind c) (V v) ->
  skipRows 1 c = after (nextRow inflate o c v).
Proof.
  intros Hn Ha. cbn [Column.skipRows]. unfold nextRow, nextPresent.
  destruct (cr_present c) as [b|] eqn:Eb.
  - destruct (bool_Next inflate o b) as [[p b']| |]; try reflexivity. cbn [rbind]. destruct (negb p); [reflexivity|].
    pose proof (nextValue_after (setPresent b' c) (skipOld (cr_kind c)) (V v) (skipOld_accepts _) Ha) as E. unfold after in E |- *.
    destruct (nextValue (setPresent b' c) (skipOld (cr_kind c))) as [[g c2]| |], (nextValue (setPresent b' c) (V v)) as [[g' c3]| |]; cbn [rbind] in *; congruence.
  - rewrite (Hn eq_refl). cbn [rbind].
    pose proof (nextValue_after c (skipOld (cr_kind c)) (V v) (skipOld_accepts _) Ha) as E. unfold after in E |- *.
    destruct (nextValue c (skipOld (cr_kind c))) as [[g c2]| |], (nextValue c (V v)) as [[g' c3]| |]; cbn [rbind] in *; congruence.
Qed.
Lemma skipRows_S n c : skipRows (S n) c = let! c' := skipRows 1 c in skipRows n c'.
Proof.
  cbn [Column.skipRows]. destruct (nextPresent inflate o c false) as [[b c1]| |]; try reflexivity. cbn [rbind].
  destruct (if b then Ok c1 else _) as [c2| |]; reflexivity.
Qed.
Lemma skip_is_next vec : forall c,
  Forall (fun v => (cr_present c = None -> Null v = false) /\ accepts (cr_kind c) (V v)) vec ->
  skipRows (length vec) c = after (NextBatch c vec).
Proof.
  induction vec as [|v t IH]; intros c H; [reflexivity|]. inversion H as [|? ? [Hn Ha] Ht]; subst.
  cbn [length]. rewrite skipRows_S, (skip_row c v Hn Ha). cbn [Column.NextBatch]. unfold after.
  destruct (nextRow inflate o c v) as [[x c1]| |] eqn:E; try reflexivity. cbn [rbind]. rewrite (IH c1).
  - unfold after. destruct (NextBatch c1 t) as [[xs c2]| |]; reflexivity.
  - pose proof (nextRow_same _ _ _ _ E) as Hs. eapply Forall_impl; [|exact Ht]. cbv beta. intros w [H1 H2].
    rewrite (same_kind _ _ Hs). split; [|exact H2]. intros Hp. apply H1. apply (Same_none _ _ Hs). exact Hp.
Qed.
(** Without PRESENT stream only the rows flagged as not null are read. *)
Definition shown_rows (vec : list value) : nat := length (filter (fun v => negb (Null v)) vec).
Lemma skip_is_next_flags vec : forall c, cr_present c = None -> Forall (fun v => accepts (cr_kind c) (V v)) vec ->
  skipRows (shown_rows vec) c = after (NextBatch c vec).
Proof.
  induction vec as [|v t IH]; intros c Hc H; [reflexivity|]. inversion H as [|? ? Ha Ht]; subst.
  unfold shown_rows in *. cbn [filter]. destruct (Null v) eqn:En; cbn [negb].
  - rewrite (IH c Hc Ht). cbn [Column.NextBatch]. unfold nextRow, nextPresent. rewrite Hc, En. cbn [rbind]. unfold after.
    destruct (NextBatch c t) as [[xs c2]| |]; reflexivity.
  - cbn [length]. rewrite skipRows_S, (skip_row c v ltac:(auto) Ha). cbn [Column.NextBatch]. unfold after.
    destruct (nextRow inflate o c v) as [[x c1]| |] eqn:E; try reflexivity. cbn [rbind].
    pose proof (nextRow_same _ _ _ _ E) as Hs. rewrite (IH c1).
    + unfold after. destruct (NextBatch c1 t) as [[xs c2]| |]; reflexivity.
    + apply (Same_none _ _ Hs). exact Hc.
    + rewrite (same_kind _ _ Hs). exact Ht.
Qed.
Lemma after_ok {A B} (r : res (A * B)) c : after r = Ok c <-> exists x, r = Ok (x, c).
Proof. unfold after. destruct r as [[x c']| |]; cbn; split; try discriminate; [intros H|intros (y & H)|intros (y & H)|intros (y & H)]; try discriminate; [exists x; congruence|congruence]. Qed.

(** ** Trees *)
Notation skipL := (skipKids (tree_Skip1 inflate o)).
Lemma tree_Skip1_plain index kids : tree_Skip1 inflate o (CStruct None index kids) =
  let! kids' := skipL kids in Ok (CStruct None index kids').
Proof. apply tree_Skip1_struct. Qed.
Lemma tree_Skip1_null b index kids : tree_Skip1 inflate o (CStruct (Some b) index kids) =
  let! (p, b') := bool_Next inflate o b in let! kids' := (if p then skipL kids else Ok kids) in Ok (CStruct (Some b') index kids').
Proof. rewrite tree_Skip1_struct. destruct (bool_Next inflate o b) as [[p b']| |]; reflexivity. Qed.
Lemma skipL_ok ts : forall ts', skipL ts = Ok ts' <-> Forall2 (fun t t' => tree_Skip1 inflate o t = Ok t') ts ts'.
Proof.
  induction ts as [|t r IH]; intros ts'; cbn [skipKids].
  - split; [intros H; assert (ts' = []) as -> by congruence; constructor|intros H; inversion H; reflexivity].
  - destruct (tree_Skip1 inflate o t) as [t1| |] eqn:E; cbn [rbind]; [|split; [discriminate|intros H; inversion H; subst; congruence]..].
    destruct (skipL r) as [r1| |] eqn:Er; cbn [rbind].
    + split; [intros H; assert (ts' = t1 :: r1) as -> by congruence; constructor; [exact E|apply IH; reflexivity]|].
      intros H. inversion H as [|? t2 ? r2 H1 H2]; subst. apply IH in H2. congruence.
    + split; [discriminate|]. intros H. inversion H as [|? t2 ? r2 H1 H2]; subst. apply IH in H2. congruence.
    + split; [discriminate|]. intros H. inversion H as [|? t2 ? r2 H1 H2]; subst. apply IH in H2. congruence.
Qed.
Lemma Forall2_compose {A} (P Q R : A -> A -> Prop) l m n : (forall a b c, P a b -> Q b c -> R a c) ->
  Forall2 P l m -> Forall2 Q m n -> Forall2 R l n.
Proof. intros H Hp. revert n. induction Hp; intros n Hq; inversion Hq; subst; constructor; eauto. Qed.
Lemma Forall2_split {A} (P Q R : A -> A -> Prop) l n : (forall a c, R a c -> exists b, P a b /\ Q b c) ->
  Forall2 R l n -> exists m, Forall2 P l m /\ Forall2 Q m n.
Proof.
  intros H Hr. induction Hr as [|a c l n Hac Hr (m & Hp & Hq)]; [exists []; auto|].
  destruct (H _ _ Hac) as (b & Hb1 & Hb2). exists (b :: m). auto.
Qed.
Lemma Forall2_refl {A} (R : A -> A -> Prop) l : (forall a, R a a) -> Forall2 R l l.
Proof. intros H. induction l; auto. Qed.

Lemma treeSkip_plain n : forall index kids t', treeSkip inflate o n (CStruct None index kids) = Ok t' <->
  exists kids', t' = CStruct None index kids' /\ Forall2 (fun a b => treeSkip inflate o n a = Ok b) kids kids'.
Proof.
  induction n as [|n IH]; intros index kids t'; unfold treeSkip in *; cbn [times].
  - split.
    + intros H. exists kids. split; [congruence|]. apply Forall2_refl. reflexivity.
    + intros (kids' & -> & H). assert (kids' = kids) as ->; [|reflexivity].
      induction H; [reflexivity|]. f_equal; [congruence|assumption].
  - rewrite tree_Skip1_plain. split.
    + intros H. apply rbind_inv in H. destruct H as (t1 & H1 & H). apply rbind_inv in H1. destruct H1 as (k1 & H1 & E).
      assert (t1 = CStruct None index k1) as -> by congruence. apply IH in H. destruct H as (k2 & -> & H).
      exists k2. split; [reflexivity|]. apply skipL_ok in H1.
      eapply Forall2_compose; [|exact H1|exact H]. cbv beta. intros a b c Ha Hb. rewrite Ha. exact Hb.
    + intros (k2 & -> & H).
      destruct (Forall2_split (fun a b => tree_Skip1 inflate o a = Ok b) (fun a b => treeSkip inflate o n a = Ok b)
                  (fun a c => (let! t1 := tree_Skip1 inflate o a in treeSkip inflate o n t1) = Ok c) kids k2) as (k1 & H1 & H2).
      { intros a c Hac. apply rbind_inv in Hac. exact Hac. }
      { exact H. }
      apply skipL_ok in H1. rewrite H1. cbn [rbind]. apply IH. eauto.
Qed.

(** The PRESENT stream of a struct. *)
Fixpoint takeBits (n : nat) (b : boolReader) : res (list bool * boolReader) :=
  match n with
  | O => Ok ([], b)
  | S m => let! (p, b1) := bool_Next inflate o b in let! (ps, b2) := takeBits m b1 in Ok (p :: ps, b2)
  end.
Lemma readNulls_bits vec : forall b, after (readNulls inflate o b vec) = after (takeBits (length vec) b) /\
  forall out b', readNulls inflate o b vec = Ok (out, b') -> exists ps, takeBits (length vec) b = Ok (ps, b') /\ map Null out = map negb ps /\ length out = length vec.
Proof.
  induction vec as [|x r IH]; intros b; cbn [readNulls length takeBits].
  - split; [reflexivity|]. intros out b' H. exists []. assert (out = []) as -> by congruence. split; [congruence|]. split; reflexivity.
  - destruct (bool_Next inflate o b) as [[p b1]| |]; cbn [rbind]; [|split; [reflexivity|intros; discriminate]..].
    destruct (IH b1) as [H1 H2]. unfold after in H1 |- *.
    destruct (readNulls inflate o b1 r) as [[xs b2]| |]; destruct (takeBits (length r) b1) as [[ps b3]| |]; cbn [rbind] in *; try discriminate;
      try (split; [reflexivity|intros; discriminate]).
    assert (b3 = b2) as -> by congruence. split; [reflexivity|]. intros out b' H.
    destruct (H2 xs b2 eq_refl) as (ps' & E & Hm & Hl). assert (ps' = ps) as -> by congruence.
    exists (p :: ps). match type of H with Ok ?x = _ => assert (out = fst (match x with (a, b) => (a, b) end)) as Ho by (cbn [fst]; congruence) end.
    cbn [fst] in Ho. subst out. split; [congruence|]. cbn [map Null length]. rewrite Hm, Hl. auto.
Qed.
Definition trues (ps : list bool) : nat := length (filter (fun p => p) ps).

Definition plain_leaf (t : ctree) : Prop := exists c, t = CLeaf c /\ cr_present c = None.
Definition leafSkips (n : nat) (t t' : ctree) : Prop :=
  exists c c', t = CLeaf c /\ t' = CLeaf c' /\ skipRows n c = Ok c'.
Lemma leafSkips_plain n t t' : leafSkips n t t' -> plain_leaf t -> plain_leaf t'.
Proof.
  intros (c & c' & -> & -> & H) (d & E & Hp). assert (d = c) as -> by congruence.
  exists c'. split; [reflexivity|]. apply (Same_none c c'); [eapply skipRows_base; exact H|exact Hp].
Qed.
Lemma i64_1 : i64 1 = 1. Proof. reflexivity. Qed.
Lemma tree_Skip1_leaf c : tree_Skip1 inflate o (CLeaf c) = let! c' := skipRows 1 c in Ok (CLeaf c').
Proof. reflexivity. Qed.
Lemma treeSkip_null n : forall b index kids t', Forall plain_leaf kids ->
  (treeSkip inflate o n (CStruct (Some b) index kids) = Ok t' <->
   exists ps b' kids', takeBits n b = Ok (ps, b') /\ t' = CStruct (Some b') index kids' /\ Forall2 (leafSkips (trues ps)) kids kids').
Proof.
  induction n as [|n IH]; intros b index kids t' Hk; unfold treeSkip in *; cbn [times takeBits].
  - split.
    + intros H. exists [], b, kids. split; [reflexivity|]. split; [congruence|].
      clear H. induction Hk as [|t r (c & -> & Hc) Hr IH2]; constructor; [|exact IH2]. exists c, c. auto.
    + intros (ps & b' & kids' & H & -> & Hf). assert (ps = []) as -> by congruence. assert (b' = b) as -> by congruence.
      assert (kids' = kids) as ->; [|reflexivity]. clear - Hf. induction Hf as [|t t' l l' (c & c' & -> & -> & H) Hf IH]; [reflexivity|].
      f_equal; [|exact IH]. cbn in H. congruence.
  - rewrite tree_Skip1_null. destruct (bool_Next inflate o b) as [[p b1]| |]; cbn [rbind]; [|split; [discriminate|intros (ps & b' & kids' & H & _); discriminate]..].
    destruct p.
    + assert (Hs1 : forall k1, skipL kids = Ok k1 <-> Forall2 (leafSkips 1) kids k1).
      { intros k1. rewrite skipL_ok. clear - Hk. revert k1. induction Hk as [|t r (c & -> & Hc) Hr IH2]; intros k1; [split; intros H; inversion H; constructor|].
        split; intros H; inversion H as [|? t1 ? r1 H1 H2]; subst; (constructor; [|apply IH2; exact H2]).
        - rewrite tree_Skip1_leaf in H1. apply rbind_inv in H1. destruct H1 as (c' & H1 & E). exists c, c'. split; [reflexivity|]. split; [congruence|exact H1].
        - destruct H1 as (d & d' & E & -> & Hd). assert (d = c) as -> by congruence. rewrite tree_Skip1_leaf, Hd. reflexivity. }
      split.
      * intros H. apply rbind_inv in H. destruct H as (t1 & H1 & H). apply rbind_inv in H1. destruct H1 as (k1 & H1 & E).
        assert (t1 = CStruct (Some b1) index k1) as -> by congruence. apply Hs1 in H1.
        apply IH in H; [|clear - H1 Hk; induction H1; inversion Hk; subst; constructor; [eapply leafSkips_plain; eassumption|auto]].
        destruct H as (ps & b' & k2 & Hp & -> & Hf). exists (true :: ps), b', k2. rewrite Hp. cbn [rbind]. split; [reflexivity|]. split; [reflexivity|].
        eapply Forall2_compose; [|exact H1|exact Hf]. intros x y z (c1 & c2 & -> & -> & Hc) (d1 & d2 & E1 & -> & Hd). assert (d1 = c2) as -> by congruence.
        exists c1, d2. split; [reflexivity|]. split; [reflexivity|]. unfold trues. cbn [filter length]. rewrite skipRows_S, Hc. exact Hd.
      * intros (ps & b' & k2 & Hp & -> & Hf). destruct (takeBits n b1) as [[ps1 b2]| |] eqn:Et; cbn [rbind] in Hp; try discriminate.
        assert (ps = true :: ps1) as -> by congruence. assert (b' = b2) as -> by congruence.
        destruct (Forall2_split (leafSkips 1) (leafSkips (trues ps1)) (leafSkips (trues (true :: ps1))) kids k2) as (k1 & H1 & H2).
        { intros x z (c1 & c2 & -> & -> & Hc). unfold trues in Hc. cbn [filter length] in Hc. rewrite skipRows_S in Hc. apply rbind_inv in Hc.
          destruct Hc as (d & Hd1 & Hd2). exists (CLeaf d). split; [exists c1, d|exists d, c2]; auto. }
        { exact Hf. }
        assert (Hk1 : Forall plain_leaf k1) by (clear - H1 Hk; induction H1; inversion Hk; subst; constructor; [eapply leafSkips_plain; eassumption|auto]).
        apply Hs1 in H1. rewrite H1. cbn [rbind]. apply (IH b1 index k1 _ Hk1). exists ps1, b2, k2. auto.
    + cbn [rbind]. rewrite (IH b1 index kids t' Hk). split.
      * intros (ps & b' & k2 & Hp & -> & Hf). exists (false :: ps), b', k2. rewrite Hp. cbn [rbind]. auto.
      * intros (ps & b' & k2 & Hp & -> & Hf). destruct (takeBits n b1) as [[ps1 b2]| |] eqn:Et; cbn [rbind] in Hp; try discriminate.
        assert (ps = false :: ps1) as -> by congruence. assert (b' = b2) as -> by congruence. exists ps1, b2, k2. auto.
Qed.

Lemma treeSkip_leaf n : forall c t', treeSkip inflate o n (CLeaf c) = Ok t' <-> exists c', t' = CLeaf c' /\ skipRows n c = Ok c'.
Proof.
  induction n as [|n IH]; intros c t'; unfold treeSkip in *; cbn [times].
  - split; [intros H; exists c; split; [congruence|reflexivity]|intros (c' & -> & H); cbn in H; congruence].
  - rewrite tree_Skip1_leaf, (skipRows_S n c). destruct (skipRows 1 c) as [c1| |]; cbn [rbind]; [apply IH|..].
    + split; [discriminate|intros (c' & _ & H); discriminate].
    + split; [discriminate|intros (c' & _ & H); discriminate].
Qed.

Notation nextL := (nextKids tree_NextBatch).
Lemma nextL_ok (Q : ctree -> ctree -> Prop) kids cs :
  Forall2 (fun t v => forall t', (exists out, tree_NextBatch t v = Ok (out, t')) <-> Q t t') kids cs ->
  forall kids', (exists out, nextL kids cs = Ok (out, kids')) <-> Forall2 Q kids kids'.
Proof.
  induction 1 as [|t v ts vs Ht Hts IH]; intros kids'; cbn [nextKids].
  - split; [intros (out & H); assert (kids' = []) as -> by congruence; constructor|intros H; inversion H; eauto].
  - split.
    + intros (out & H). apply rbind_inv in H. destruct H as ([v' t'] & H1 & H). apply rbind_inv in H. destruct H as ([vs' ts'] & H2 & H).
      assert (kids' = t' :: ts') as -> by congruence. constructor; [apply Ht; eauto|apply IH; eauto].
    + intros H. inversion H as [|? t' ? ts' H1 H2]; subst. apply Ht in H1. destruct H1 as (v' & H1).
      apply IH in H2. destruct H2 as (vs' & H2). exists (v' :: vs'). rewrite H1. cbn [rbind]. rewrite H2. reflexivity.
Qed.

(** The flags of a struct reach its leaves. *)
Lemma copyNulls_flags from : forall to, length from = length to ->
  exists out, copyNulls from to = Ok out /\ map Null out = map Null from /\ map V out = map V to.
Proof.
  induction from as [|x r IH]; intros [|y s] Hl; try discriminate Hl; cbn [copyNulls].
  - exists []. auto.
  - injection Hl as Hl. destruct (IH s Hl) as (out & -> & H1 & H2). cbn [rbind]. eexists. split; [reflexivity|].
    cbn [map Null V]. rewrite H1, H2. auto.
Qed.
Lemma fillLeaves n vals' : length vals' = n -> forall kids cs,
  Forall2 (fun t v => exists c vs, t = CLeaf c /\ v = VT vs [] /\ cr_present c = None /\ length vs = n /\
             Forall (fun x => accepts (cr_kind c) (V x)) vs) kids cs ->
  exists cs', mapM (fillNulls vals') cs = Ok cs' /\
    Forall2 (fun t v => exists c vs, t = CLeaf c /\ v = VT vs [] /\ cr_present c = None /\ map Null vs = map Null vals' /\
             Forall (fun x => accepts (cr_kind c) (V x)) vs) kids cs'.
Proof.
  intros Hl kids cs H. induction H as [|t v ts vs (c & ws & -> & -> & Hc & Hw & Ha) _ (cs' & E & IH)]; [exists []; split; [reflexivity|constructor]|].
  cbn [mapM fillNulls]. destruct (copyNulls_flags vals' ws ltac:(congruence)) as (out & -> & H1 & H2). cbn [rbind].
  rewrite E. cbn [rbind]. eexists. split; [reflexivity|]. constructor; [|exact IH].
  exists c, out. do 4 (split; [auto|]). clear - Ha H2. revert out H2. induction Ha as [|w r Hw Hr IH]; intros [|x s] H2; try discriminate H2; constructor.
  - cbn [map] in H2. assert (V x = V w) as -> by congruence. exact Hw.
  - apply IH. cbn [map] in H2. congruence.
Qed.
Lemma map_filter_null (ws : list value) : map Null (filter (fun v => negb (Null v)) ws) = filter negb (map Null ws).
Proof. induction ws as [|[[] g] r IH]; cbn [map filter Null negb]; [reflexivity|exact IH|]. cbn [map Null]. rewrite IH. reflexivity. Qed.

(** ** Skipping is reading *)
Lemma tree_skip n t : forall v t', room n t v ->
  (treeSkip inflate o n t = Ok t' <-> exists out, tree_NextBatch t v = Ok (out, t')).
Proof.
  induction t as [c|d|p index kids IH|r index c IH|r index k w IH IH'] using ctree_ind'; intros v t' Hr; inversion Hr as [? vals cs Hl Hf|? ? vals cs Hf|b ? ? vals cs Hl Hf]; subst.
  - rewrite treeSkip_leaf, tree_NextBatch_leaf. rewrite (skip_is_next vals c Hf). split.
    + intros (c' & -> & H). apply after_ok in H. destruct H as (out & ->). cbn [rbind]. eauto.
    + intros (out & H). apply rbind_inv in H. destruct H as ([xs c'] & H & E). exists c'. split; [congruence|]. apply after_ok. eauto.
  - rewrite treeSkip_plain.
    assert (Hn : forall kids', (exists out, nextL kids cs = Ok (out, kids')) <-> Forall2 (fun a b => treeSkip inflate o n a = Ok b) kids kids').
    { apply nextL_ok. clear - IH Hf. induction Hf as [|t v ts vs Ht Hts IHf]; inversion IH as [|? ? H1 H2]; subst; constructor; [|auto].
      intros t'. symmetry. apply H1. exact Ht. }
    rewrite tree_NextBatch_struct. cbn [rbind]. split.
    + intros (k & -> & H). apply Hn in H. destruct H as (out & H). rewrite H. cbn [rbind]. eauto.
    + intros (out & H). apply rbind_inv in H. destruct H as ([vs k] & H & E). exists k. split; [congruence|]. apply Hn. eauto.
  - set (n := length vals).
    assert (Hk : Forall plain_leaf kids).
    { clear - Hf. induction Hf as [|t v ts vs (c & ws & -> & _ & Hc & _) _ IHf]; constructor; [|exact IHf]. exists c. auto. }
    rewrite (treeSkip_null n b index kids t' Hk). rewrite tree_NextBatch_struct.
    destruct (readNulls_bits vals b) as [Hb1 Hb2].
    destruct (readNulls inflate o b vals) as [[vals' b']| |] eqn:En; cbn [rbind].
    + destruct (Hb2 vals' b' eq_refl) as (ps & Hps & Hm & Hl'). fold n in Hps, Hl'.
      destruct (fillLeaves n vals' Hl' kids cs Hf) as (cs' & -> & Hf'). cbn [rbind].
      assert (Hn : forall kids', (exists out, nextL kids cs' = Ok (out, kids')) <-> Forall2 (leafSkips (trues ps)) kids kids').
      { apply nextL_ok. clear - Hf' Hm. induction Hf' as [|t v ts vs (c & ws & -> & -> & Hc & Hw & Ha) _ IHf]; constructor; [|exact IHf].
        intros t'. rewrite tree_NextBatch_leaf.
        assert (Hsr : shown_rows ws = trues ps).
        { unfold shown_rows, trues. rewrite <- (map_length Null (filter _ ws)). rewrite <- (map_length negb (filter _ ps)).
          rewrite (map_filter_null ws), Hw, Hm. clear. induction ps as [|[] r IH]; cbn [map filter negb length]; congruence. }
        pose proof (skip_is_next_flags ws c Hc Ha) as Hs. rewrite Hsr in Hs. split.
        - intros (out & H). apply rbind_inv in H. destruct H as ([xs c'] & H & E). exists c, c'. split; [reflexivity|]. split; [congruence|].
          rewrite Hs, H. reflexivity.
        - intros (d & d' & E & -> & H). assert (d = c) as -> by congruence. rewrite Hs in H. apply after_ok in H. destruct H as (xs & ->).
          cbn [rbind]. eauto. }
      split.
      * intros (ps' & b'' & k & Hp & -> & H). rewrite Hps in Hp. assert (ps' = ps) as -> by congruence. assert (b'' = b') as -> by congruence.
        apply Hn in H. destruct H as (out & ->). cbn [rbind]. eauto.
      * intros (out & H). apply rbind_inv in H. destruct H as ([vs k] & H & E). exists ps, b', k. split; [exact Hps|]. split; [congruence|]. apply Hn. eauto.
    + unfold after in Hb1. fold n in Hb1. split; [intros (ps & b' & k & H & _); rewrite H in Hb1; discriminate|intros (out & H); discriminate].
    + unfold after in Hb1. fold n in Hb1. split; [intros (ps & b' & k & H & _); rewrite H in Hb1; discriminate|intros (out & H); discriminate].
Qed.

(** ** Seeking a tree *)
Definition seekL (stride : Z) := fix go (ts : list ctree) : res (list ctree) :=
  match ts with [] => Ok [] | t :: r => let! t' := tree_SeekStride inflate o stride t in let! r' := go r in Ok (t' :: r') end.
Lemma tree_SeekStride_plain stride index kids : tree_SeekStride inflate o stride (CStruct None index kids) =
  let! kids' := seekL stride kids in Ok (CStruct None index kids').
Proof. reflexivity. Qed.
Lemma tree_seek stride t : forall t', solid t = true ->
  (tree_SeekStride inflate o stride t = Ok t' <-> leafwise (fun c c' => SeekStride inflate o stride c = Ok c') t t').
Proof.
  induction t as [c|d|p index kids IH|r index c IH|r index k w IH IH'] using ctree_ind'; intros t' Hs; try discriminate Hs.
  - cbn [tree_SeekStride]. split.
    + intros H. apply rbind_inv in H. destruct H as (c' & H & E). assert (t' = CLeaf c') as -> by congruence. constructor. exact H.
    + intros H. inversion H; subst. match goal with H : SeekStride _ _ _ _ = _ |- _ => rewrite H end. reflexivity.
  - destruct p; [discriminate Hs|]. cbn [solid] in Hs. rewrite tree_SeekStride_plain.
    assert (Hl : forall kids', seekL stride kids = Ok kids' <-> Forall2 (leafwise (fun c c' => SeekStride inflate o stride c = Ok c')) kids kids').
    { clear - IH Hs. induction IH as [|t r Ht Hr IH]; intros kids'; cbn [seekL].
      - split; [intros H; assert (kids' = []) as -> by congruence; constructor|intros H; inversion H; reflexivity].
      - cbn [forallb] in Hs. apply andb_true_iff in Hs. destruct Hs as [Hs1 Hs2]. specialize (IH Hs2). fold (seekL stride). split.
        + intros H. apply rbind_inv in H. destruct H as (t' & H1 & H). apply rbind_inv in H. destruct H as (r' & H2 & H).
          assert (kids' = t' :: r') as -> by congruence. constructor; [apply Ht; assumption|apply IH; exact H2].
        + intros H. inversion H as [|? t' ? r' H1 H2]; subst. apply (Ht _ Hs1) in H1. apply IH in H2. rewrite H1. cbn [rbind]. rewrite H2. reflexivity. }
    split.
    + intros H. apply rbind_inv in H. destruct H as (k & H & E). assert (t' = CStruct None index k) as -> by congruence. constructor. apply Hl. exact H.
    + intros H. inversion H as [|? ? k Hk]; subst. apply Hl in Hk. rewrite Hk. reflexivity.
Qed.
End Skip.
