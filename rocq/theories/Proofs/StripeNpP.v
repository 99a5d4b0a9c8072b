(** Making the readers of a stripe does not crash. *)
From Coq Require Import ZifyBool ZifyNat.
From Verif.Model Require Import Go Chunk Stream Schema File Column Wire Tree Assembled.
From Verif.Proofs Require Import Base OpenTreeP.

Definition fine {A} (P : A -> Prop) (x : res A) : Prop := match x with Ok a => P a | Err => True | Panic => False end.
Lemma fine_bind {A B} (P : A -> Prop) (Q : B -> Prop) x (f : A -> res B) : fine P x -> (forall a, P a -> fine Q (f a)) -> fine Q (rbind x f).
Proof. destruct x; cbn; auto. Qed.
Lemma fine_impl {A} (P Q : A -> Prop) x : fine P x -> (forall a, P a -> Q a) -> fine Q x.
Proof. destruct x; cbn; auto. Qed.
Lemma fine_np {A} (P : A -> Prop) x : fine P x -> x <> Panic.
Proof. intros H ->. exact H. Qed.
Lemma fine_of {A} (P : A -> Prop) x : x <> Panic -> (forall a, x = Ok a -> P a) -> fine P x.
Proof. destruct x; cbn; auto. Qed.
Lemma np_bind {A B} (x : res A) (f : A -> res B) : x <> Panic -> (forall a, x = Ok a -> f a <> Panic) -> rbind x f <> Panic.
Proof. destruct x; cbn; intros H1 H2; [apply H2; reflexivity|discriminate|congruence]. Qed.

Section Stripe.
Variable inflate : list Z -> res (list Z).
Variable file : list Z.
Variable b : batchOption.
Variable o : opts.
Variable nodes : list node.
Variable hs : list bool.
Hypothesis Hhs : length hs = length nodes.
Hypothesis Hsub : forall i x c, nth_error nodes i = Some x -> In c (n_sub x) -> 0 <= c < zlen nodes.
Hypothesis Hpar : forall i x c, nth_error nodes i = Some x -> In c (n_sub x) -> IsInclude b c = true -> IsInclude b (Z.of_nat i) = true.

Lemma np_newAny k e h : newAnyR k e h <> Panic.
Proof.
  unfold newAnyR. destruct k; try (apply np_bind; [|discriminate]; unfold readerKind; repeat (destruct (_ =? _); try discriminate); discriminate);
    destruct (_ =? _); discriminate.
Qed.
Lemma newReaders_fine : forall ns i gs encs, length gs = length ns -> (forall j, (j < length ns)%nat -> IsInclude b (i + Z.of_nat j) = true -> (j < length encs)%nat) ->
  fine (fun rs => length rs = length ns /\ forall j, (j < length ns)%nat -> IsInclude b (i + Z.of_nat j) = true -> exists r, nth_error rs j = Some (Some r)) (newReaders b i ns gs encs).
Proof.
  induction ns as [|n ns IH]; intros i [|h gs] encs Hl He; try discriminate Hl; cbn [newReaders].
  - cbn. split; [reflexivity|]. intros j Hj. lia.
  - injection Hl as Hl. eapply (fine_bind (fun r => IsInclude b i = true -> exists x, r = Some x)).
    + destruct (IsInclude b i) eqn:Ei; [|cbn; discriminate].
      destruct encs as [|e encs]; [specialize (He 0%nat); rewrite Z.add_0_r in He; specialize (He ltac:(cbn; lia) Ei); cbn in He; lia|]. pose proof (np_newAny (n_kind n) e h) as Hn. destruct (newAnyR (n_kind n) e h); cbn; [eauto|exact I|congruence].
    + intros r Hr. eapply fine_bind; [apply (IH (i + 1) gs (tl encs) Hl)|].
      { intros j Hj Hi. replace (i + 1 + Z.of_nat j) with (i + Z.of_nat (S j)) in Hi by lia. specialize (He (S j) ltac:(cbn; lia) Hi). destruct encs; cbn in *; lia. }
      intros rs (L & H). cbn. split; [lia|]. intros [|j] Hj Hi.
      * replace (i + Z.of_nat 0) with i in Hi by lia. destruct (Hr Hi) as [x ->]. exists x. reflexivity.
      * cbn [nth_error]. apply H; [lia|]. replace (i + 1 + Z.of_nat j) with (i + Z.of_nat (S j)) by lia. exact Hi.
Qed.
Definition indexed (l : list (strm * Z)) : Prop :=
  (forall start len, readIndex inflate o file start len <> Panic) \/ Forall (fun p => st_kind (fst p) <> 6) l.
Lemma np_initAny s st r : (forall start len, readIndex inflate o file start len <> Panic) \/ st_kind s <> 6 -> (if st_kind s =? 6 then any_InitIndex inflate o file r st (st_length s) else any_InitStream file r s st) <> Panic.
Proof.
  intros Hix. destruct (Z.eqb_spec (st_kind s) 6).
  - destruct Hix as [np_readIndex|]; [|contradiction]. destruct r; cbn [any_InitIndex]; unfold InitIndex; (apply np_bind; [|discriminate]); try (apply np_bind; [|discriminate]); apply np_readIndex.
  - destruct r as [c|d|x i|h x i]; cbn [any_InitStream]; (apply np_bind; [|discriminate]).
    + unfold InitStream. destruct (_ =? _); [destruct (cr_kind c); try discriminate; destruct (cr_hasNulls c); discriminate|].
      destruct (_ =? _); [destruct (dataReader _ _); discriminate|]. destruct (cr_kind c); try discriminate; destruct (_ =? _); discriminate.
    + unfold dict_InitStream. destruct (_ =? _); [destruct (dr_hasNulls d); discriminate|]. repeat (destruct (_ =? _); [discriminate|]). discriminate.
    + unfold list_InitStream. destruct (_ =? _); [discriminate|]. destruct (_ =? _); discriminate.
    + unfold list_InitStream. destruct (_ =? _); [destruct (negb h); discriminate|]. destruct (_ =? _); discriminate.
Qed.
Definition some_at (rs : list (option anyR)) (j : nat) : Prop := exists r, nth_error rs j = Some (Some r).
Lemma initAll_fine l : indexed l -> forall rs, Forall (fun p => (Z.to_nat (st_column (fst p)) < length rs)%nat) l ->
  fine (fun rs' => length rs' = length rs /\ forall j, some_at rs j -> some_at rs' j) (initAll inflate o file rs l).
Proof.
  induction l as [|[s st] l IH]; intros Hix rs Hl; cbn [initAll]; [cbn; auto|].
  assert (Hone : (forall start len, readIndex inflate o file start len <> Panic) \/ st_kind s <> 6) by (destruct Hix as [Hix|Hix]; [auto|inversion Hix; auto]).
  assert (Hix' : indexed l) by (destruct Hix as [Hix|Hix]; [left; exact Hix|right; inversion Hix; assumption]). specialize (IH Hix').
  inversion Hl as [|? ? H1 H2]; subst. cbn [fst] in H1.
  destruct (nth_error rs (Z.to_nat (st_column s))) as [[r|]|] eqn:E.
  - eapply (fine_bind (fun _ => True)); [apply fine_of; [apply np_initAny; exact Hone|auto]|]. intros r' _.
    eapply fine_impl; [apply IH; rewrite OpenTreeP.set_nth_length; exact H2|].
    intros rs' (L & H). rewrite OpenTreeP.set_nth_length in L. split; [exact L|]. intros j (x & Hx). apply H.
    destruct (Nat.eq_dec (Z.to_nat (st_column s)) j) as [<-|Hj].
    + exists r'. apply OpenTreeP.set_nth_same. apply nth_error_Some. congruence.
    + exists x. rewrite OpenTreeP.set_nth_other by congruence. exact Hx.
  - apply IH. exact H2.
  - exfalso. apply nth_error_None in E. lia.
Qed.
Lemma np_children k p j l : (forall c, In c l -> IsInclude b c = true -> p = true) -> checkChildren b k p j l <> Panic.
Proof.
  revert j. induction l as [|c l IH]; intros j H; cbn [checkChildren]; [discriminate|]. apply np_bind.
  - destruct (IsInclude b c) eqn:E; [|discriminate]. rewrite (H c (or_introl eq_refl) E). destruct k; try discriminate. destruct (_ <=? _); discriminate.
  - intros ? _. apply IH. intros d Hd. apply H. right. exact Hd.
Qed.
Lemma np_parents : forall ns i, (forall j x c, nth_error ns j = Some x -> In c (n_sub x) -> IsInclude b c = true -> IsInclude b (i + Z.of_nat j) = true) ->
  checkParents b i ns <> Panic.
Proof.
  induction ns as [|n ns IH]; intros i H; cbn [checkParents]; [discriminate|]. apply np_bind.
  - apply np_children. intros c Hc Hi. replace i with (i + Z.of_nat 0) by lia. exact (H 0%nat n c eq_refl Hc Hi).
  - intros ? _. apply IH. intros j x c Hj Hc Hi. replace (i + 1 + Z.of_nat j) with (i + Z.of_nat (S j)) by lia. exact (H (S j) x c Hj Hc Hi).
Qed.
Lemma np_build rs : (forall j, (j < length nodes)%nat -> IsInclude b (Z.of_nat j) = true -> some_at rs j) ->
  forall fuel i, (Z.to_nat i < length nodes)%nat -> some_at rs (Z.to_nat i) -> buildTree nodes b fuel rs i <> Panic.
Proof.
  intros Hrs. induction fuel as [|f IH]; intros i Hi (r & Er); cbn [buildTree]; [discriminate|].
  destruct (nth_error nodes (Z.to_nat i)) as [n|] eqn:En; [|apply nth_error_None in En; lia]. rewrite Er.
  assert (Hone : forall c, In c (n_sub n) -> IsInclude b c = true -> buildTree nodes b f rs c <> Panic).
  { intros c Hc Hic. pose proof (Hsub _ _ _ En Hc) as Hr. apply IH; [unfold zlen in Hr; lia|]. apply Hrs; [unfold zlen in Hr; lia|].
    rewrite Z2Nat.id by lia. exact Hic. }
  assert (Hopt : forall x, (forall c, x = Some c -> In c (n_sub n) /\ IsInclude b c = true) ->
    match x with None => Ok None | Some c => let! t := buildTree nodes b f rs c in Ok (Some t) end <> Panic).
  { intros [c|] Hx; [|discriminate]. destruct (Hx c eq_refl). apply np_bind; [apply Hone; assumption|discriminate]. }
  destruct r as [c|d|x ix|h x ix].
  - destruct (cr_kind c); try discriminate. apply np_bind; [|discriminate].
    assert (Hall : forall c, In c (n_sub n) -> IsInclude b c = true -> buildTree nodes b f rs c <> Panic) by exact Hone. clear - Hall. revert Hall.
    induction (n_sub n) as [|y l IHl]; intros Hall; [discriminate|]. destruct (IsInclude b y) eqn:E.
    + apply np_bind; [apply Hall; [left; reflexivity|exact E]|]. intros ? _. apply np_bind; [|discriminate]. apply IHl. intros z Hz. apply Hall. right. exact Hz.
    + apply IHl. intros z Hz. apply Hall. right. exact Hz.
  - discriminate.
  - apply np_bind; [|discriminate]. apply Hopt. intros y Hy. unfold lastIncluded in Hy.
    assert (G : forall l a, (forall c, In c l -> In c (n_sub n)) -> (forall c, a = Some c -> In c (n_sub n) /\ IsInclude b c = true) ->
      fold_left (fun a c => if IsInclude b c then Some c else a) l a = Some y -> In y (n_sub n) /\ IsInclude b y = true).
    { induction l as [|z l IHl]; intros a H1 H2 H3; cbn [fold_left] in H3; [exact (H2 _ H3)|].
      apply (IHl _ (fun c Hc => H1 c (or_intror Hc))) in H3; [exact H3|]. intros c Hc. destruct (IsInclude b z) eqn:Ez; [|exact (H2 _ Hc)].
      injection Hc as <-. split; [apply H1; left; reflexivity|exact Ez]. }
    apply (G _ None) in Hy; [exact Hy|auto|discriminate].
  - assert (Hat : forall j y, includedAt b j (n_sub n) = Some y -> In y (n_sub n) /\ IsInclude b y = true).
    { intros j y Hy. unfold includedAt in Hy. destruct (nth_error (n_sub n) j) as [z|] eqn:Ez; [|discriminate]. destruct (IsInclude b z) eqn:Ei; [|discriminate].
      injection Hy as <-. split; [exact (nth_error_In _ _ Ez)|exact Ei]. }
    apply np_bind; [apply Hopt; apply Hat|]. intros ? _. apply np_bind; [apply Hopt; apply Hat|discriminate].
Qed.
Lemma first_some : forall rs i j, firstReader i rs = Some j -> exists k, j = i + Z.of_nat k /\ some_at rs k.
Proof.
  induction rs as [|[r|] rs IH]; intros i j H; cbn [firstReader] in H; [discriminate| |].
  - injection H as <-. exists 0%nat. split; [lia|]. exists r. reflexivity.
  - destruct (IH _ _ H) as (k & -> & x & Hx). exists (S k). split; [lia|]. exists x. exact Hx.
Qed.
Lemma np_stripe rows f : (forall j, (j < length nodes)%nat -> IsInclude b (Z.of_nat j) = true -> (j < length (fst f))%nat) -> indexed (snd f) -> Forall (fun p => (Z.to_nat (st_column (fst p)) < length nodes)%nat) (snd f) ->
  newStripeRd inflate o nodes hs b file rows f <> Panic.
Proof.
  intros Hc Hx0 Hs. unfold newStripeRd. pose proof (newReaders_fine nodes 0 hs (fst f) Hhs Hc) as H1.
  destruct (newReaders b 0 nodes hs (fst f)) as [rs| |]; cbn [rbind]; [|discriminate|contradiction]. destruct H1 as [L H1].
  assert (Hs' : Forall (fun p => (Z.to_nat (st_column (fst p)) < length rs)%nat) (snd f)) by (rewrite L; exact Hs).
  pose proof (initAll_fine (snd f) Hx0 rs Hs') as H2. destruct (initAll inflate o file rs (snd f)) as [rs'| |]; cbn [rbind]; [|discriminate|contradiction].
  destruct H2 as [L2 H2]. apply np_bind; [apply np_parents; intros j x c; apply Hpar|]. intros ? _. apply np_bind; [|discriminate].
  destruct (firstReader 0 rs') as [j|] eqn:Ej; [|discriminate]. destruct (first_some _ _ _ Ej) as (k & -> & x & Hx).
  apply np_bind; [|discriminate]. apply np_build.
  - intros j Hj Hi. apply H2. apply H1; [exact Hj|exact Hi].
  - rewrite Z.add_0_l, Nat2Z.id, <- L, <- L2. apply nth_error_Some. congruence.
  - rewrite Z.add_0_l, Nat2Z.id. exists x. exact Hx.
Qed.
End Stripe.
