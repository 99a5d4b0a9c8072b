(** The levels of a reader do not change; equations for reading and skipping. *)
From Coq Require Import ZifyBool ZifyNat.
From Verif.Model Require Import Go Codec ByteBool IntRle Chunk Stream Schema Time File Column Nested Tree.
From Verif.Proofs Require Import Base.

Section Tree.
Variable inflate : list Z -> res (list Z).
Variable o : opts.
Notation nextF := (nextF inflate o).
Notation skipF := (skipF inflate o).
Notation tree_NextBatch := (tree_NextBatch inflate o).
Notation tree_Skip1 := (tree_Skip1 inflate o).
Notation listHead := (listHead inflate o).

Section CtreeInd.
Variable P : ctree -> Prop.
Definition P' (c : option ctree) : Prop := match c with Some t => P t | None => True end.
Hypothesis Hl : forall c, P (CLeaf c).
Hypothesis Hd : forall d, P (CDict d).
Hypothesis Hs : forall p i cs, Forall P cs -> P (CStruct p i cs).
Hypothesis Hli : forall r i c, P' c -> P (CList r i c).
Hypothesis Hm : forall r i k w, P' k -> P' w -> P (CMap r i k w).
Fixpoint ctree_ind' (t : ctree) : P t :=
  let sub (c : option ctree) : P' c := match c with Some t => ctree_ind' t | None => I end in
  match t with
  | CLeaf c => Hl c
  | CDict d => Hd d
  | CStruct p i cs => Hs p i cs ((fix go (l : list ctree) : Forall P l :=
      match l with [] => Forall_nil _ | x :: r => Forall_cons _ (ctree_ind' x) (go r) end) cs)
  | CList r i c => Hli r i c (sub c)
  | CMap r i k w => Hm r i k w (sub k) (sub w)
  end.
End CtreeInd.

Definition odepth (c : option ctree) : nat := match c with Some t => depth t | None => O end.
Definition depths (l : list ctree) : nat := fold_right (fun t n => Nat.max (depth t) n) O l.
Lemma depth_struct p i cs : depth (CStruct p i cs) = S (depths cs). Proof. reflexivity. Qed.
Lemma depth_list r i c : depth (CList r i c) = S (odepth c). Proof. reflexivity. Qed.
Lemma depth_map r i k w : depth (CMap r i k w) = S (Nat.max (odepth k) (odepth w)). Proof. reflexivity. Qed.
Lemma depths_le cs t : In t cs -> (depth t <= depths cs)%nat.
Proof. induction cs as [|c r IH]; [contradiction|]. cbn [depths fold_right]. fold (depths r). intros [->|H]; [lia|]. specialize (IH H). lia. Qed.

(** ** Functions that agree on trees of few levels and keep the levels *)
Definition agree {A} (D : A -> nat) (n : nat) (f g : A -> vtree -> res (vtree * A)) : Prop :=
  forall t v, (D t <= n)%nat -> f t v = g t v /\ forall v' t', f t v = Ok (v', t') -> D t' = D t.
Lemma onChild_agree n f g : agree depth n f g -> agree odepth n (onChild f) (onChild g).
Proof.
  intros H [t|] v Hd; cbn [onChild odepth] in *; [|split; [reflexivity|discriminate]].
  destruct (H t v Hd) as [E Hp]. rewrite <- E. split; [reflexivity|]. intros v' t' Ht. apply rbind_inv in Ht.
  destruct Ht as ([v1 t1] & H1 & Ht). assert (t' = Some t1) as -> by congruence. cbn [odepth]. eapply Hp. exact H1.
Qed.
Lemma nextKids_agree n f g : agree depth n f g -> forall ts vs, (depths ts <= n)%nat ->
  nextKids f ts vs = nextKids g ts vs /\ forall vs' ts', nextKids f ts vs = Ok (vs', ts') -> depths ts' = depths ts.
Proof.
  intros H. induction ts as [|t ts IH]; intros vs Hd; cbn [nextKids].
  - split; [reflexivity|]. intros vs' ts' E. assert (ts' = []) as -> by congruence. reflexivity.
  - destruct vs as [|v vs]; [split; [reflexivity|discriminate]|]. cbn [depths fold_right] in Hd. fold (depths ts) in Hd.
    destruct (H t v ltac:(lia)) as [E Hp]. rewrite <- E. destruct (f t v) as [[v1 t1]| |] eqn:E1; cbn [rbind]; [|split; [reflexivity|discriminate]..].
    destruct (IH vs ltac:(lia)) as [E2 Hp2]. rewrite <- E2. split; [reflexivity|]. intros vs' ts' H'. apply rbind_inv in H'.
    destruct H' as ([vs2 ts2] & H2 & H'). assert (ts' = t1 :: ts2) as -> by congruence. cbn [depths fold_right]. fold (depths ts2) (depths ts).
    rewrite (Hp _ _ eq_refl), (Hp2 _ _ H2). reflexivity.
Qed.
Lemma list_agree C (D : C -> nat) n f g : agree D n f g -> forall vec r c cv, (D c <= n)%nat ->
  list_NextBatch inflate o C f r c vec cv = list_NextBatch inflate o C g r c vec cv /\
  forall q, list_NextBatch inflate o C f r c vec cv = Ok q -> D (snd q) = D c.
Proof.
  intros H. induction vec as [|old vec IH]; intros r c cv Hd; cbn [list_NextBatch].
  - split; [reflexivity|]. intros q E. assert (q = ([], cv, r, c)) as -> by congruence. reflexivity.
  - destruct (listHead r (Null old)) as [[m r1]| |]; cbn [rbind]; [|split; [reflexivity|discriminate]..].
    destruct (H c (setVals cv (elements m)) Hd) as [E Hp]. rewrite <- E.
    destruct (f c (setVals cv (elements m))) as [[cv1 c1]| |] eqn:E1; cbn [rbind]; [|split; [reflexivity|discriminate]..].
    specialize (Hp _ _ eq_refl). destruct (IH r1 c1 cv1 ltac:(lia)) as [E2 Hp2]. rewrite <- E2. split; [reflexivity|]. intros q Hq.
    apply rbind_inv in Hq. destruct Hq as ([[[xs cv2] r2] c2] & H2 & Hq). specialize (Hp2 _ H2).
    match type of Hq with Ok ?x = _ => assert (q = x) as -> by congruence end. cbn [snd] in *. congruence.
Qed.
Lemma list_next_agree C (D : C -> nat) n f g : agree D n f g -> forall s v, (D (snd s) <= n)%nat ->
  list_next inflate o f s v = list_next inflate o g s v /\
  forall v' s', list_next inflate o f s v = Ok (v', s') -> D (snd s') = D (snd s).
Proof.
  intros H [r c] [vals [|cv cs]] Hd; cbn [list_next fst snd] in *.
  - destruct vals as [|old vals]; [split; [reflexivity|]; intros v' s' E; assert (s' = (r, c)) as -> by congruence; reflexivity|].
    split; [reflexivity|]. intros v' s' E. destruct (listHead r (Null old)); discriminate E.
  - destruct (list_agree C D n f g H vals r c cv Hd) as [E Hp]. rewrite <- E. split; [reflexivity|]. intros v' s' Hq.
    apply rbind_inv in Hq. destruct Hq as ([[[xs cv2] r2] c2] & H2 & Hq). specialize (Hp _ H2).
    assert (s' = (r2, c2)) as -> by congruence. exact Hp.
Qed.
Lemma map_agree K W (DK : K -> nat) (DW : W -> nat) n f g f' g' : agree DK n f g -> agree DW n f' g' ->
  forall vec r k w kv wv, (DK k <= n)%nat -> (DW w <= n)%nat ->
  map_NextBatch inflate o K W f f' r k w vec kv wv = map_NextBatch inflate o K W g g' r k w vec kv wv /\
  forall xs kv' wv' r' k' w', map_NextBatch inflate o K W f f' r k w vec kv wv = Ok (xs, kv', wv', r', k', w') -> DK k' = DK k /\ DW w' = DW w.
Proof.
  intros H H'. induction vec as [|old vec IH]; intros r k w kv wv Hd Hd'; cbn [map_NextBatch].
  - split; [reflexivity|]. intros xs kv' wv' r' k' w' E. assert (k' = k /\ w' = w) as [-> ->] by (split; congruence). auto.
  - destruct (listHead r (Null old)) as [[m r1]| |]; cbn [rbind]; [|split; [reflexivity|discriminate]..].
    destruct (H k (setVals kv (elements m)) Hd) as [E Hp]. rewrite <- E.
    destruct (f k (setVals kv (elements m))) as [[kv1 k1]| |] eqn:E1; cbn [rbind]; [|split; [reflexivity|discriminate]..].
    destruct (H' w (setVals wv (elements m)) Hd') as [E' Hp']. rewrite <- E'.
    destruct (f' w (setVals wv (elements m))) as [[wv1 w1]| |] eqn:E1'; cbn [rbind]; [|split; [reflexivity|discriminate]..].
    specialize (Hp _ _ eq_refl). specialize (Hp' _ _ eq_refl).
    destruct (IH r1 k1 w1 kv1 wv1 ltac:(lia) ltac:(lia)) as [E2 Hp2]. rewrite <- E2. split; [reflexivity|]. intros xs kv' wv' r' k' w' Hq.
    apply rbind_inv in Hq. destruct Hq as ([[[[[xs2 kv2] wv2] r2] k2] w2] & H2 & Hq). destruct (Hp2 _ _ _ _ _ _ H2) as [A B].
    assert (k' = k2 /\ w' = w2) as [-> ->] by (split; congruence). split; congruence.
Qed.
Lemma map_next_agree K W (DK : K -> nat) (DW : W -> nat) n f g f' g' : agree DK n f g -> agree DW n f' g' ->
  forall r k w v, (DK k <= n)%nat -> (DW w <= n)%nat ->
  map_next inflate o f f' (r, k, w) v = map_next inflate o g g' (r, k, w) v /\
  forall v' r' k' w', map_next inflate o f f' (r, k, w) v = Ok (v', (r', k', w')) -> DK k' = DK k /\ DW w' = DW w.
Proof.
  intros H H' r k w [vals cs] Hd Hd'.
  assert (Hshort : forall (x : res (vtree * (listR * K * W))),
    x = (match vals with [] => Ok (VT vals cs, (r, k, w)) | old :: _ => let! _ := listHead r (Null old) in Panic end) ->
    forall v' r' k' w', x = Ok (v', (r', k', w')) -> DK k' = DK k /\ DW w' = DW w).
  { intros x -> v' r' k' w' E. destruct vals as [|old vals]; [|destruct (listHead r (Null old)); discriminate E].
    assert (k' = k /\ w' = w) as [-> ->] by (split; congruence). auto. }
  destruct cs as [|kv [|wv cs]]; cbn [map_next].
  - split; [reflexivity|]. apply Hshort. destruct vals; reflexivity.
  - split; [reflexivity|]. apply Hshort. destruct vals; reflexivity.
  - destruct (map_agree K W DK DW n f g f' g' H H' vals r k w kv wv Hd Hd') as [E Hp]. rewrite <- E.
    split; [reflexivity|]. intros v' r' k' w' Hq'.
    apply rbind_inv in Hq'. destruct Hq' as ([[[[[xs2 kv2] wv2] r2] k2] w2] & H2 & Hq). destruct (Hp _ _ _ _ _ _ H2) as [A B].
    assert (k' = k2 /\ w' = w2) as [-> ->] by (split; congruence). auto.
Qed.

(** ** Reading *)
Lemma nextF_agree n : agree depth n (nextF n) (nextF (S n)).
Proof.
  induction n as [|n IH]; intros t v Hd; [destruct t; cbn in Hd; lia|].
  change (nextF (S (S n)) t v) with (nextStep inflate o (nextF (S n)) t v). change (nextF (S n) t v) with (nextStep inflate o (nextF n) t v).
  unfold nextStep. destruct t as [c|d|present index kids|r index c|r index k w].
  - destruct v as [vals cs]. split; [reflexivity|]. intros v' t' H. apply rbind_inv in H. destruct H as ([xs c'] & _ & H).
    assert (t' = CLeaf c') as -> by congruence. reflexivity.
  - destruct v as [vals cs]. split; [reflexivity|]. intros v' t' H. apply rbind_inv in H. destruct H as ([xs c'] & _ & H).
    assert (t' = CDict c') as -> by congruence. reflexivity.
  - destruct v as [vals cs]. rewrite depth_struct in Hd.
    destruct (match present with None => _ | Some b => _ end) as [[[vals' cs'] present']| |]; cbn [rbind]; [|split; [reflexivity|discriminate]..].
    destruct (nextKids_agree n _ _ IH kids cs' ltac:(lia)) as [E Hp]. rewrite <- E. split; [reflexivity|]. intros v' t' H.
    apply rbind_inv in H. destruct H as ([vs ts] & H1 & H). assert (t' = CStruct present' index ts) as -> by congruence.
    rewrite !depth_struct, (Hp _ _ H1). reflexivity.
  - rewrite depth_list in Hd. destruct (list_next_agree _ _ n _ _ (onChild_agree n _ _ IH) (r, c) v ltac:(cbn [snd]; lia)) as [E Hp].
    rewrite <- E. split; [reflexivity|]. intros v' t' H. apply rbind_inv in H. destruct H as ([v1 [r1 c1]] & H1 & H).
    assert (t' = CList r1 index c1) as -> by congruence. specialize (Hp _ _ H1). cbn [snd] in Hp. rewrite !depth_list, Hp. reflexivity.
  - rewrite depth_map in Hd. destruct (map_next_agree _ _ _ _ n _ _ _ _ (onChild_agree n _ _ IH) (onChild_agree n _ _ IH) r k w v ltac:(lia) ltac:(lia)) as [E Hp].
    rewrite <- E. split; [reflexivity|]. intros v' t' H. apply rbind_inv in H. destruct H as ([v1 [[r1 k1] w1]] & H1 & H).
    assert (t' = CMap r1 index k1 w1) as -> by congruence. destruct (Hp _ _ _ _ H1) as [A B]. rewrite !depth_map, A, B. reflexivity.
Qed.
Lemma nextF_enough n t v : (depth t <= n)%nat -> nextF n t v = tree_NextBatch t v.
Proof.
  unfold Tree.tree_NextBatch. intros H. induction H as [|n H IH]; [reflexivity|].
  destruct (nextF_agree n t v H) as [E _]. rewrite <- E. exact IH.
Qed.
Lemma tree_NextBatch_depth t v v' t' : tree_NextBatch t v = Ok (v', t') -> depth t' = depth t.
Proof. unfold Tree.tree_NextBatch. apply (nextF_agree (depth t) t v). lia. Qed.
Lemma nextF_tree n : agree depth n (nextF n) tree_NextBatch.
Proof. intros t v H. split; [apply nextF_enough; exact H|]. rewrite (nextF_enough n t v H). apply tree_NextBatch_depth. Qed.

Lemma tree_NextBatch_leaf c vals cs : tree_NextBatch (CLeaf c) (VT vals cs) =
  let! (vals', c') := NextBatch inflate o c vals in Ok (VT vals' cs, CLeaf c').
Proof. reflexivity. Qed.
Lemma tree_NextBatch_dict d vals cs : tree_NextBatch (CDict d) (VT vals cs) =
  let! (vals', d') := dict_NextBatch inflate o d vals in Ok (VT vals' cs, CDict d').
Proof. reflexivity. Qed.
Lemma tree_NextBatch_struct present index kids vals cs : tree_NextBatch (CStruct present index kids) (VT vals cs) =
  let! (vals', cs', present') :=
    (match present with
     | None => Ok (vals, cs, None)
     | Some b =>
         let! (vals', b') := readNulls inflate o b vals in
         let! cs' := mapM (fillNulls vals') cs in
         Ok (vals', cs', Some b')
     end) in
  let! (cs'', kids') := nextKids tree_NextBatch kids cs' in
  Ok (VT vals' cs'', CStruct present' index kids').
Proof.
  unfold Tree.tree_NextBatch at 1. rewrite depth_struct. cbn [Tree.nextF nextStep].
  destruct (match present with None => _ | Some b => _ end) as [[[vals' cs'] present']| |]; cbn [rbind]; try reflexivity.
  destruct (nextKids_agree _ _ _ (nextF_tree (depths kids)) kids cs' (le_n _)) as [-> _]. reflexivity.
Qed.
Lemma tree_NextBatch_list r index c v : tree_NextBatch (CList r index c) v =
  let! (v', (r', c')) := list_next inflate o (onChild tree_NextBatch) (r, c) v in Ok (v', CList r' index c').
Proof.
  unfold Tree.tree_NextBatch at 1. rewrite depth_list. cbn [Tree.nextF nextStep].
  destruct (list_next_agree _ _ (odepth c) _ _ (onChild_agree _ _ _ (nextF_tree (odepth c))) (r, c) v (le_n _)) as [-> _]. reflexivity.
Qed.
Lemma tree_NextBatch_map r index k w v : tree_NextBatch (CMap r index k w) v =
  let! (v', (r', k', w')) := map_next inflate o (onChild tree_NextBatch) (onChild tree_NextBatch) (r, k, w) v in Ok (v', CMap r' index k' w').
Proof.
  unfold Tree.tree_NextBatch at 1. rewrite depth_map. cbn [Tree.nextF nextStep].
  set (n := Nat.max (odepth k) (odepth w)).
  destruct (map_next_agree _ _ _ _ n _ _ _ _ (onChild_agree _ _ _ (nextF_tree n)) (onChild_agree _ _ _ (nextF_tree n)) r k w v ltac:(lia) ltac:(lia)) as [-> _]. reflexivity.
Qed.

(** ** Skipping *)
Definition agree1 {A} (D : A -> nat) (n : nat) (f g : A -> res A) : Prop :=
  forall t, (D t <= n)%nat -> f t = g t /\ forall t', f t = Ok t' -> D t' = D t.
Lemma times_agree {A} (D : A -> nat) n f g : agree1 D n f g -> forall m, agree1 D n (times f m) (times g m).
Proof.
  intros H. induction m as [|m IH]; intros t Hd; cbn [times].
  - split; [reflexivity|]. congruence.
  - destruct (H t Hd) as [E Hp]. rewrite <- E. destruct (f t) as [t1| |]; cbn [rbind]; [|split; [reflexivity|discriminate]..].
    specialize (Hp _ eq_refl). destruct (IH t1 ltac:(lia)) as [E1 Hp1]. split; [exact E1|]. intros t' Ht. specialize (Hp1 _ Ht). congruence.
Qed.
Lemma skipChild_agree n f g : agree1 depth n f g -> forall rows, agree1 odepth n (skipChild f rows) (skipChild g rows).
Proof.
  intros H rows [t|] Hd; cbn [skipChild odepth] in *; [|split; [reflexivity|discriminate]].
  destruct (times_agree depth n f g H (Z.to_nat (i64 rows)) t Hd) as [E Hp]. rewrite <- E. split; [reflexivity|]. intros t' Ht.
  apply rbind_inv in Ht. destruct Ht as (t1 & H1 & Ht). assert (t' = Some t1) as -> by congruence. exact (Hp _ H1).
Qed.
Lemma skipKids_agree n f g : agree1 depth n f g -> forall ts, (depths ts <= n)%nat ->
  skipKids f ts = skipKids g ts /\ forall ts', skipKids f ts = Ok ts' -> depths ts' = depths ts.
Proof.
  intros H. induction ts as [|t ts IH]; intros Hd; cbn [skipKids].
  - split; [reflexivity|]. intros ts' E. assert (ts' = []) as -> by congruence. reflexivity.
  - cbn [depths fold_right] in Hd. fold (depths ts) in Hd.
    destruct (H t ltac:(lia)) as [E Hp]. rewrite <- E. destruct (f t) as [t1| |] eqn:E1; cbn [rbind]; [|split; [reflexivity|discriminate]..].
    destruct (IH ltac:(lia)) as [E2 Hp2]. rewrite <- E2. split; [reflexivity|]. intros ts' H'. apply rbind_inv in H'.
    destruct H' as (ts2 & H2 & H'). assert (ts' = t1 :: ts2) as -> by congruence. cbn [depths fold_right]. fold (depths ts2) (depths ts).
    rewrite (Hp _ eq_refl), (Hp2 _ H2). reflexivity.
Qed.
Lemma listSkip_agree C (D : C -> nat) n f g : (forall rows, agree1 D n (f rows) (g rows)) -> forall m r c, (D c <= n)%nat ->
  listSkip inflate o C f m r c = listSkip inflate o C g m r c /\
  forall r' c', listSkip inflate o C f m r c = Ok (r', c') -> D c' = D c.
Proof.
  intros H. induction m as [|m IH]; intros r c Hd; cbn [listSkip].
  - split; [reflexivity|]. congruence.
  - destruct (listHead r false) as [[l r1]| |]; cbn [rbind]; [|split; [reflexivity|discriminate]..].
    destruct l as [l|]; cbn [rbind]; [|apply IH; exact Hd].
    destruct (H l c Hd) as [E Hp]. rewrite <- E. destruct (f l c) as [c1| |]; cbn [rbind]; [|split; [reflexivity|discriminate]..].
    specialize (Hp _ eq_refl). destruct (IH r1 c1 ltac:(lia)) as [E1 Hp1]. split; [exact E1|]. intros r' c' Hc. rewrite <- Hp. eapply Hp1. exact Hc.
Qed.
Lemma skipEntries_agree K W (DK : K -> nat) (DW : W -> nat) n f g f' g' :
  (forall rows, agree1 DK n (f rows) (g rows)) -> (forall rows, agree1 DW n (f' rows) (g' rows)) -> forall m l k w, (DK k <= n)%nat -> (DW w <= n)%nat ->
  skipEntries K W f f' m l k w = skipEntries K W g g' m l k w /\
  forall k' w', skipEntries K W f f' m l k w = Ok (k', w') -> DK k' = DK k /\ DW w' = DW w.
Proof.
  intros H H'. induction m as [|m IH]; intros l k w Hd Hd'; cbn [skipEntries].
  - split; [reflexivity|]. intros k' w' E. split; congruence.
  - destruct (H l k Hd) as [E Hp]. rewrite <- E. destruct (f l k) as [k1| |]; cbn [rbind]; [|split; [reflexivity|discriminate]..].
    destruct (H' l w Hd') as [E' Hp']. rewrite <- E'. destruct (f' l w) as [w1| |]; cbn [rbind]; [|split; [reflexivity|discriminate]..].
    specialize (Hp _ eq_refl). specialize (Hp' _ eq_refl). destruct (IH l k1 w1 ltac:(lia) ltac:(lia)) as [E1 Hp1]. split; [exact E1|].
    intros k' w' Hc. destruct (Hp1 _ _ Hc). split; congruence.
Qed.
Lemma mapSkip_agree K W (DK : K -> nat) (DW : W -> nat) n f g f' g' :
  (forall rows, agree1 DK n (f rows) (g rows)) -> (forall rows, agree1 DW n (f' rows) (g' rows)) -> forall m r k w, (DK k <= n)%nat -> (DW w <= n)%nat ->
  mapSkip inflate o K W f f' m r k w = mapSkip inflate o K W g g' m r k w /\
  forall r' k' w', mapSkip inflate o K W f f' m r k w = Ok (r', k', w') -> DK k' = DK k /\ DW w' = DW w.
Proof.
  intros H H'. induction m as [|m IH]; intros r k w Hd Hd'; cbn [mapSkip].
  - split; [reflexivity|]. intros r' k' w' E. split; congruence.
  - destruct (listHead r false) as [[l r1]| |]; cbn [rbind]; [|split; [reflexivity|discriminate]..].
    destruct l as [l|]; cbn [rbind]; [|apply IH; assumption].
    destruct (skipEntries_agree K W DK DW n f g f' g' H H' (Z.to_nat (i64 l)) l k w Hd Hd') as [E Hp]. rewrite <- E.
    destruct (skipEntries K W f f' (Z.to_nat (i64 l)) l k w) as [[k1 w1]| |]; cbn [rbind]; [|split; [reflexivity|discriminate]..].
    destruct (Hp _ _ eq_refl) as [A B]. destruct (IH r1 k1 w1 ltac:(lia) ltac:(lia)) as [E1 Hp1]. split; [exact E1|].
    intros r' k' w' Hc. destruct (Hp1 _ _ _ Hc). split; congruence.
Qed.
Lemma skipF_agree n : agree1 depth n (skipF n) (skipF (S n)).
Proof.
  induction n as [|n IH]; intros t Hd; [destruct t; cbn in Hd; lia|].
  change (skipF (S (S n)) t) with (skipStep inflate o (skipF (S n)) t). change (skipF (S n) t) with (skipStep inflate o (skipF n) t).
  unfold skipStep. destruct t as [c|d|present index kids|r index c|r index k w].
  - split; [reflexivity|]. intros t' H. apply rbind_inv in H. destruct H as (c' & _ & H). assert (t' = CLeaf c') as -> by congruence. reflexivity.
  - split; [reflexivity|]. intros t' H. apply rbind_inv in H. destruct H as (c' & _ & H). assert (t' = CDict c') as -> by congruence. reflexivity.
  - rewrite depth_struct in Hd.
    destruct (match present with None => _ | Some b => _ end) as [[p present']| |]; cbn [rbind]; [|split; [reflexivity|discriminate]..].
    destruct p; cbn [rbind].
    + destruct (skipKids_agree n _ _ IH kids ltac:(lia)) as [E Hp]. rewrite <- E. split; [reflexivity|]. intros t' H.
      apply rbind_inv in H. destruct H as (ts & H1 & H). assert (t' = CStruct present' index ts) as -> by congruence.
      rewrite !depth_struct, (Hp _ H1). reflexivity.
    + split; [reflexivity|]. intros t' H. assert (t' = CStruct present' index kids) as -> by congruence. reflexivity.
  - rewrite depth_list in Hd. destruct (listSkip_agree _ _ n _ _ (skipChild_agree n _ _ IH) 1 r c ltac:(lia)) as [E Hp].
    rewrite <- E. split; [reflexivity|]. intros t' H. apply rbind_inv in H. destruct H as ([r1 c1] & H1 & H).
    assert (t' = CList r1 index c1) as -> by congruence. rewrite !depth_list, (Hp _ _ H1). reflexivity.
  - rewrite depth_map in Hd. destruct (mapSkip_agree _ _ _ _ n _ _ _ _ (skipChild_agree n _ _ IH) (skipChild_agree n _ _ IH) 1 r k w ltac:(lia) ltac:(lia)) as [E Hp].
    rewrite <- E. split; [reflexivity|]. intros t' H. apply rbind_inv in H. destruct H as ([[r1 k1] w1] & H1 & H).
    assert (t' = CMap r1 index k1 w1) as -> by congruence. destruct (Hp _ _ _ H1) as [A B]. rewrite !depth_map, A, B. reflexivity.
Qed.
Lemma skipF_enough n t : (depth t <= n)%nat -> skipF n t = tree_Skip1 t.
Proof.
  unfold Tree.tree_Skip1. intros H. induction H as [|n H IH]; [reflexivity|].
  destruct (skipF_agree n t H) as [E _]. rewrite <- E. exact IH.
Qed.
Lemma tree_Skip1_depth t t' : tree_Skip1 t = Ok t' -> depth t' = depth t.
Proof. unfold Tree.tree_Skip1. apply (skipF_agree (depth t) t). lia. Qed.
Lemma skipF_tree n : agree1 depth n (skipF n) tree_Skip1.
Proof. intros t H. split; [apply skipF_enough; exact H|]. rewrite (skipF_enough n t H). apply tree_Skip1_depth. Qed.

Lemma tree_Skip1_struct present index kids : tree_Skip1 (CStruct present index kids) =
  let! (p, present') := (match present with
                         | None => Ok (true, None)
                         | Some b => let! (p, b') := bool_Next inflate o b in Ok (p, Some b')
                         end) in
  let! kids' := (if p then skipKids tree_Skip1 kids else Ok kids) in
  Ok (CStruct present' index kids').
Proof.
  unfold Tree.tree_Skip1 at 1. rewrite depth_struct. cbn [Tree.skipF skipStep].
  destruct (match present with None => _ | Some b => _ end) as [[p present']| |]; cbn [rbind]; try reflexivity.
  destruct p; [|reflexivity]. destruct (skipKids_agree _ _ _ (skipF_tree (depths kids)) kids (le_n _)) as [-> _]. reflexivity.
Qed.
Lemma tree_Skip1_list r index c : tree_Skip1 (CList r index c) =
  let! (r', c') := listSkip inflate o (option ctree) (skipChild tree_Skip1) 1 r c in Ok (CList r' index c').
Proof.
  unfold Tree.tree_Skip1 at 1. rewrite depth_list. cbn [Tree.skipF skipStep].
  destruct (listSkip_agree _ _ (odepth c) _ _ (skipChild_agree _ _ _ (skipF_tree (odepth c))) 1 r c (le_n _)) as [-> _]. reflexivity.
Qed.
Lemma tree_Skip1_map r index k w : tree_Skip1 (CMap r index k w) =
  let! (r', k', w') := mapSkip inflate o (option ctree) (option ctree) (skipChild tree_Skip1) (skipChild tree_Skip1) 1 r k w in Ok (CMap r' index k' w').
Proof.
  unfold Tree.tree_Skip1 at 1. rewrite depth_map. cbn [Tree.skipF skipStep].
  set (n := Nat.max (odepth k) (odepth w)).
  destruct (mapSkip_agree _ _ _ _ n _ _ _ _ (skipChild_agree _ _ _ (skipF_tree n)) (skipChild_agree _ _ _ (skipF_tree n)) 1 r k w ltac:(lia) ltac:(lia)) as [-> _]. reflexivity.
Qed.
End Tree.
