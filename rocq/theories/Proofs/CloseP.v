(** Closing. *)
From Coq Require Import ZifyBool ZifyNat.
From Verif.Model Require Import Go Codec ByteBool IntRle Chunk Stream Schema Rows File Column Wire Nested Tree Assembled Close.
From Verif.Spec Require Import EndSpec ProjectSpec CloseSpec.
From Verif.Proofs Require Import Base SchemaP TreeP.

(** ** Reading changes no pointer *)
Section Keep.
Variable inflate : list Z -> res (list Z).
Variable o : opts.
Definition isSome {A} (x : option A) : bool := match x with Some _ => true | None => false end.
Lemma closeStream_some {A} (x y : option A) : isSome x = isSome y -> closeStream x = closeStream y.
Proof. destruct x, y; cbn; congruence. Qed.
Lemma closeSome_some {A} (x y : option A) : isSome x = isSome y -> closeSome x = closeSome y.
Proof. destruct x, y; cbn; congruence. Qed.

Definition sameC (c c' : colR) : Prop :=
  cr_kind c' = cr_kind c /\ cr_hasNulls c' = cr_hasNulls c /\ isSome (cr_present c') = isSome (cr_present c) /\
  isSome (cr_data c') = isSome (cr_data c) /\ isSome (cr_second c') = isSome (cr_second c).
Lemma sameC_refl c : sameC c c. Proof. repeat split. Qed.
Lemma sameC_trans a b c : sameC a b -> sameC b c -> sameC a c.
Proof. intros (A1 & A2 & A3 & A4 & A5) (B1 & B2 & B3 & B4 & B5). repeat split; congruence. Qed.
Lemma sameC_close c c' : sameC c c' -> col_Close c' = col_Close c.
Proof.
  intros (A1 & A2 & A3 & A4 & A5). unfold col_Close. rewrite A1, A2, (closeStream_some _ _ A3), (closeSome_some _ _ A3), (closeStream_some _ _ A4), (closeStream_some _ _ A5). reflexivity.
Qed.
Lemma nextPresent_same c old b c' : nextPresent inflate o c old = Ok (b, c') -> sameC c c'.
Proof.
  unfold nextPresent. destruct (cr_present c) as [p|] eqn:E; intros H; [|assert (c' = c) as -> by congruence; apply sameC_refl].
  apply rbind_inv in H. destruct H as ([x b'] & _ & H). assert (c' = setPresent b' c) as -> by congruence. repeat split; cbn; rewrite ?E; reflexivity.
Qed.
Lemma nextRun_some dec d x d' : nextRun inflate o dec d = Ok (x, d') -> isSome d = true.
Proof. destruct d; [reflexivity|discriminate]. Qed.
Lemma nextBool_some d x d' : nextBool inflate o d = Ok (x, d') -> isSome d = true.
Proof. destruct d; [reflexivity|discriminate]. Qed.
Lemma nextRaw_some {A} (p : prog A) d x d' : nextRaw inflate o p d = Ok (x, d') -> isSome d = true.
Proof. destruct d; [reflexivity|discriminate]. Qed.
Lemma nextSecond_some dec d x d' : nextSecond inflate o dec d = Ok (x, d') -> isSome d = true.
Proof. destruct d; [reflexivity|discriminate]. Qed.
Lemma nextValue_same c old g c' : nextValue inflate o c old = Ok (g, c') -> sameC c c'.
Proof.
  unfold nextValue. destruct (cr_kind c) eqn:K; intros H; try discriminate H;
    repeat (apply rbind_inv in H; destruct H as ([? ?] & ?E & H));
    try (destruct old; try discriminate H);
    match type of H with Ok (_, ?x) = _ => assert (c' = x) as -> by congruence end;
    repeat match goal with
           | E : nextRun _ _ _ _ = Ok _ |- _ => apply nextRun_some in E
           | E : nextBool _ _ _ = Ok _ |- _ => apply nextBool_some in E
           | E : nextRaw _ _ _ _ = Ok _ |- _ => apply nextRaw_some in E
           | E : nextSecond _ _ _ _ = Ok _ |- _ => apply nextSecond_some in E
           end; repeat split; cbn; congruence.
Qed.
Lemma NextBatch_same vec : forall c xs c', NextBatch inflate o c vec = Ok (xs, c') -> sameC c c'.
Proof.
  induction vec as [|old vec IH]; intros c xs c' H; cbn [NextBatch] in H; [assert (c' = c) as -> by congruence; apply sameC_refl|].
  apply rbind_inv in H. destruct H as ([x c1] & E1 & H). apply rbind_inv in H. destruct H as ([ys c2] & E2 & H). assert (c' = c2) as -> by congruence.
  eapply sameC_trans; [|eapply IH; exact E2]. unfold nextRow in E1. apply rbind_inv in E1. destruct E1 as ([null c0] & E0 & E1).
  eapply sameC_trans; [eapply nextPresent_same; exact E0|]. destruct null; [assert (c1 = c0) as -> by congruence; apply sameC_refl|].
  apply rbind_inv in E1. destruct E1 as ([g c3] & E3 & E1). assert (c1 = c3) as -> by congruence. eapply nextValue_same; exact E3.
Qed.
Lemma Skip_same n : forall c c', skipRows inflate o n c = Ok c' -> sameC c c'.
Proof.
  induction n as [|n IH]; intros c c' H; cbn [skipRows] in H; [assert (c' = c) as -> by congruence; apply sameC_refl|].
  apply rbind_inv in H. destruct H as ([null c1] & E1 & H). apply rbind_inv in H. destruct H as (c2 & E2 & H).
  eapply sameC_trans; [eapply nextPresent_same; exact E1|]. eapply sameC_trans; [|eapply IH; exact H].
  destruct null; [assert (c2 = c1) as -> by congruence; apply sameC_refl|]. apply rbind_inv in E2. destruct E2 as ([g c3] & E3 & E2).
  assert (c2 = c3) as -> by congruence. eapply nextValue_same; exact E3.
Qed.
Lemma seekTo_same pp dp sp c c' : seekTo inflate o pp dp sp c = Ok c' -> sameC c c'.
Proof.
  unfold seekTo. intros H. apply rbind_inv in H. destruct H as (c1 & E1 & H). apply rbind_inv in H. destruct H as (d & Ed & H). cbv zeta in H.
  assert (S1 : sameC c c1). { destruct (cr_present c) as [p|] eqn:E; [|assert (c1 = c) as -> by congruence; apply sameC_refl].
    apply rbind_inv in E1. destruct E1 as (b & _ & E1). assert (c1 = setPresent b c) as -> by congruence. repeat split; cbn; rewrite ?E; reflexivity. }
  assert (S2 : sameC c1 (setData d c1)). { repeat split; cbn. destruct (cr_data c1); [reflexivity|discriminate Ed]. }
  eapply sameC_trans; [exact S1|]. eapply sameC_trans; [exact S2|]. destruct (hasSecond (cr_kind c)); [|assert (c' = setData d c1) as -> by congruence; apply sameC_refl].
  apply rbind_inv in H. destruct H as (s & Es & H). match type of H with Ok ?x = _ => assert (c' = x) as -> by congruence end.
  repeat split; cbn. cbn in Es. destruct (cr_second c1); [reflexivity|discriminate Es].
Qed.
Lemma SeekStride_same stride c c' : SeekStride inflate o stride c = Ok c' -> sameC c c'.
Proof.
  unfold SeekStride. cbv zeta. destruct (_ && _); intros H; [eapply seekTo_same; exact H|].
  apply rbind_inv in H. destruct H as (l & _ & H). apply rbind_inv in H. destruct H as (pp & _ & H). apply rbind_inv in H. destruct H as (dp & _ & H).
  apply rbind_inv in H. destruct H as (sp & _ & H). eapply seekTo_same; exact H.
Qed.

Definition sameD (d d' : dictR) : Prop :=
  isSome (dr_present d') = isSome (dr_present d) /\ isSome (dr_data d') = isSome (dr_data d) /\
  isSome (dr_dict d') = isSome (dr_dict d) /\ isSome (dr_length d') = isSome (dr_length d).
Lemma sameD_close d d' : sameD d d' -> dict_Close d' = dict_Close d.
Proof.
  intros (A1 & A2 & A3 & A4). unfold dict_Close. rewrite (closeSome_some _ _ A1), (closeStream_some _ _ A2), (closeStream_some _ _ A3), (closeStream_some _ _ A4). reflexivity.
Qed.
Lemma loadOne_some x y : loadOne inflate o x = Ok y -> isSome (snd (fst y)) = isSome (snd (fst x)).
Proof.
  destruct x as [[l d] acc]. unfold loadOne. intros H. apply rbind_inv in H. destruct H as ([n l'] & _ & H). destruct d as [d|]; [|discriminate].
  apply rbind_inv in H. destruct H as ([s d'] & _ & H). match type of H with Ok ?z = _ => assert (y = z) as -> by congruence end. reflexivity.
Qed.
Lemma loadMany_some n : forall x y, loadMany inflate o n x = Ok y -> isSome (snd (fst y)) = isSome (snd (fst x)).
Proof.
  induction n as [|n IH]; intros x y H; cbn [loadMany] in H; destruct (v_Finished (fst (fst x))); try (assert (y = x) as -> by congruence; reflexivity).
  - apply loadOne_some. exact H.
  - apply rbind_inv in H. destruct H as (z & E & H). rewrite (IH _ _ H). apply IH. exact E.
Qed.
Lemma loadDict_same d d' : loadDict inflate o d = Ok d' -> sameD d d'.
Proof.
  unfold loadDict. destruct (dr_loaded d); intros H; [assert (d' = d) as -> by congruence; repeat split|].
  destruct (dr_length d) as [l|] eqn:El; [|discriminate]. apply rbind_inv in H. destruct H as ([[l' c] ss] & E & H). apply loadMany_some in E. cbn [fst snd] in E.
  destruct (v_Finished l'); [|discriminate]. match type of H with Ok ?z = _ => assert (d' = z) as -> by congruence end. repeat split; cbn; rewrite ?El; auto.
Qed.
Lemma dictRows_some vec : forall ss p d xs p' d', dictRows inflate o ss p d vec = Ok (xs, p', d') -> isSome p' = isSome p /\ isSome d' = isSome d.
Proof.
  induction vec as [|old vec IH]; intros ss p d xs p' d' H; cbn [dictRows] in H; [assert (p' = p /\ d' = d) as [-> ->] by (split; congruence); auto|].
  apply rbind_inv in H. destruct H as ([null p1] & E1 & H).
  assert (P1 : isSome p1 = isSome p). { destruct p as [b|]; [|assert (p1 = None) as -> by congruence; reflexivity]. apply rbind_inv in E1. destruct E1 as ([x b'] & _ & E1).
    assert (p1 = Some b') as -> by congruence. reflexivity. }
  destruct null.
  - apply rbind_inv in H. destruct H as ([[ys p2] d2] & E2 & H). destruct (IH _ _ _ _ _ _ E2). assert (p' = p2 /\ d' = d2) as [-> ->] by (split; congruence). split; congruence.
  - apply rbind_inv in H. destruct H as ([i d1] & E2 & H). apply nextSecond_some in E2. destruct (if _ <? _ then _ else _) as [s|]; [|discriminate].
    apply rbind_inv in H. destruct H as ([[ys p2] d2] & E3 & H). destruct (IH _ _ _ _ _ _ E3). assert (p' = p2 /\ d' = d2) as [-> ->] by (split; congruence). split; [congruence|]. cbn [isSome] in *. congruence.
Qed.
Lemma dict_Next_same d vec xs d' : dict_NextBatch inflate o d vec = Ok (xs, d') -> sameD d d'.
Proof.
  unfold dict_NextBatch. intros H. apply rbind_inv in H. destruct H as (d1 & E1 & H). apply rbind_inv in H. destruct H as ([[ys p] e] & E2 & H).
  apply loadDict_same in E1. destruct E1 as (A1 & A2 & A3 & A4). apply dictRows_some in E2. destruct E2 as [B1 B2].
  assert (d' = dict_at p e d1) as -> by congruence. repeat split; cbn; congruence.
Qed.
Lemma dict_Skip_same d d' : dict_Skip1 inflate o d = Ok d' -> sameD d d'.
Proof.
  unfold dict_Skip1. intros H. apply rbind_inv in H. destruct H as ([null p] & E & H).
  assert (P1 : isSome p = isSome (dr_present d)). { destruct (dr_present d) as [b|]; [|assert (p = None) as -> by congruence; reflexivity]. apply rbind_inv in E. destruct E as ([x b'] & _ & E).
    assert (p = Some b') as -> by congruence. reflexivity. }
  destruct null; [assert (d' = dict_at p (dr_data d) d) as -> by congruence; repeat split; exact P1|].
  apply rbind_inv in H. destruct H as ([x e] & E2 & H). apply nextSecond_some in E2. assert (d' = dict_at p (Some e) d) as -> by congruence. repeat split; cbn; [exact P1|congruence].
Qed.
Lemma dict_seekTo_same pp dp d d' : dict_seekTo inflate o pp dp d = Ok d' -> sameD d d'.
Proof.
  unfold dict_seekTo. intros H. apply rbind_inv in H. destruct H as (p & E & H).
  assert (P1 : isSome p = isSome (dr_present d)). { destruct (dr_present d) as [b|]; [|assert (p = None) as -> by congruence; reflexivity]. apply rbind_inv in E. destruct E as (b' & _ & E).
    assert (p = Some b') as -> by congruence. reflexivity. }
  destruct (dr_data d) as [x|] eqn:Ed; [|discriminate]. apply rbind_inv in H. destruct H as (x' & _ & H). assert (d' = dict_at p (Some x') d) as -> by congruence.
  repeat split; cbn; [exact P1|]. rewrite Ed. reflexivity.
Qed.
Lemma dict_SeekStride_same stride d d' : dict_SeekStride inflate o stride d = Ok d' -> sameD d d'.
Proof.
  unfold dict_SeekStride. destruct (_ =? _); intros H; [eapply dict_seekTo_same; exact H|].
  apply rbind_inv in H. destruct H as (l & _ & H). apply rbind_inv in H. destruct H as (pp & _ & H). apply rbind_inv in H. destruct H as (dp & _ & H). eapply dict_seekTo_same; exact H.
Qed.

Definition sameL (r r' : listR) : Prop := isSome (ls_present r') = isSome (ls_present r) /\ isSome (ls_length r') = isSome (ls_length r).
Lemma sameL_refl r : sameL r r. Proof. split; reflexivity. Qed.
Lemma sameL_trans a b c : sameL a b -> sameL b c -> sameL a c.
Proof. intros [A1 A2] [B1 B2]. split; congruence. Qed.
Lemma listHead_same r old n r' : listHead inflate o r old = Ok (n, r') -> sameL r r'.
Proof.
  unfold listHead. intros H. apply rbind_inv in H. destruct H as ([null p] & E & H).
  assert (P1 : isSome p = isSome (ls_present r)). { destruct (ls_present r) as [b|]; [|assert (p = None) as -> by congruence; reflexivity]. apply rbind_inv in E. destruct E as ([x b'] & _ & E).
    assert (p = Some b') as -> by congruence. reflexivity. }
  destruct null; [match type of H with Ok (_, ?z) = _ => assert (r' = z) as -> by congruence end; split; [exact P1|reflexivity]|].
  apply rbind_inv in H. destruct H as ([m l] & E2 & H). apply nextSecond_some in E2. match type of H with Ok (_, ?z) = _ => assert (r' = z) as -> by congruence end.
  split; cbn; [exact P1|congruence].
Qed.

(** Functions that keep something of the state. *)
Definition keeps {A B} (D : A -> B) (f : A -> vtree -> res (vtree * A)) : Prop := forall t v v' t', f t v = Ok (v', t') -> D t' = D t.
Definition keeps1 {A B} (D : A -> B) (f : A -> res A) : Prop := forall t t', f t = Ok t' -> D t' = D t.
Definition oClose (c : option ctree) : res Z := match c with None => Panic | Some t => tree_Close t end.
Definition kidsClose : list ctree -> res Z :=
  fix go (ts : list ctree) : res Z :=
    match ts with [] => Ok 0 | t :: r => let! a := tree_Close t in let! b := go r in Ok (a + b) end.
Lemma tree_Close_struct p i cs : tree_Close (CStruct p i cs) = (let! n := kidsClose cs in Ok (closeSome p + n)).
Proof. reflexivity. Qed.
Lemma tree_Close_map r i k w : tree_Close (CMap r i k w) = (let! a := oClose k in let! b := oClose w in Ok (closeSome (ls_present r) + a + b)).
Proof. reflexivity. Qed.
Lemma tree_Close_list r i c : tree_Close (CList r i c) = (let! n := closeStream (ls_length r) in Ok (closeSome (ls_present r) + n)).
Proof. reflexivity. Qed.
Lemma onChild_keeps f : keeps tree_Close f -> keeps oClose (onChild f).
Proof.
  intros H [t|] v v' t' E; [|discriminate]. cbn [onChild] in E. apply rbind_inv in E. destruct E as ([v1 t1] & E1 & E).
  assert (t' = Some t1) as -> by congruence. cbn [oClose]. eapply H; exact E1.
Qed.
Lemma nextKids_keeps f : keeps tree_Close f -> forall ts vs vs' ts', nextKids f ts vs = Ok (vs', ts') -> kidsClose ts' = kidsClose ts.
Proof.
  intros H. induction ts as [|t ts IH]; intros vs vs' ts' E; cbn [nextKids] in E; [assert (ts' = []) as -> by congruence; reflexivity|].
  destruct vs as [|v vs]; [discriminate|]. apply rbind_inv in E. destruct E as ([v1 t1] & E1 & E). apply rbind_inv in E. destruct E as ([vs2 ts2] & E2 & E).
  assert (ts' = t1 :: ts2) as -> by congruence. cbn [kidsClose]. fold kidsClose. rewrite (H _ _ _ _ E1), (IH _ _ _ E2). reflexivity.
Qed.
Lemma list_keeps {C B} (D : C -> B) f : keeps D f -> forall vec r c cv xs cv' r' c', list_NextBatch inflate o C f r c vec cv = Ok (xs, cv', r', c') -> sameL r r' /\ D c' = D c.
Proof.
  intros H. induction vec as [|old vec IH]; intros r c cv xs cv' r' c' E; cbn [list_NextBatch] in E; [assert (r' = r /\ c' = c) as [-> ->] by (split; congruence); split; [apply sameL_refl|reflexivity]|].
  apply rbind_inv in E. destruct E as ([n r1] & E1 & E). cbv zeta in E. apply rbind_inv in E. destruct E as ([cv1 c1] & E2 & E). apply rbind_inv in E. destruct E as ([[[ys cv2] r2] c2] & E3 & E).
  destruct (IH _ _ _ _ _ _ _ E3) as [S2 D2]. assert (r' = r2 /\ c' = c2) as [-> ->] by (split; congruence). apply listHead_same in E1. specialize (H _ _ _ _ E2).
  split; [eapply sameL_trans; eassumption|congruence].
Qed.
Lemma list_next_keeps {C B} (D : C -> B) f : keeps D f -> forall r c v v' r' c', list_next inflate o f (r, c) v = Ok (v', (r', c')) -> sameL r r' /\ D c' = D c.
Proof.
  intros H r c [vals cs] v' r' c' E. unfold list_next in E. destruct cs as [|cv cs].
  - destruct vals as [|old vals]; [assert (r' = r /\ c' = c) as [-> ->] by (split; congruence); split; [apply sameL_refl|reflexivity]|]. destruct (listHead inflate o r (Null old)); discriminate E.
  - apply rbind_inv in E. destruct E as ([[[ys cv2] r2] c2] & E3 & E). assert (r' = r2 /\ c' = c2) as [-> ->] by (split; congruence). eapply list_keeps; eassumption.
Qed.
Lemma map_keeps {K W B B'} (DK : K -> B) (DW : W -> B') f g : keeps DK f -> keeps DW g -> forall vec r k w kv wv xs kv' wv' r' k' w',
  map_NextBatch inflate o K W f g r k w vec kv wv = Ok (xs, kv', wv', r', k', w') -> sameL r r' /\ DK k' = DK k /\ DW w' = DW w.
Proof.
  intros H H'. induction vec as [|old vec IH]; intros r k w kv wv xs kv' wv' r' k' w' E; cbn [map_NextBatch] in E; [assert (r' = r /\ k' = k /\ w' = w) as (-> & -> & ->) by (split; [|split]; congruence); split; [apply sameL_refl|auto]|].
  apply rbind_inv in E. destruct E as ([n r1] & E1 & E). cbv zeta in E. apply rbind_inv in E. destruct E as ([kv1 k1] & E2 & E). apply rbind_inv in E. destruct E as ([wv1 w1] & E3 & E).
  apply rbind_inv in E. destruct E as ([[[[[ys kv2] wv2] r2] k2] w2] & E4 & E). destruct (IH _ _ _ _ _ _ _ _ _ _ _ E4) as (S2 & D2 & D3).
  assert (r' = r2 /\ k' = k2 /\ w' = w2) as (-> & -> & ->) by (split; [|split]; congruence). apply listHead_same in E1. specialize (H _ _ _ _ E2). specialize (H' _ _ _ _ E3).
  split; [eapply sameL_trans; eassumption|split; congruence].
Qed.
Lemma map_next_keeps {K W B B'} (DK : K -> B) (DW : W -> B') f g : keeps DK f -> keeps DW g -> forall r k w v v' r' k' w',
  map_next inflate o f g (r, k, w) v = Ok (v', (r', k', w')) -> sameL r r' /\ DK k' = DK k /\ DW w' = DW w.
Proof.
  intros H H' r k w [vals cs] v' r' k' w' E. unfold map_next in E.
  assert (Hs : match vals with [] => Ok (VT vals cs, (r, k, w)) | old :: _ => let! _ := listHead inflate o r (Null old) in Panic end = Ok (v', (r', k', w')) -> sameL r r' /\ DK k' = DK k /\ DW w' = DW w).
  { destruct vals as [|old vals]; intros E1; [assert (r' = r /\ k' = k /\ w' = w) as (-> & -> & ->) by (split; [|split]; congruence); split; [apply sameL_refl|auto]|]. destruct (listHead inflate o r (Null old)); discriminate E1. }
  destruct cs as [|kv [|wv cs]]; [exact (Hs E)|exact (Hs E)|]. apply rbind_inv in E. destruct E as ([[[[[ys kv2] wv2] r2] k2] w2] & E4 & E).
  assert (r' = r2 /\ k' = k2 /\ w' = w2) as (-> & -> & ->) by (split; [|split]; congruence). eapply map_keeps; eassumption.
Qed.
Lemma sameL_list r r' i c c' : sameL r r' -> tree_Close (CList r' i c') = tree_Close (CList r i c).
Proof. intros [A B]. rewrite !tree_Close_list, (closeSome_some _ _ A), (closeStream_some _ _ B). reflexivity. Qed.
Lemma sameL_map r r' i k k' w w' : sameL r r' -> oClose k' = oClose k -> oClose w' = oClose w -> tree_Close (CMap r' i k' w') = tree_Close (CMap r i k w).
Proof. intros [A B] E1 E2. rewrite !tree_Close_map, (closeSome_some _ _ A), E1, E2. reflexivity. Qed.
Lemma nextF_keeps n : keeps tree_Close (nextF inflate o n).
Proof.
  induction n as [|n IH]; intros t v v' t' E; [discriminate|]. cbn [nextF] in E. unfold nextStep in E. destruct t as [c|d|p i kids|r i c|r i k w].
  - destruct v as [vals cs]. apply rbind_inv in E. destruct E as ([xs c'] & E1 & E). assert (t' = CLeaf c') as -> by congruence. apply sameC_close. eapply NextBatch_same; exact E1.
  - destruct v as [vals cs]. apply rbind_inv in E. destruct E as ([xs d'] & E1 & E). assert (t' = CDict d') as -> by congruence. apply sameD_close. eapply dict_Next_same; exact E1.
  - destruct v as [vals cs]. apply rbind_inv in E. destruct E as ([[vals' cs'] p'] & E1 & E). apply rbind_inv in E. destruct E as ([cs'' kids'] & E2 & E).
    assert (t' = CStruct p' i kids') as -> by congruence. rewrite !tree_Close_struct, (nextKids_keeps _ IH _ _ _ _ E2).
    replace (closeSome p') with (closeSome p); [reflexivity|]. destruct p as [b|]; [|assert (p' = None) as -> by congruence; reflexivity].
    apply rbind_inv in E1. destruct E1 as ([vs b'] & _ & E1). apply rbind_inv in E1. destruct E1 as (cs2 & _ & E1). assert (p' = Some b') as -> by congruence. reflexivity.
  - apply rbind_inv in E. destruct E as ([v1 [r1 c1]] & E1 & E). assert (t' = CList r1 i c1) as -> by congruence.
    apply (list_next_keeps oClose _ (onChild_keeps _ IH)) in E1. apply sameL_list. apply E1.
  - apply rbind_inv in E. destruct E as ([v1 [[r1 k1] w1]] & E1 & E). assert (t' = CMap r1 i k1 w1) as -> by congruence.
    apply (map_next_keeps oClose oClose _ _ (onChild_keeps _ IH) (onChild_keeps _ IH)) in E1. apply sameL_map; apply E1.
Qed.
Lemma times_keeps {A B} (D : A -> B) f : keeps1 D f -> forall n, keeps1 D (times f n).
Proof.
  intros H. induction n as [|n IH]; intros t t' E; cbn [times] in E; [congruence|]. apply rbind_inv in E. destruct E as (y & E1 & E). rewrite (IH _ _ E). eapply H; exact E1.
Qed.
Lemma skipChild_keeps f rows : keeps1 tree_Close f -> keeps1 oClose (skipChild f rows).
Proof.
  intros H [t|] t' E; [|discriminate]. cbn [skipChild] in E. apply rbind_inv in E. destruct E as (t1 & E1 & E). assert (t' = Some t1) as -> by congruence.
  cbn [oClose]. eapply times_keeps; eassumption.
Qed.
Lemma skipKids_keeps f : keeps1 tree_Close f -> forall ts ts', skipKids f ts = Ok ts' -> kidsClose ts' = kidsClose ts.
Proof.
  intros H. induction ts as [|t ts IH]; intros ts' E; cbn [skipKids] in E; [assert (ts' = []) as -> by congruence; reflexivity|].
  apply rbind_inv in E. destruct E as (t1 & E1 & E). apply rbind_inv in E. destruct E as (ts2 & E2 & E). assert (ts' = t1 :: ts2) as -> by congruence.
  cbn [kidsClose]. fold kidsClose. rewrite (H _ _ E1), (IH _ E2). reflexivity.
Qed.
Lemma listSkip_keeps {C B} (D : C -> B) f : (forall rows, keeps1 D (f rows)) -> forall n r c r' c', listSkip inflate o C f n r c = Ok (r', c') -> sameL r r' /\ D c' = D c.
Proof.
  intros H. induction n as [|n IH]; intros r c r' c' E; cbn [listSkip] in E; [assert (r' = r /\ c' = c) as [-> ->] by (split; congruence); split; [apply sameL_refl|reflexivity]|].
  apply rbind_inv in E. destruct E as ([l r1] & E1 & E). apply rbind_inv in E. destruct E as (c1 & E2 & E). destruct (IH _ _ _ _ E) as [S D1]. apply listHead_same in E1.
  split; [eapply sameL_trans; eassumption|]. rewrite D1. destruct l as [l|]; [eapply H; exact E2|congruence].
Qed.
Lemma skipEntries_keeps {K W B B'} (DK : K -> B) (DW : W -> B') f g : (forall rows, keeps1 DK (f rows)) -> (forall rows, keeps1 DW (g rows)) -> forall n l k w k' w',
  skipEntries K W f g n l k w = Ok (k', w') -> DK k' = DK k /\ DW w' = DW w.
Proof.
  intros H H'. induction n as [|n IH]; intros l k w k' w' E; cbn [skipEntries] in E; [assert (k' = k /\ w' = w) as [-> ->] by (split; congruence); auto|].
  apply rbind_inv in E. destruct E as (k1 & E1 & E). apply rbind_inv in E. destruct E as (w1 & E2 & E). destruct (IH _ _ _ _ _ E) as [A C].
  rewrite A, C. split; [eapply H; exact E1|eapply H'; exact E2].
Qed.
Lemma mapSkip_keeps {K W B B'} (DK : K -> B) (DW : W -> B') f g : (forall rows, keeps1 DK (f rows)) -> (forall rows, keeps1 DW (g rows)) -> forall n r k w r' k' w',
  mapSkip inflate o K W f g n r k w = Ok (r', k', w') -> sameL r r' /\ DK k' = DK k /\ DW w' = DW w.
Proof.
  intros H H'. induction n as [|n IH]; intros r k w r' k' w' E; cbn [mapSkip] in E; [assert (r' = r /\ k' = k /\ w' = w) as (-> & -> & ->) by (split; [|split]; congruence); split; [apply sameL_refl|auto]|].
  apply rbind_inv in E. destruct E as ([l r1] & E1 & E). apply rbind_inv in E. destruct E as ([k1 w1] & E2 & E). destruct (IH _ _ _ _ _ _ E) as (S & A & C). apply listHead_same in E1.
  split; [eapply sameL_trans; eassumption|]. rewrite A, C. destruct l as [l|]; [eapply skipEntries_keeps; eassumption|]. assert (k1 = k /\ w1 = w) as [-> ->] by (split; congruence). auto.
Qed.
Lemma skipF_keeps n : keeps1 tree_Close (skipF inflate o n).
Proof.
  induction n as [|n IH]; intros t t' E; [discriminate|]. cbn [skipF] in E. unfold skipStep in E. destruct t as [c|d|p i kids|r i c|r i k w].
  - apply rbind_inv in E. destruct E as (c' & E1 & E). assert (t' = CLeaf c') as -> by congruence. apply sameC_close. eapply Skip_same; exact E1.
  - apply rbind_inv in E. destruct E as (d' & E1 & E). assert (t' = CDict d') as -> by congruence. apply sameD_close. eapply dict_Skip_same; exact E1.
  - apply rbind_inv in E. destruct E as ([q p'] & E1 & E). apply rbind_inv in E. destruct E as (kids' & E2 & E).
    assert (t' = CStruct p' i kids') as -> by congruence. rewrite !tree_Close_struct. replace (kidsClose kids') with (kidsClose kids).
    + replace (closeSome p') with (closeSome p); [reflexivity|]. destruct p as [b|]; [|assert (p' = None) as -> by congruence; reflexivity].
      apply rbind_inv in E1. destruct E1 as ([x b'] & _ & E1). assert (p' = Some b') as -> by congruence. reflexivity.
    + symmetry. destruct q; [eapply skipKids_keeps; eassumption|congruence].
  - apply rbind_inv in E. destruct E as ([r1 c1] & E1 & E). assert (t' = CList r1 i c1) as -> by congruence.
    apply (listSkip_keeps oClose) in E1; [|intros; apply skipChild_keeps; exact IH]. apply sameL_list. apply E1.
  - apply rbind_inv in E. destruct E as ([[r1 k1] w1] & E1 & E). assert (t' = CMap r1 i k1 w1) as -> by congruence.
    apply (mapSkip_keeps oClose oClose) in E1; [|intros; apply skipChild_keeps; exact IH..]. apply sameL_map; apply E1.
Qed.
Lemma list_seekTo_same pp lp r r' : list_seekTo inflate o pp lp r = Ok r' -> sameL r r'.
Proof.
  unfold list_seekTo. intros H. apply rbind_inv in H. destruct H as (p & E & H).
  assert (P1 : isSome p = isSome (ls_present r)). { destruct (ls_present r) as [b|]; [|assert (p = None) as -> by congruence; reflexivity]. apply rbind_inv in E. destruct E as (b' & _ & E).
    assert (p = Some b') as -> by congruence. reflexivity. }
  destruct (ls_length r) as [x|] eqn:Ed; [|discriminate]. apply rbind_inv in H. destruct H as (x' & _ & H). match type of H with Ok ?z = _ => assert (r' = z) as -> by congruence end.
  split; cbn; [exact P1|]. rewrite Ed. reflexivity.
Qed.
Lemma list_SeekStride_same index stride r r' : list_SeekStride inflate o index stride r = Ok r' -> sameL r r'.
Proof.
  unfold list_SeekStride. destruct (_ =? _); intros H; [eapply list_seekTo_same; exact H|].
  apply rbind_inv in H. destruct H as (l & _ & H). apply rbind_inv in H. destruct H as (pp & _ & H). apply rbind_inv in H. destruct H as (dp & _ & H). eapply list_seekTo_same; exact H.
Qed.
Definition seekSub (stride : Z) (c : option ctree) : res (option ctree) :=
  match c with None => Panic | Some t => let! t' := tree_SeekStride inflate o stride t in Ok (Some t') end.
Lemma tree_SeekStride_keeps stride t : forall t', tree_SeekStride inflate o stride t = Ok t' -> tree_Close t' = tree_Close t.
Proof.
  induction t as [c|d|p i kids IH|r i c IH|r i k w IHk IHw] using ctree_ind'; intros t' E.
  - cbn [tree_SeekStride] in E. apply rbind_inv in E. destruct E as (c' & E1 & E). assert (t' = CLeaf c') as -> by congruence. apply sameC_close. eapply SeekStride_same; exact E1.
  - cbn [tree_SeekStride] in E. apply rbind_inv in E. destruct E as (d' & E1 & E). assert (t' = CDict d') as -> by congruence. apply sameD_close. eapply dict_SeekStride_same; exact E1.
  - cbn [tree_SeekStride] in E. apply rbind_inv in E. destruct E as (p' & E1 & E). apply rbind_inv in E. destruct E as (kids' & E2 & E). assert (t' = CStruct p' i kids') as -> by congruence.
    rewrite !tree_Close_struct. replace (kidsClose kids') with (kidsClose kids).
    + replace (closeSome p') with (closeSome p); [reflexivity|]. destruct p as [b|]; [|assert (p' = None) as -> by congruence; reflexivity].
      apply rbind_inv in E1. destruct E1 as (x & _ & E1). apply rbind_inv in E1. destruct E1 as (b' & _ & E1). assert (p' = Some b') as -> by congruence. reflexivity.
    + clear E E1. revert kids' E2. induction IH as [|t ts Ht Hts IHl]; intros kids' E2; [assert (kids' = []) as -> by congruence; reflexivity|].
      apply rbind_inv in E2. destruct E2 as (t1 & E1 & E2). apply rbind_inv in E2. destruct E2 as (ts2 & E3 & E2). assert (kids' = t1 :: ts2) as -> by congruence.
      cbn [kidsClose]. fold kidsClose. rewrite (Ht _ E1), (IHl _ E3). reflexivity.
  - cbn [tree_SeekStride] in E. apply rbind_inv in E. destruct E as (r' & E1 & E). apply rbind_inv in E. destruct E as (c' & E2 & E). assert (t' = CList r' i c') as -> by congruence.
    apply sameL_list. eapply list_SeekStride_same; exact E1.
  - cbn [tree_SeekStride] in E. apply rbind_inv in E. destruct E as (r' & E1 & E). apply rbind_inv in E. destruct E as (k' & E2 & E). apply rbind_inv in E. destruct E as (w' & E3 & E).
    assert (t' = CMap r' i k' w') as -> by congruence. apply sameL_map; [eapply list_SeekStride_same; exact E1| |].
    + destruct k as [k|]; [|discriminate]. apply rbind_inv in E2. destruct E2 as (k1 & E4 & E2). assert (k' = Some k1) as -> by congruence. apply IHk. exact E4.
    + destruct w as [w|]; [|discriminate]. apply rbind_inv in E3. destruct E3 as (k1 & E4 & E3). assert (w' = Some k1) as -> by congruence. apply IHw. exact E4.
Qed.
End Keep.

(** ** The whole batch reader *)
Definition sClose (s : stripeRd) : res Z := stripe_Close s.
Lemma stripes_Close_map l m : map stripe_Close m = map stripe_Close l -> stripes_Close m = stripes_Close l.
Proof.
  revert m. induction l as [|s l IH]; intros [|u m] H; try discriminate H; [reflexivity|]. cbn [map stripes_Close] in *. injection H as E1 E2. rewrite E1, (IH _ E2). reflexivity.
Qed.
Lemma map_set {A B} (f : A -> B) l : forall i x y, nth_error l i = Some y -> f x = f y -> map f (set_nth l i x) = map f l.
Proof.
  induction l as [|a l IH]; intros [|i] x y H E; cbn [nth_error set_nth map] in *; try discriminate; [congruence|]. rewrite (IH _ _ _ H E). reflexivity.
Qed.
Section Batch.
Variable inflate : list Z -> res (list Z).
Lemma stripeNext_keeps o hn s v s' v' e : stripeNext inflate o hn s v = Ok (s', v', e) -> stripe_Close s' = stripe_Close s.
Proof.
  unfold stripeNext. cbv zeta. intros H. apply rbind_inv in H. destruct H as (v1 & _ & H). unfold stripe_Close at 2. destruct (sr_tree s) as [t|]; [|discriminate].
  apply rbind_inv in H. destruct H as ([x t'] & E & H). match type of H with Ok (?z, _, _) = _ => assert (s' = z) as -> by congruence end. cbn. eapply nextF_keeps; exact E.
Qed.
Lemma readLoop_keeps o hn fuel : forall ss i v ss' i' v', readLoop inflate o hn fuel ss i v = Ok (ss', i', v') -> map stripe_Close ss' = map stripe_Close ss.
Proof.
  induction fuel as [|f IH]; intros ss i v ss' i' v' H; [discriminate|]. cbn [readLoop] in H. destruct (nth_error ss i) as [s|] eqn:En; [|destruct (_ <? _)%nat; [discriminate|]; assert (ss' = ss) as -> by congruence; reflexivity].
  apply rbind_inv in H. destruct H as ([[s1 v1] e] & E & H). apply stripeNext_keeps in E. pose proof (map_set stripe_Close ss i s1 s En E) as M. cbv zeta in H.
  destruct e; [assert (ss' = set_nth ss i s1) as -> by congruence; exact M|]. destruct (_ <=? _); [assert (ss' = set_nth ss i s1) as -> by congruence; exact M|].
  rewrite (IH _ _ _ _ _ _ H). exact M.
Qed.
Lemma batchNext_keeps r x v x' v' e : batchNext inflate r x v = Ok (x', v', e) -> map stripe_Close (br_stripes x') = map stripe_Close (br_stripes x).
Proof.
  unfold batchNext, readNext. cbv zeta. destruct (_ <=? _); intros H; [assert (x' = x) as -> by congruence; reflexivity|].
  apply rbind_inv in H. destruct H as ([[ss i] w] & E & H). match type of H with Ok (?z, _, _) = _ => assert (x' = z) as -> by congruence end. cbn [br_stripes]. eapply readLoop_keeps; exact E.
Qed.
Lemma batchSeek_keeps r x row x' : batchSeek inflate r x row = Ok x' -> map stripe_Close (br_stripes x') = map stripe_Close (br_stripes x).
Proof.
  unfold batchSeek, readSeek. destruct (_ <? _); intros H; [discriminate|]. apply rbind_inv in H. destruct H as (ss & E & H).
  match type of H with Ok ?z = _ => assert (x' = z) as -> by congruence end. cbn [br_stripes]. clear H. revert E. generalize 0 as before. generalize (br_stripes x) as l. revert ss.
  intros ss l. revert ss. induction l as [|s l IH]; intros ss before E; cbn [seekStripes] in E; [discriminate|]. destruct (_ <? _).
  - apply rbind_inv in E. destruct E as (s' & E1 & E). assert (ss = s' :: l) as -> by congruence. cbn [map]. f_equal. unfold stripeSeek in E1. apply rbind_inv in E1. destruct E1 as (off & _ & E1).
    unfold stripe_Close at 2. destruct (sr_tree s) as [t|]; [|discriminate]. apply rbind_inv in E1. destruct E1 as (t1 & E2 & E1). apply rbind_inv in E1. destruct E1 as (t2 & E3 & E1).
    match type of E1 with Ok ?z = _ => assert (s' = z) as -> by congruence end. cbn. apply tree_SeekStride_keeps in E2. rewrite <- E2. unfold tree_Skip, treeSkip in E3.
    revert E3. apply times_keeps. intros a b Hab. eapply skipF_keeps; exact Hab.
  - apply rbind_inv in E. destruct E as (r' & E1 & E). assert (ss = s :: r') as -> by congruence. cbn [map]. rewrite (IH _ _ E1). reflexivity.
Qed.
Lemma Later_keeps r x y : Later inflate r x y -> batch_Close y = batch_Close x.
Proof.
  induction 1 as [x|x v x' v' e y E _ IH|x row x' y E _ IH]; [reflexivity| |]; rewrite IH; unfold batch_Close; apply stripes_Close_map; [eapply batchNext_keeps|eapply batchSeek_keeps]; exact E.
Qed.
End Batch.
