(** Lemmas about schemas. *)
From Verif.Model Require Import Go Schema.
From Verif.Spec Require Import SchemaSpec.
From Verif.Proofs Require Import Base.

(** ** Induction over schema trees *)
Section Ind.
  Variable P : td -> Prop.
  Hypothesis H : forall i k ns e h cs, Forall P cs -> P (Td i k ns e h cs).
  Fixpoint td_rect' (t : td) : P t :=
    match t with
    | Td i k ns e h cs =>
        H i k ns e h cs
          ((fix go (l : list td) : Forall P l :=
              match l with
              | [] => Forall_nil _
              | c :: r => Forall_cons _ (td_rect' c) (go r)
              end) cs)
    end.
End Ind.

Definition sizes (l : list td) : Z := fold_right (fun c n => size c + n) 0 l.

Lemma size_eq i k ns e h cs : size (Td i k ns e h cs) = 1 + sizes cs.
Proof. reflexivity. Qed.
Lemma size_pos t : 1 <= size t.
Proof.
  induction t as [i k ns e h cs IH] using td_rect'. rewrite size_eq.
  assert (0 <= sizes cs); [|lia].
  induction IH; cbn [sizes fold_right]; [lia|]. fold (sizes l). lia.
Qed.
Lemma sizes_nonneg l : 0 <= sizes l.
Proof. induction l; cbn [sizes fold_right]; [lia|]. fold (sizes l). pose proof (size_pos a). lia. Qed.
Lemma sizes_cons c l : sizes (c :: l) = size c + sizes l.
Proof. reflexivity. Qed.

(** ** Paths *)
Lemma Column_refl t : Column t t.
Proof. exists []. reflexivity. Qed.
Lemma Column_child t c s : In c (td_children t) -> Column c s -> Column t s.
Proof.
  intros Hi [p Hp]. destruct (In_nth_error _ _ Hi) as [j Hj].
  exists (j :: p). cbn [at_path]. rewrite Hj. exact Hp.
Qed.
Lemma Column_inv t s : Column t s -> s = t \/ exists c, In c (td_children t) /\ Column c s.
Proof.
  intros [[|j p] Hp]; cbn [at_path] in Hp; [left; congruence|].
  destruct (nth_error (td_children t) j) as [c|] eqn:Ej; [|discriminate].
  right. exists c. split; [eapply nth_error_In; eauto|exists p; exact Hp].
Qed.

(** ** Numbering *)
Fixpoint addIdsL (m : Z) (l : list td) : list td * Z :=
  match l with
  | [] => ([], m)
  | c :: r => let (c', m1) := addIds m c in let (r', m2) := addIdsL m1 r in (c' :: r', m2)
  end.
Lemma addIds_eq n i k ns e h cs : addIds n (Td i k ns e h cs) =
  let (cs', m) := addIdsL (u32 (n + 1)) cs in (Td n k ns e h cs', m).
Proof. reflexivity. Qed.

Fixpoint Numbered (n : Z) (t : td) : Prop :=
  let (i, _, _, _, _, cs) := t in
  i = n /\
  (fix go (m : Z) (l : list td) : Prop :=
     match l with [] => True | c :: r => Numbered m c /\ go (m + size c) r end) (n + 1) cs.
Fixpoint NumberedL (m : Z) (l : list td) : Prop :=
  match l with [] => True | c :: r => Numbered m c /\ NumberedL (m + size c) r end.
Lemma Numbered_eq n i k ns e h cs :
  Numbered n (Td i k ns e h cs) <-> i = n /\ NumberedL (n + 1) cs.
Proof. reflexivity. Qed.

Lemma erase_eq i k ns e h cs : erase (Td i k ns e h cs) = Td 0 k ns e h (map erase cs).
Proof. reflexivity. Qed.
Lemma erase_sizes : forall l m, Forall (fun t => forall s, erase t = erase s -> size t = size s) l ->
  map erase l = map erase m -> sizes l = sizes m.
Proof.
  induction l as [|c l IH]; intros [|d m] F E; try discriminate; [reflexivity|].
  rewrite !sizes_cons. cbn [map] in E. injection E as E1 E2. inversion F as [|? ? F1 F2]; subst.
  rewrite (IH m) by assumption. rewrite (F1 d) by assumption. reflexivity.
Qed.
Lemma erase_size t : forall s, erase t = erase s -> size t = size s.
Proof.
  induction t as [i k ns e h cs IH] using td_rect'. intros [i' k' ns' e' h' cs'] E.
  rewrite !erase_eq in E. inversion E. rewrite !size_eq. f_equal. apply erase_sizes; assumption.
Qed.

Lemma u32_id x : 0 <= x < 4294967296 -> u32 x = x.
Proof. intros. unfold u32. apply Z.mod_small. lia. Qed.

Definition addIds_ok (t : td) : Prop := forall n, 0 <= n -> n + size t <= 4294967296 ->
  exists t', addIds n t = (t', u32 (n + size t)) /\ erase t' = erase t /\ Numbered n t'.

Lemma addIdsL_ok l : Forall addIds_ok l -> forall n, 0 <= n -> n + sizes l <= 4294967296 ->
  exists l', addIdsL (u32 n) l = (l', u32 (n + sizes l)) /\ map erase l' = map erase l /\ NumberedL n l'.
Proof.
  induction 1 as [|c l Hc Hl IH]; intros n Hn Hs.
  - exists []. cbn. rewrite Z.add_0_r. auto.
  - rewrite sizes_cons in *. pose proof (sizes_nonneg l). pose proof (size_pos c).
    destruct (Hc n) as (c' & E1 & E2 & E3); [lia..|].
    destruct (IH (n + size c)) as (l' & F1 & F2 & F3); [lia..|].
    exists (c' :: l'). cbn [addIdsL]. rewrite (u32_id n) by lia. rewrite E1, F1.
    split; [f_equal; f_equal; lia|]. split; [cbn [map]; congruence|].
    cbn [NumberedL]. rewrite (erase_size _ _ E2). auto.
Qed.

Lemma addIds_spec t : addIds_ok t.
Proof.
  induction t as [i k ns e h cs IH] using td_rect'. intros n Hn Hs. rewrite size_eq in *.
  destruct (addIdsL_ok cs IH (n + 1)) as (l' & F1 & F2 & F3); [lia..|].
  exists (Td n k ns e h l'). rewrite addIds_eq, F1. split; [f_equal; f_equal; lia|].
  rewrite !erase_eq, F2. split; [reflexivity|]. apply Numbered_eq. auto.
Qed.

Lemma hasUnion_eq i k ns e h cs : hasUnion (Td i k ns e h cs) = isUnion k || existsb hasUnion cs.
Proof. reflexivity. Qed.
Lemma isUnion_spec k : isUnion k = true <-> k = UNION.
Proof. destruct k; cbn; split; congruence. Qed.

Lemma hasUnion_spec t : hasUnion t = false <-> no_union t.
Proof.
  induction t as [i k ns e h cs IH] using td_rect'. rewrite hasUnion_eq.
  rewrite Forall_forall in IH. split.
  - intros H. apply orb_false_iff in H. destruct H as [H1 H2].
    intros s Hs. apply Column_inv in Hs. destruct Hs as [->|(c & Hc & Hs)].
    + cbn. intros ->. discriminate.
    + apply (IH c Hc); [|exact Hs]. cbn in Hc.
      destruct (hasUnion c) eqn:E; [|reflexivity].
      rewrite <- H2. symmetry. apply existsb_exists. eauto.
  - intros H. apply orb_false_iff. split.
    + destruct (isUnion k) eqn:E; [|reflexivity]. apply isUnion_spec in E.
      exfalso. exact (H _ (Column_refl _) E).
    + destruct (existsb hasUnion cs) eqn:E; [|reflexivity]. exfalso.
      apply existsb_exists in E. destruct E as (c & Hc & E).
      enough (hasUnion c = false) by congruence. apply (IH c Hc).
      intros s Hs. apply H. eapply Column_child; eauto.
Qed.

Lemma hasUnion_erase t : hasUnion (erase t) = hasUnion t.
Proof.
  induction t as [i k ns e h cs IH] using td_rect'. rewrite erase_eq, !hasUnion_eq. f_equal.
  induction IH; cbn [map existsb]; congruence.
Qed.

Lemma normalize_iff t : (exists t', NormalizeSchema t = Ok t') <-> no_union t.
Proof.
  rewrite <- hasUnion_spec. unfold NormalizeSchema. destruct (hasUnion t); split; intros H.
  - destruct H; discriminate.
  - discriminate.
  - reflexivity.
  - eauto.
Qed.

Lemma normalize_spec t t' : size t <= 4294967296 -> NormalizeSchema t = Ok t' ->
  erase t' = erase t /\ Numbered 0 t' /\ hasUnion t' = false.
Proof.
  intros Hs. unfold NormalizeSchema. destruct (hasUnion t) eqn:Hu; [discriminate|].
  destruct (addIds_spec t 0) as (s & E1 & E2 & E3); [lia..|]. rewrite E1. cbn [fst].
  intros E. assert (t' = s) by congruence. subst. split; [assumption|]. split; [assumption|].
  rewrite <- hasUnion_erase, E2, hasUnion_erase. exact Hu.
Qed.

(** ** What numbering means *)
Lemma NumberedL_nth : forall l m j c, NumberedL m l -> nth_error l j = Some c ->
  Numbered (m + sizes (firstn j l)) c.
Proof.
  induction l as [|d l IH]; intros m [|j] c H E; cbn in E; try discriminate.
  - cbn [firstn sizes fold_right]. rewrite Z.add_0_r. injection E as <-. apply H.
  - cbn [firstn]. rewrite sizes_cons, Z.add_assoc. apply IH; [apply H|exact E].
Qed.

Lemma Numbered_at : forall p n t s, Numbered n t -> at_path t p = Some s ->
  Numbered (n + before t p) s.
Proof.
  induction p as [|j p IH]; intros n t s H E; cbn [at_path before] in *.
  - rewrite Z.add_0_r. congruence.
  - destruct t as [i k ns e h cs]. cbn [td_children] in *. rewrite Numbered_eq in H.
    destruct H as [-> H]. destruct (nth_error cs j) as [c|] eqn:Ej; [|discriminate].
    pose proof (NumberedL_nth _ _ _ _ H Ej) as Hc. fold (sizes (firstn j cs)).
    replace (n + _) with (n + 1 + sizes (firstn j cs) + before c p) by lia. apply IH; assumption.
Qed.

Lemma Numbered_id n t : Numbered n t -> td_id t = n.
Proof. destruct t. rewrite Numbered_eq. cbn. tauto. Qed.

Lemma flatten_eq i k ns e h cs :
  flatten (Td i k ns e h cs) = Td i k ns e h cs :: flat_map flatten cs.
Proof. reflexivity. Qed.

Lemma count_up_app : forall n m a, count_up a (n + m) = count_up a n ++ count_up (a + Z.of_nat n) m.
Proof.
  induction n as [|n IH]; intros m a.
  - cbn. rewrite Z.add_0_r. reflexivity.
  - cbn [count_up Nat.add app]. rewrite IH. do 3 f_equal. lia.
Qed.

Lemma Numbered_flat t : forall n, Numbered n t ->
  map td_id (flatten t) = count_up n (Z.to_nat (size t)).
Proof.
  induction t as [i k ns e h cs IH] using td_rect'. intros n H. rewrite Numbered_eq in H.
  destruct H as [-> H]. rewrite flatten_eq. cbn [map td_id]. rewrite size_eq.
  pose proof (sizes_nonneg cs).
  replace (Z.to_nat (1 + sizes cs)) with (S (Z.to_nat (sizes cs))) by lia.
  cbn [count_up]. f_equal. revert H. generalize (n + 1). clear - IH.
  induction IH as [|c l Hc Hl IHl]; intros m H; [reflexivity|].
  cbn [flat_map]. rewrite map_app, sizes_cons. destruct H as [H1 H2].
  rewrite (Hc _ H1), (IHl _ H2). pose proof (sizes_nonneg l). pose proof (size_pos c).
  rewrite Z2Nat.inj_add by lia. rewrite count_up_app. do 2 f_equal. lia.
Qed.

Lemma count_up_In : forall n a x, In x (count_up a n) <-> a <= x < a + Z.of_nat n.
Proof.
  induction n as [|n IH]; intros a x; cbn [count_up In].
  - lia.
  - rewrite IH. lia.
Qed.
Lemma count_up_NoDup : forall n a, NoDup (count_up a n).
Proof.
  induction n as [|n IH]; intros a; cbn [count_up]; constructor; [|apply IH].
  rewrite count_up_In. lia.
Qed.
Lemma count_up_nth : forall n a j, (j < n)%nat -> nth_error (count_up a n) j = Some (a + Z.of_nat j).
Proof.
  induction n as [|n IH]; intros a [|j] H; try lia; cbn [count_up nth_error].
  - f_equal. lia.
  - rewrite IH by lia. f_equal. lia.
Qed.

Lemma flatten_Column t s : In s (flatten t) <-> Column t s.
Proof.
  induction t as [i k ns e h cs IH] using td_rect'. rewrite flatten_eq. cbn [In].
  rewrite Forall_forall in IH. rewrite in_flat_map. split.
  - intros [<-|(c & Hc & Hs)]; [apply Column_refl|].
    eapply Column_child; [exact Hc|]. apply (IH c Hc). exact Hs.
  - intros H. apply Column_inv in H. destruct H as [->|(c & Hc & Hs)]; [auto|].
    right. exists c. cbn in Hc. split; [exact Hc|]. apply (IH c Hc). exact Hs.
Qed.

(** The numbered tree passes the id check. *)
Lemma Numbered_CheckId t : Numbered 0 t -> hasUnion t = false -> CheckId t = true.
Proof.
  destruct t as [i k ns e h cs]. rewrite Numbered_eq, hasUnion_eq. intros [-> H] Hu.
  apply orb_false_iff in Hu. destruct Hu as [_ Hu].
  unfold CheckId. cbn [td_children]. apply forallb_forall. intros c Hc.
  apply andb_true_iff. split.
  - destruct (hasUnion c) eqn:E; [|reflexivity]. exfalso.
    enough (existsb hasUnion cs = true) by congruence. apply existsb_exists. eauto.
  - apply forallb_forall. intros x Hx. apply negb_true_iff, Z.eqb_neq.
    destruct (In_nth_error _ _ Hc) as [j Hj].
    pose proof (NumberedL_nth _ _ _ _ H Hj) as Hn.
    pose proof (sizes_nonneg (firstn j cs)).
    assert (Hin : In (td_id x) (map td_id (flatten c))) by (apply in_map; exact Hx).
    rewrite (Numbered_flat _ _ Hn) in Hin. apply count_up_In in Hin. lia.
Qed.

Lemma normalize_flat t t' : size t <= 4294967296 -> NormalizeSchema t = Ok t' ->
  exists l, Flat t' = Ok l /\ (forall s, In s l <-> Column t' s) /\
            map td_id l = count_up 0 (Z.to_nat (size t)).
Proof.
  intros Hs H. destruct (normalize_spec _ _ Hs H) as (E & N & U).
  exists (flatten t'). unfold Flat. rewrite (Numbered_CheckId _ N U), U.
  split; [reflexivity|]. split; [intros; apply flatten_Column|].
  rewrite (Numbered_flat _ _ N). rewrite (erase_size _ _ E). reflexivity.
Qed.

Lemma erase_at : forall p t s r, erase t = erase s -> at_path t p = Some r ->
  exists r', at_path s p = Some r' /\ erase r' = erase r /\ before s p = before t p.
Proof.
  induction p as [|j p IH]; intros t s r E H; cbn [at_path before] in *.
  - exists s. split; [reflexivity|]. split; [congruence|reflexivity].
  - destruct t as [i k ns e h cs], s as [i' k' ns' e' h' cs']. cbn [td_children] in *.
    rewrite !erase_eq in E. injection E as -> -> -> -> E.
    destruct (nth_error cs j) as [c|] eqn:Ej; [|discriminate].
    assert (Ej' : nth_error (map erase cs') j = Some (erase c)).
    { rewrite <- E. apply map_nth_error. exact Ej. }
    destruct (nth_error cs' j) as [c'|] eqn:Ej''.
    + rewrite (map_nth_error erase _ _ Ej'') in Ej'. injection Ej' as Ec.
      destruct (IH c c' r) as (r' & R1 & R2 & R3); [congruence|exact H|].
      exists r'. split; [exact R1|]. split; [exact R2|]. rewrite R3. f_equal. f_equal.
      apply erase_sizes; [apply Forall_forall; intros x _; apply erase_size|].
      rewrite <- !firstn_map, E. reflexivity.
    + apply nth_error_None in Ej''. rewrite <- (map_length erase) in Ej''.
      apply nth_error_None in Ej''. congruence.
Qed.

Lemma normalize_preorder t t' : size t <= 4294967296 -> NormalizeSchema t = Ok t' ->
  erase t' = erase t /\
  forall p s, at_path t p = Some s ->
  exists s', at_path t' p = Some s' /\ td_id s' = before t p.
Proof.
  intros Hs H. destruct (normalize_spec _ _ Hs H) as (E & N & U). split; [exact E|].
  intros p s Hp. destruct (erase_at p t t' s) as (s' & S1 & S2 & S3); [congruence|exact Hp|].
  exists s'. split; [exact S1|]. pose proof (Numbered_at _ _ _ _ N S1) as Hn.
  apply Numbered_id in Hn. lia.
Qed.

Lemma normalize_subtree t t' : size t <= 4294967296 -> NormalizeSchema t = Ok t' ->
  forall s, Column t' s -> 0 <= td_id s /\ td_id s + size s <= size t /\
  (forall x, td_id s <= x < td_id s + size s <-> exists r, Column s r /\ td_id r = x) /\
  (forall r, Column t' r -> td_id s <= td_id r < td_id s + size s -> Column s r).
Proof.
  intros Hs H s Hc. destruct (normalize_spec _ _ Hs H) as (E & N & U).
  rewrite <- (erase_size _ _ E) in Hs |- *. destruct Hc as [p Hp].
  pose proof (Numbered_at _ _ _ _ N Hp) as Hn. cbn [Z.add] in Hn.
  pose proof (Numbered_id _ _ Hn) as Hi. rewrite Hi.
  pose proof (Numbered_flat _ _ Hn) as Hf.
  assert (Hx : forall x, before t' p <= x < before t' p + size s <-> exists r, Column s r /\ td_id r = x).
  { intros x. pose proof (size_pos s). split.
    - intros Hx. assert (Hin : In x (map td_id (flatten s))).
      { rewrite Hf. apply count_up_In. lia. }
      apply in_map_iff in Hin. destruct Hin as (r & <- & Hr). exists r.
      split; [apply flatten_Column; exact Hr|reflexivity].
    - intros (r & Hr & <-). apply flatten_Column in Hr. apply (in_map td_id) in Hr.
      rewrite Hf in Hr. apply count_up_In in Hr. lia. }
  assert (Htop : forall x, (exists r, Column t' r /\ td_id r = x) -> 0 <= x < size t').
  { intros x (r & Hr & <-). apply flatten_Column in Hr. apply (in_map td_id) in Hr.
    rewrite (Numbered_flat _ _ N) in Hr. apply count_up_In in Hr. pose proof (size_pos t'). lia. }
  assert (Hsub : forall r, Column s r -> Column t' r).
  { intros r [q Hq]. exists (p ++ q). clear - Hp Hq. revert t' Hp.
    induction p as [|j p IH]; intros t' Hp; cbn [app at_path] in *.
    - congruence.
    - destruct (nth_error (td_children t') j); [auto|discriminate]. }
  pose proof (size_pos s) as Hp1.
  assert (H0 : 0 <= before t' p < size t').
  { apply Htop. exists s. split; [apply Hsub, Column_refl|exact Hi]. }
  assert (H1 : 0 <= before t' p + size s - 1 < size t').
  { apply Htop. destruct (proj1 (Hx (before t' p + size s - 1))) as (r & R1 & R2); [lia|].
    exists r. auto. }
  split; [lia|]. split; [lia|]. split; [exact Hx|].
  intros r Hr Hrx. destruct (proj1 (Hx (td_id r)) Hrx) as (r' & R1 & R2).
  (* ids are distinct, so r = r' *)
  enough (r' = r) by (subst; exact R1).
  pose proof (Numbered_flat _ _ N) as Nf.
  assert (ND : NoDup (map td_id (flatten t'))) by (rewrite Nf; apply count_up_NoDup).
  apply Hsub in R1. apply flatten_Column in R1, Hr. clear - ND R1 R2 Hr.
  induction (flatten t') as [|y l IH]; [destruct Hr|].
  cbn [map] in ND. inversion ND; subst. destruct R1 as [->|R1], Hr as [->|Hr]; auto.
  - exfalso. apply H1. rewrite R2. apply in_map. exact Hr.
  - exfalso. apply H1. rewrite <- R2. apply in_map. exact R1.
Qed.

(** ** Footer types *)
Definition nodeOf (v : td) : node :=
  {| n_kind := td_kind v;
     n_names := match td_kind v with
                | STRUCT => firstn (length (td_children v)) (td_names v)
                | _ => map (fun _ => []) (td_children v)
                end;
     n_sub := map td_id (td_children v) |}.

Definition short (s : td) : Prop :=
  td_kind s = STRUCT /\ td_children s <> [] /\
  (length (td_names s) < length (td_children s))%nat.

Definition typeOf (v : td) : pbType :=
  {| t_kind := td_kind v; t_sub := map td_id (td_children v); t_names := td_names v |}.

Lemma node_ok N v : (forall c, In c (td_children v) -> td_id c < N) -> ~ short v ->
  unmarshallNode N (typeOf v) = Ok (nodeOf v).
Proof.
  intros Hr Hs. unfold unmarshallNode, typeOf, nodeOf, short in *.
  destruct v as [i k ns e h cs]; cbn [td_children td_kind td_names t_kind t_sub t_names] in *.
  destruct cs as [|c cs].
  - cbn [map]. destruct k; reflexivity.
  - remember (c :: cs) as l. destruct (map td_id l) eqn:El; [subst; discriminate|].
    rewrite <- El. rewrite !map_length.
    replace (isStruct k && _) with false.
    + assert (forallb (fun s => s <? N) (map td_id l) = true) as ->.
      { apply forallb_forall. intros x Hx. apply in_map_iff in Hx.
        destruct Hx as (d & <- & Hd). apply Z.ltb_lt. auto. }
      rewrite map_map. destruct k; reflexivity.
    + symmetry. apply andb_false_iff. destruct k; auto. right. apply Nat.ltb_ge.
      destruct (Nat.le_gt_cases (length l) (length ns)); [assumption|].
      exfalso. apply Hs. split; [reflexivity|]. split; [subst; discriminate|lia].
Qed.

Lemma node_short N v : short v -> unmarshallNode N (typeOf v) = Panic.
Proof.
  unfold short, unmarshallNode, typeOf.
  destruct v as [i k ns e h cs]; cbn [td_children td_kind td_names t_kind t_sub t_names] in *.
  intros (-> & Hn & Hl). destruct cs as [|c cs]; [congruence|].
  cbn [map]. cbn [isStruct andb]. change (td_id c :: map td_id cs) with (map td_id (c :: cs)).
  rewrite map_length. apply Nat.ltb_lt in Hl. rewrite Hl. reflexivity.
Qed.

Lemma nodes_ok N l : (forall v, In v l -> (forall c, In c (td_children v) -> td_id c < N) /\ ~ short v) ->
  unmarshallNodes N (map typeOf l) = Ok (map nodeOf l).
Proof.
  induction l as [|v l IH]; intros H; [reflexivity|].
  cbn [map unmarshallNodes]. destruct (H v) as [H1 H2]; [left; reflexivity|].
  rewrite (node_ok _ _ H1 H2). cbn [rbind]. rewrite IH; [reflexivity|].
  intros w Hw. apply H. right. exact Hw.
Qed.

Lemma nodes_short N l : (forall v, In v l -> forall c, In c (td_children v) -> td_id c < N) ->
  (exists v, In v l /\ short v) -> unmarshallNodes N (map typeOf l) = Panic.
Proof.
  induction l as [|v l IH]; intros H (w & Hw & Hs); [destruct Hw|].
  cbn [map unmarshallNodes].
  assert (D : short v \/ ~ short v).
  { unfold short. destruct v as [i k ns e h cs]. cbn [td_children td_kind td_names].
    destruct (Nat.lt_decidable (length ns) (length cs)); [|right; tauto].
    destruct cs; [right; intros (_ & X & _); congruence|].
    destruct k; try (right; intros (X & _); discriminate).
    left. split; [reflexivity|]. split; [discriminate|assumption]. }
  destruct D as [D|D].
  - rewrite (node_short _ _ D). reflexivity.
  - rewrite node_ok; [|apply H; left; reflexivity|exact D]. cbn [rbind].
    rewrite IH; [reflexivity| |].
    + intros x Hx. apply H. right. exact Hx.
    + exists w. destruct Hw as [->|Hw]; [contradiction|auto].
Qed.

Lemma nth_flatten n t s : Numbered n t -> Column t s ->
  nth_error (flatten t) (Z.to_nat (td_id s - n)) = Some s /\ n <= td_id s < n + size t.
Proof.
  intros N Hs. apply flatten_Column in Hs. destruct (In_nth_error _ _ Hs) as [j Hj].
  assert (Hl : (j < length (flatten t))%nat) by (apply nth_error_Some; congruence).
  pose proof (Numbered_flat _ _ N) as F. pose proof (size_pos t).
  pose proof (map_nth_error td_id _ _ Hj) as E. rewrite F in E.
  rewrite <- (map_length td_id), F in Hl.
  assert (Hc : forall m a, length (count_up a m) = m)
    by (induction m; intros; cbn [count_up length]; [reflexivity|rewrite IHm; reflexivity]).
  rewrite Hc in Hl. rewrite count_up_nth in E by exact Hl.
  injection E as E. rewrite <- E.
  replace (Z.to_nat (n + Z.of_nat j - n)) with j by lia. split; [exact Hj|lia].
Qed.

Definition pointedL (f : nat) (ns : list node) : list Z -> option (list td) :=
  fix go (l : list Z) : option (list td) :=
    match l with
    | [] => Some []
    | s :: r => match pointed f ns s, go r with Some c, Some cs => Some (c :: cs) | _, _ => None end
    end.
Lemma pointed_eq f ns i : pointed (S f) ns i =
  match nth_error ns (Z.to_nat i) with
  | None => None
  | Some x => match pointedL f ns (n_sub x) with
              | Some cs => Some (Td i (n_kind x) (n_names x) 0 false cs)
              | None => None
              end
  end.
Proof. reflexivity. Qed.

Lemma pointed_ok t : Numbered 0 t ->
  forall s, Column t s -> forall f, (Z.to_nat (size s) <= f)%nat ->
  pointed f (map nodeOf (flatten t)) (td_id s) = Some (stored_view s).
Proof.
  intros N s. induction s as [i k ns e h cs IH] using td_rect'. intros Hs f Hf.
  rewrite size_eq in Hf. pose proof (sizes_nonneg cs). destruct f as [|f]; [lia|].
  rewrite pointed_eq. destruct (nth_flatten _ _ _ N Hs) as [Hn _].
  rewrite Z.sub_0_r in Hn. rewrite (map_nth_error nodeOf _ _ Hn).
  cbn [nodeOf n_sub n_kind n_names td_kind td_children td_names td_id].
  assert (E : pointedL f (map nodeOf (flatten t)) (map td_id cs) = Some (map stored_view cs)).
  { assert (Hc : forall c, In c cs -> Column t c).
    { intros c Hc. clear - Hs Hc. destruct Hs as [p Hp]. destruct (In_nth_error _ _ Hc) as [j Hj].
      exists (p ++ [j]). revert t Hp. induction p as [|q p IH]; intros t Hp; cbn [app at_path] in *.
      - injection Hp as ->. cbn [td_children]. rewrite Hj. reflexivity.
      - destruct (nth_error (td_children t) q); [auto|discriminate]. }
    assert (Hz : (Z.to_nat (sizes cs) <= f)%nat) by lia. clear Hs Hf Hn H.
    induction IH as [|c l Hcc Hl IHl]; [reflexivity|].
    cbn [map pointedL]. rewrite sizes_cons in Hz. pose proof (size_pos c). pose proof (sizes_nonneg l).
    rewrite Hcc; [|apply Hc; left; reflexivity|lia].
    fold (pointedL f (map nodeOf (flatten t))). rewrite IHl; [reflexivity| |lia].
    intros d Hd. apply Hc. right. exact Hd. }
  rewrite E. reflexivity.
Qed.

Lemma flatten_length t : zlen (flatten t) = size t.
Proof.
  unfold zlen.
  induction t as [i k ns e h cs IH] using td_rect'. rewrite flatten_eq, size_eq.
  cbn [length]. enough (Z.of_nat (length (flat_map flatten cs)) = sizes cs) by lia.
  induction IH as [|c l Hc Hl IHl]; [reflexivity|].
  cbn [flat_map]. rewrite app_length, sizes_cons. lia.
Qed.

Lemma child_range t : Numbered 0 t -> forall v, In v (flatten t) ->
  forall c, In c (td_children v) -> td_id c < size t.
Proof.
  intros N v Hv c Hc. apply flatten_Column in Hv.
  assert (Column t c).
  { destruct Hv as [p Hp]. destruct (In_nth_error _ _ Hc) as [j Hj].
    exists (p ++ [j]). clear - Hp Hj. revert t Hp.
    induction p as [|q p IH]; intros t Hp; cbn [app at_path] in *.
    - injection Hp as ->. rewrite Hj. reflexivity.
    - destruct (nth_error (td_children t) q); [auto|discriminate]. }
  pose proof (nth_flatten _ _ _ N H). lia.
Qed.

Lemma footer_roundtrip t t' l : size t <= 4294967296 -> named t ->
  NormalizeSchema t = Ok t' -> Flat t' = Ok l ->
  exists ns, unmarshallSchema (SchemasToTypes l) = Ok ns /\
  (forall s, Column t' s -> pointed (Z.to_nat (size t)) ns (td_id s) = Some (stored_view s)) /\
  pointed (Z.to_nat (size t)) ns 0 = Some (stored_view t').
Proof.
  intros Hs Hn H HF. destruct (normalize_spec _ _ Hs H) as (E & N & U).
  unfold Flat in HF. rewrite (Numbered_CheckId _ N U), U in HF. injection HF as <-.
  exists (map nodeOf (flatten t')). unfold unmarshallSchema, SchemasToTypes.
  change (map _ (flatten t')) with (map typeOf (flatten t')) at 1 2.
  assert (R : forall s, Column t' s -> pointed (Z.to_nat (size t)) (map nodeOf (flatten t')) (td_id s)
                                       = Some (stored_view s)).
  { intros s Hc. apply pointed_ok; [exact N|exact Hc|].
    destruct (normalize_subtree _ _ Hs H s Hc) as (A & B & _). lia. }
  split; [|split; [exact R|]].
  - apply nodes_ok. intros v Hv. split.
    + unfold zlen. rewrite map_length. fold (zlen (flatten t')). rewrite flatten_length.
      apply child_range; assumption.
    + intros (S1 & S2 & S3). apply flatten_Column in Hv. destruct Hv as [p Hp].
      destruct (erase_at p t' t v E Hp) as (v' & V1 & V2 & _).
      destruct v as [i k n e h cs], v' as [i' k' n' e' h' cs']. rewrite !erase_eq in V2.
      cbn [td_kind td_children td_names] in *. injection V2 as -> -> _ _ V2.
      specialize (Hn _ (ex_intro _ p V1)). cbn [td_kind td_children td_names] in Hn.
      assert (length cs' = length cs) by (rewrite <- (map_length erase cs'), V2, map_length; reflexivity).
      specialize (Hn S1). destruct cs' as [|c' cs']; [destruct cs; [congruence|discriminate]|].
      specialize (Hn ltac:(discriminate)). lia.
  - rewrite <- (Numbered_id _ _ N). apply R. apply Column_refl.
Qed.

Lemma footer_panic t t' l : size t <= 4294967296 ->
  NormalizeSchema t = Ok t' -> Flat t' = Ok l ->
  (exists s, Column t s /\ short s) ->
  unmarshallSchema (SchemasToTypes l) = Panic.
Proof.
  intros Hs H HF (s & [p Hp] & Ss). destruct (normalize_spec _ _ Hs H) as (E & N & U).
  unfold Flat in HF. rewrite (Numbered_CheckId _ N U), U in HF. injection HF as <-.
  unfold unmarshallSchema, SchemasToTypes.
  change (map _ (flatten t')) with (map typeOf (flatten t')).
  apply nodes_short.
  - intros v Hv. unfold zlen. rewrite map_length. fold (zlen (flatten t')). rewrite flatten_length.
    apply child_range; assumption.
  - destruct (erase_at p t t' s (eq_sym E) Hp) as (s' & S1 & S2 & _). exists s'.
    split; [apply flatten_Column; exists p; exact S1|].
    destruct s as [i k n e h cs], s' as [i' k' n' e' h' cs']. rewrite !erase_eq in S2.
    injection S2 as -> -> _ _ S2. unfold short in *. cbn [td_kind td_children td_names] in *.
    assert (length cs' = length cs) by (rewrite <- (map_length erase cs'), S2, map_length; reflexivity).
    destruct Ss as (-> & S3 & S4). split; [reflexivity|]. split; [|lia].
    destruct cs; [congruence|]. destruct cs'; [discriminate|congruence].
Qed.

(** ** Null nesting *)
Lemma verify_chain t : well_shaped t -> (verifySchema t = false <->
  exists n s c, at_path t (repeat 0%nat n) = Some s /\ nth_error (td_children s) 0 = Some c /\
                td_hasNulls s = true /\ td_hasNulls c = true).
Proof.
  induction t as [i k ns e h cs IH] using td_rect'. intros W.
  pose proof (W _ (Column_refl _)) as W0. cbn [td_kind td_children] in W0.
  cbn [verifySchema]. destruct cs as [|c cs].
  - replace (if isCompound k then true else true) with true by (destruct (isCompound k); reflexivity).
    split; [discriminate|]. intros ([|n] & s & d & H1 & H2 & _); cbn in H1.
    + injection H1 as <-. discriminate H2.
    + discriminate H1.
  - assert (isCompound k = true) as -> by (destruct k; try reflexivity; discriminate).
    inversion IH as [|? ? Hc _]; subst.
    assert (Wc : well_shaped c).
    { intros s Hs. apply W. eapply Column_child; [left; reflexivity|exact Hs]. }
    specialize (Hc Wc). destruct (h && td_hasNulls c) eqn:Eh.
    + split; [|reflexivity]. intros _. apply andb_true_iff in Eh. destruct Eh as [-> Ec].
      exists 0%nat, (Td i k ns e true (c :: cs)), c. auto.
    + rewrite Hc. split.
      * intros (n & s & d & H1 & H2 & H3). exists (S n), s, d. auto.
      * intros ([|n] & s & d & H1 & H2 & H3 & H4).
        { cbn in H1. injection H1 as <-. cbn in H2, H3. injection H2 as <-. rewrite H3, H4 in Eh.
          discriminate. }
        exists n, s, d. auto.
Qed.

(** ** Projection *)
Fixpoint proj (o : batchOption) (t : td) : list Z :=
  let (i, _, _, _, _, cs) := t in if IsInclude o i then i :: flat_map (proj o) cs else [].
Lemma proj_eq o i k ns e h cs : proj o (Td i k ns e h cs) =
  if IsInclude o i then i :: flat_map (proj o) cs else [].
Proof. reflexivity. Qed.

Lemma vec_ids_eq i k r cs : vec_ids (Vec i k r cs) = i :: flat_map ovec_ids cs.
Proof. reflexivity. Qed.

Definition createL (o : batchOption) : list td -> res (list (option vec)) :=
  fix go (l : list td) : res (list (option vec)) :=
    match l with
    | [] => Ok []
    | c :: r => let! v := createVector o c in let! vs := go r in
                Ok (match v with None => vs | _ => v :: vs end)
    end.

Lemma create_proj o t : well_shaped t ->
  exists v, createVector o t = Ok v /\ ovec_ids v = proj o t.
Proof.
  induction t as [i k ns e h cs IH] using td_rect'. intros W.
  pose proof (W _ (Column_refl _)) as W0. cbn [td_kind td_children] in W0.
  assert (Wc : forall c, In c cs -> well_shaped c).
  { intros c Hc s Hs. apply W. eapply Column_child; [exact Hc|exact Hs]. }
  rewrite proj_eq. cbn [createVector]. destruct (IsInclude o i) eqn:Ei; [|eexists; split; reflexivity].
  assert (Prim : forall r, cs = [] -> exists v, Ok (Some (Vec i k r [])) = Ok v /\
            ovec_ids v = i :: flat_map (proj o) cs).
  { intros r ->. eexists. split; reflexivity. }
  destruct k; try (apply Prim; exact W0).
  - destruct cs as [|c [|d cs]]; try discriminate.
    inversion IH as [|? ? Hc _]; subst. destruct (Hc (Wc c (or_introl eq_refl))) as (v & V1 & V2).
    rewrite V1. cbn [rbind]. eexists. split; [reflexivity|]. cbn [ovec_ids].
    rewrite vec_ids_eq. cbn [flat_map]. rewrite V2. reflexivity.
  - destruct cs as [|c [|d [|x cs]]]; try discriminate.
    inversion IH as [|? ? Hc Hr]; subst. inversion Hr as [|? ? Hd _]; subst.
    destruct (Hc (Wc c (or_introl eq_refl))) as (v & V1 & V2).
    destruct (Hd (Wc d (or_intror (or_introl eq_refl)))) as (w & X1 & X2).
    rewrite V1. cbn [rbind]. rewrite X1. cbn [rbind]. eexists. split; [reflexivity|]. cbn [ovec_ids].
    rewrite vec_ids_eq. cbn [flat_map]. rewrite V2, X2. reflexivity.
  - change ((fix go (l : list td) : res (list (option vec)) :=
             match l with
             | [] => Ok []
             | c :: r => let! v := createVector o c in let! vs := go r in
                         Ok (match v with None => vs | _ => v :: vs end)
             end) cs) with (createL o cs).
    assert (L : exists vs, createL o cs = Ok vs /\ flat_map ovec_ids vs = flat_map (proj o) cs).
    { clear W W0 Prim. induction IH as [|c l Hc Hl IHl]; [exists []; split; reflexivity|].
      destruct (Hc (Wc c (or_introl eq_refl))) as (v & V1 & V2).
      destruct IHl as (vs & L1 & L2); [intros d Hd; apply Wc; right; exact Hd|].
      cbn [createL]. fold (createL o). rewrite V1. cbn [rbind]. rewrite L1. cbn [rbind].
      eexists. split; [reflexivity|]. cbn [flat_map]. rewrite <- V2, <- L2. destruct v; reflexivity. }
    destruct L as (vs & -> & L2). cbn [rbind]. eexists. split; [reflexivity|].
    cbn [ovec_ids]. rewrite vec_ids_eq, L2. reflexivity.
  - contradiction.
Qed.

Lemma IsInclude_spec o i : IsInclude o i = true <-> included (Includes o) i.
Proof.
  unfold IsInclude, included. destruct (Includes o) as [|x l]; [tauto|].
  rewrite existsb_exists. split.
  - intros (y & Hy & E). apply Z.eqb_eq in E. subst. auto.
  - intros [E|H]; [discriminate|]. exists i. split; [exact H|apply Z.eqb_refl].
Qed.

Lemma proj_Selected o t i : In i (proj o t) <-> Selected (included (Includes o)) t i.
Proof.
  revert i. induction t as [j k ns e h cs IH] using td_rect'. intros i.
  rewrite Forall_forall in IH. rewrite proj_eq. destruct (IsInclude o j) eqn:Ej.
  - apply IsInclude_spec in Ej. cbn [In]. rewrite in_flat_map. split.
    + intros [<-|(c & Hc & Hi)]; [exact (SelHere _ (Td j k ns e h cs) Ej)|].
      eapply SelChild; [exact Ej|exact Hc|]. apply IH; assumption.
    + intros H. inversion H; subst; [left; reflexivity|]. right.
      exists c. cbn [td_children] in *. split; [assumption|]. apply IH; assumption.
  - split; [intros []|]. intros H.
    assert (included (Includes o) j) as Hi by (inversion H; subst; assumption).
    apply IsInclude_spec in Hi. congruence.
Qed.

Lemma sublist_nil {A} (l : list A) : sublist [] l.
Proof. induction l; constructor; assumption. Qed.
Lemma sublist_app {A} (a b c d : list A) : sublist a b -> sublist c d -> sublist (a ++ c) (b ++ d).
Proof. induction 1; intros; cbn [app]; [assumption|constructor; auto|constructor; auto]. Qed.

Lemma proj_sublist o t : sublist (proj o t) (schema_ids t).
Proof.
  induction t as [j k ns e h cs IH] using td_rect'. rewrite proj_eq. cbn [schema_ids].
  destruct (IsInclude o j); [|apply sublist_nil]. constructor.
  induction IH; cbn [flat_map]; [constructor|]. apply sublist_app; assumption.
Qed.

Lemma proj_all o t : Includes o = [] -> proj o t = schema_ids t.
Proof.
  intros Ho. induction t as [j k ns e h cs IH] using td_rect'. rewrite proj_eq. cbn [schema_ids].
  unfold IsInclude. rewrite Ho. f_equal.
  induction IH; cbn [flat_map]; [reflexivity|]. congruence.
Qed.

Lemma projection o t : well_shaped t ->
  exists v, createVector o t = Ok v /\
  (forall i, In i (ovec_ids v) <-> Selected (included (Includes o)) t i) /\
  sublist (ovec_ids v) (schema_ids t) /\
  (Includes o = [] -> ovec_ids v = schema_ids t).
Proof.
  intros W. destruct (create_proj o t W) as (v & V1 & V2). exists v. split; [exact V1|].
  rewrite V2. split; [apply proj_Selected|]. split; [apply proj_sublist|apply proj_all].
Qed.

Lemma create_rejects o t : well_shaped t -> RowSize o <> 0 -> (CreateVector o t = Err <->
  exists n s c, at_path t (repeat 0%nat n) = Some s /\ nth_error (td_children s) 0 = Some c /\
                td_hasNulls s = true /\ td_hasNulls c = true).
Proof.
  intros W Ho. rewrite <- (verify_chain t W). unfold CreateVector.
  apply Z.eqb_neq in Ho. rewrite Ho. destruct (projection o t W) as (v & -> & _).
  destruct (verifySchema t); split; congruence.
Qed.

(** ** Holes *)
Lemma create_none o t : createVector o t = Ok None -> IsInclude o (td_id t) = false.
Proof.
  destruct t as [i k ns e h cs]. cbn [createVector td_id]. destruct (IsInclude o i); [|reflexivity].
  change ((fix go (l : list td) : res (list (option vec)) :=
             match l with
             | [] => Ok []
             | c :: r => let! v := createVector o c in let! vs := go r in
                         Ok (match v with None => vs | _ => v :: vs end)
             end) cs) with (createL o cs).
  destruct k; try discriminate.
  - destruct cs as [|c cs]; [discriminate|]. destruct (createVector o c); discriminate.
  - destruct cs as [|c [|d cs]]; try discriminate.
    destruct (createVector o c); try discriminate. cbn [rbind].
    destruct (createVector o d); discriminate.
  - destruct (createL o cs); discriminate.
Qed.

Lemma no_nil o t : forall v, well_shaped t ->
  (forall s c, Column t s -> td_kind s = LIST \/ td_kind s = MAP -> In c (td_children s) ->
     included (Includes o) (td_id c)) ->
  createVector o t = Ok (Some v) -> no_holes v = true.
Proof.
  induction t as [i k ns e h cs IH] using td_rect'. intros v W Hin.
  pose proof (W _ (Column_refl _)) as W0. cbn [td_kind td_children] in W0.
  assert (Wc : forall c, In c cs -> well_shaped c).
  { intros c Hc s Hs. apply W. eapply Column_child; [exact Hc|exact Hs]. }
  assert (Hc : forall c, In c cs -> forall s d, Column c s -> td_kind s = LIST \/ td_kind s = MAP ->
                 In d (td_children s) -> included (Includes o) (td_id d)).
  { intros c Hc s d Hs. apply Hin. eapply Column_child; [exact Hc|exact Hs]. }
  rewrite Forall_forall in IH.
  assert (G : forall c x, In c cs -> (k = LIST \/ k = MAP) -> createVector o c = Ok x ->
              exists w, x = Some w /\ no_holes w = true).
  { intros c [w|] Hcc Hk Hx.
    - exists w. split; [reflexivity|]. eapply IH; eauto.
    - exfalso. apply create_none in Hx.
      specialize (Hin _ c (Column_refl _) Hk Hcc). apply IsInclude_spec in Hin. congruence. }
  cbn [createVector]. destruct (IsInclude o i); [|discriminate].
  change ((fix go (l : list td) : res (list (option vec)) :=
             match l with
             | [] => Ok []
             | c :: r => let! v := createVector o c in let! vs := go r in
                         Ok (match v with None => vs | _ => v :: vs end)
             end) cs) with (createL o cs).
  destruct k; intros HV; try (injection HV as <-; reflexivity); try discriminate.
  - destruct cs as [|c [|d cs]]; try discriminate.
    destruct (createVector o c) as [x| |] eqn:Ec; try discriminate. cbn [rbind] in HV.
    destruct (G c x) as (w & -> & Hw); [left; reflexivity|auto|exact Ec|].
    injection HV as <-. cbn [no_holes forallb]. rewrite Hw. reflexivity.
  - destruct cs as [|c [|d [|e' cs]]]; try discriminate.
    destruct (createVector o c) as [x| |] eqn:Ec; try discriminate. cbn [rbind] in HV.
    destruct (createVector o d) as [y| |] eqn:Ed; try discriminate. cbn [rbind] in HV.
    destruct (G c x) as (w & -> & Hw); [left; reflexivity|auto|exact Ec|].
    destruct (G d y) as (z & -> & Hz); [right; left; reflexivity|auto|exact Ed|].
    injection HV as <-. cbn [no_holes forallb]. rewrite Hw, Hz. reflexivity.
  - destruct (createL o cs) as [vs| |] eqn:El; try discriminate. cbn [rbind] in HV.
    injection HV as <-. cbn [no_holes]. clear W W0 Hin G.
    revert vs El. induction cs as [|c cs IHc]; intros vs El; cbn [createL] in El.
    + injection El as <-. reflexivity.
    + destruct (createVector o c) as [x| |] eqn:Ec; try discriminate. cbn [rbind] in El.
      fold (createL o) in El. destruct (createL o cs) as [ws| |] eqn:Ew; try discriminate.
      cbn [rbind] in El. specialize (IHc (fun d Hd => IH d (or_intror Hd))
        (fun d Hd => Wc d (or_intror Hd)) (fun d Hd => Hc d (or_intror Hd)) ws eq_refl).
      destruct x as [w|]; injection El as <-; [|exact IHc].
      cbn [forallb]. rewrite IHc. rewrite andb_true_r.
      eapply IH; [left; reflexivity|apply Wc; left; reflexivity|apply Hc; left; reflexivity|exact Ec].
Qed.
