(** Proofs for C81-C83. *)
From Coq Require Import ZifyBool ZifyNat.
From Verif.Model Require Import Go Chunk Schema File Column Check.
From Verif.Spec Require Import SchemaSpec FileSpec CheckSpec.
From Verif.Proofs Require Import Base SchemaP FileP.

(** ** CheckBatch *)
Lemma checkValues_ok schemas id l : checkValues schemas id l = Ok tt <-> Forall (fun v => Null v = true -> nullable schemas id) l.
Proof.
  induction l as [|v l IH]; cbn [checkValues]; [split; [constructor|reflexivity]|].
  rewrite Forall_cons_iff, <- IH. destruct (Null v) eqn:En.
  - destruct (nth_error schemas id) as [s|] eqn:E.
    + destruct (td_hasNulls s) eqn:Es.
      * split; [intros H; split; [intros _; exists s; auto|exact H]|intros [_ H]; exact H].
      * split; [discriminate|]. intros [H _]. destruct (H eq_refl) as (s' & E' & Es'). congruence.
    + split; [discriminate|]. intros [H _]. destruct (H eq_refl) as (s' & E' & _). congruence.
  - split; [intros H; split; [discriminate|exact H]|intros [_ H]; exact H].
Qed.
Section All.
Variable schemas : list td.
Fixpoint checkAll (cs : list (cvec value)) : res unit :=
  match cs with [] => Ok tt | c :: r => let! _ := CheckBatch schemas c in checkAll r end.
End All.
Lemma CheckBatch_eq schemas id vals cs : CheckBatch schemas (CVec id vals cs) =
  let! _ := checkValues schemas id (match vals with Some l => l | None => [] end) in checkAll schemas cs.
Proof. reflexivity. Qed.
Lemma unit_tt (x : unit) : x = tt. Proof. destruct x. reflexivity. Qed.
Lemma check_ok schemas v : CheckBatch schemas v = Ok tt <->
  forall id l, Vector v id l -> Forall (fun x => Null x = true -> nullable schemas id) l.
Proof.
  induction v as [id vals cs IH] using cvec_ind'. rewrite CheckBatch_eq.
  assert (HL : checkAll schemas cs = Ok tt <-> forall c, In c cs -> forall i l, Vector c i l -> Forall (fun x => Null x = true -> nullable schemas i) l).
  { induction IH as [|c cs Hc _ IHcs]; cbn [checkAll]; [split; [intros _ c []|reflexivity]|]. split.
    - intros H. apply rbind_inv in H. destruct H as ([] & H1 & H2). rewrite Hc in H1. rewrite IHcs in H2. intros d [<-|Hd]; [exact H1|exact (H2 d Hd)].
    - intros H. rewrite (proj2 Hc) by (apply H; left; reflexivity). cbn [rbind]. apply IHcs. intros d Hd. apply H. right. exact Hd. }
  split.
  - intros H. apply rbind_inv in H. destruct H as ([] & H1 & H2). rewrite checkValues_ok in H1. rewrite HL in H2. intros i l Hv. inversion Hv; subst.
    + exact H1.
    + eapply H2; eassumption.
  - intros H. rewrite (proj2 (checkValues_ok schemas id _)).
    + cbn [rbind]. apply HL. intros c Hc i l Hv. apply H. eapply VectorChild; eassumption.
    + destruct vals as [l|]; [|constructor]. apply H. constructor.
Qed.
Lemma checkValues_fine schemas id l : (id < length schemas)%nat -> checkValues schemas id l <> Panic.
Proof.
  intros H. induction l as [|v l IH]; cbn [checkValues]; [discriminate|]. destruct (Null v); [|exact IH].
  destruct (nth_error schemas id) eqn:E; [|apply nth_error_None in E; lia]. destruct (td_hasNulls t); [exact IH|discriminate].
Qed.
Lemma check_fine schemas v : (forall id l, Vector v id l -> (id < length schemas)%nat) -> CheckBatch schemas v <> Panic.
Proof.
  induction v as [id vals cs IH] using cvec_ind'. intros H. rewrite CheckBatch_eq.
  assert (H0 : checkValues schemas id (match vals with Some l => l | None => [] end) <> Panic).
  { destruct vals as [l|]; [|discriminate]. apply checkValues_fine. eapply H. constructor. }
  assert (HL : checkAll schemas cs <> Panic).
  { assert (Hc : forall c, In c cs -> CheckBatch schemas c <> Panic).
    { intros c Hin. rewrite Forall_forall in IH. apply (IH c Hin). intros i l Hv. eapply H. eapply VectorChild; eassumption. }
    clear - Hc. induction cs as [|c cs IH]; [discriminate|]. cbn [checkAll]. pose proof (Hc c (or_introl eq_refl)).
    destruct (CheckBatch schemas c); [cbn [rbind]; apply IH; intros d Hd; apply Hc; right; exact Hd|discriminate|contradiction]. }
  destruct (checkValues schemas id _); [cbn [rbind]; exact HL|discriminate|contradiction].
Qed.
(** A cell of a row is a value of a vector. *)
Lemma cells_vector {V} i (v : cvec V) r : cells i v = Some r -> forall c x, In (c, x) r -> exists l, Vector v c l /\ nth_error l i = Some x.
Proof.
  revert r. induction v as [id vals cs IH] using cvec_ind'. intros r H c x Hin. cbn [cells] in H.
  cbv zeta in H. match type of H with context[fold_right ?f ?z cs] => set (rest := fold_right f z cs) in * end.
  assert (HR : forall q, rest = Some q -> In (c, x) q -> exists l, Vector (CVec id vals cs) c l /\ nth_error l i = Some x).
  { subst rest. clear H Hin r.
    assert (Hall : forall d, In d cs -> forall q, cells i d = Some q -> In (c, x) q -> exists l, Vector (CVec id vals cs) c l /\ nth_error l i = Some x).
    { intros d Hd q Hq Hin. rewrite Forall_forall in IH. destruct (IH d Hd q Hq c x Hin) as (l & Hv & Hn). exists l. split; [|exact Hn]. eapply VectorChild; eassumption. }
    clear IH. revert Hall. generalize (CVec id vals cs) as w. induction cs as [|d cs IHcs]; intros w Hall q Hq Hin.
    - assert (q = []) as -> by (cbn [fold_right] in Hq; congruence). destruct Hin.
    - cbn [fold_right] in Hq. destruct (cells i d) as [a|] eqn:Ea; [|discriminate Hq].
      match type of Hq with context[fold_right ?f ?z cs] => destruct (fold_right f z cs) as [b|] eqn:Eb; [|discriminate Hq] end.
      assert (q = a ++ b) as -> by congruence. apply in_app_or in Hin. destruct Hin as [Hin|Hin].
      + eapply Hall; [left; reflexivity|exact Ea|exact Hin].
      + eapply IHcs; [|reflexivity|exact Hin]. intros e He. apply Hall. right. exact He. }
  destruct vals as [l|].
  - destruct (nth_error l i) as [y|] eqn:Ey; [|discriminate H]. destruct rest as [q|]; [|discriminate H].
    assert (r = (id, y) :: q) as -> by congruence. destruct Hin as [E|Hin]; [|eapply HR; [reflexivity|exact Hin]].
    injection E as <- <-. exists l. split; [constructor|exact Ey].
  - eapply HR; [exact H|exact Hin].
Qed.
Lemma check_rows schemas vs rows : Rows vs rows -> Forall (fun v => CheckBatch schemas v = Ok tt) vs ->
  forall c x, In (c, x) (concat rows) -> Null x = true -> nullable schemas c.
Proof.
  induction 1 as [|v vs rs rows Hv Hr IH]; intros Hc c x Hin Hn; [destruct Hin|].
  inversion Hc as [|? ? Hc1 Hc2]; subst. rewrite concat_app in Hin. apply in_app_or in Hin. destruct Hin as [Hin|Hin]; [|exact (IH Hc2 c x Hin Hn)].
  clear - Hv Hc1 Hin Hn. induction Hv as [|i r is rs Hi _ IH]; [destruct Hin|]. cbn [concat] in Hin. apply in_app_or in Hin. destruct Hin as [Hin|Hin]; [|exact (IH Hin)].
  destruct (cells_vector i v r Hi c x Hin) as (l & Hvec & Hx). pose proof (proj1 (check_ok schemas v) Hc1 c l Hvec) as Hf.
  rewrite Forall_forall in Hf. apply (Hf x); [eapply nth_error_In; exact Hx|exact Hn].
Qed.

(** ** setId *)
Fixpoint setIdL (id : Z) (cs : list td) : res (list td) :=
  match cs with
  | [] => Ok []
  | c :: r => let id := u32 (id + 1) in let! c' := setId id c in let! r' := setIdL id r in Ok (c' :: r')
  end.
Lemma setId_eq id i k ns e h cs : k = STRUCT \/ k = LIST -> setId id (Td i k ns e h cs) = let! cs' := setIdL id cs in Ok (Td id k ns e h cs').
Proof. intros [-> | ->]; reflexivity. Qed.
Lemma setId_leaf id i k ns e h : k <> MAP -> k <> UNION -> setId id (Td i k ns e h []) = Ok (Td id k ns e h []).
Proof. destruct k; intros; try reflexivity; contradiction. Qed.
Lemma addIds_id n t : td_id (fst (addIds n t)) = n.
Proof. destruct t as [i k ns e h cs]. rewrite addIds_eq. destruct (addIdsL (u32 (n + 1)) cs). reflexivity. Qed.
Lemma setId_id n t t' : setId n t = Ok t' -> td_id t' = n.
Proof.
  destruct t as [i k ns e h cs]. intros H. destruct k; cbn [setId] in H; try discriminate H;
    first [injection H as <-; reflexivity|apply rbind_inv in H; destruct H as (q & _ & H); injection H as <-; reflexivity].
Qed.
Lemma plain_child t c : plain t -> In c (td_children t) -> plain c.
Proof. intros H Hc s Hs. apply H. eapply Column_child; eassumption. Qed.
Lemma rightmost_iff t : rightmost t <-> Forall (fun c => td_children c = []) (removelast (td_children t)) /\ Forall rightmost (td_children t).
Proof.
  split.
  - intros H. split; [apply H, Column_refl|]. apply Forall_forall. intros c Hc s Hs. apply H. eapply Column_child; eassumption.
  - intros [H1 H2] s Hs. apply Column_inv in Hs. destruct Hs as [->|(c & Hc & Hs)]; [exact H1|]. rewrite Forall_forall in H2. exact (H2 c Hc s Hs).
Qed.
Lemma setIdL_spec cs : Forall (fun t => plain t -> forall n, 0 <= n -> n + size t <= 4294967296 -> (setId n t = Ok (fst (addIds n t)) <-> rightmost t)) cs ->
  Forall plain cs -> forall n, 0 <= n -> n + 1 + sizes cs <= 4294967296 ->
  (setIdL n cs = Ok (fst (addIdsL (u32 (n + 1)) cs)) <-> Forall (fun c => td_children c = []) (removelast cs) /\ Forall rightmost cs).
Proof.
  induction 1 as [|c cs Hc Hcs IH]; intros Hp n Hn Hs; [cbn; split; [repeat constructor|reflexivity]|].
  inversion Hp as [|? ? Hp1 Hp2]; subst. rewrite sizes_cons in Hs. pose proof (size_pos c) as Hpos. pose proof (sizes_nonneg cs) as Hnn.
  cbn [setIdL addIdsL]. rewrite (u32_id (n + 1)) by lia.
  destruct (addIds_spec c (n + 1)) as (c' & E1 & E2 & E3); [lia..|]. specialize (Hc Hp1 (n + 1) ltac:(lia) ltac:(lia)). rewrite E1 in Hc. cbn [fst] in Hc.
  rewrite E1. destruct (addIdsL (u32 (n + 1 + size c)) cs) as [l m] eqn:El. cbn [fst].
  assert (Hleaf : td_children c = [] <-> size c = 1).
  { destruct c as [i k ns e h ch]. rewrite size_eq. cbn [td_children]. destruct ch as [|d ch]; [split; [intros _; reflexivity|reflexivity]|].
    rewrite sizes_cons. pose proof (size_pos d). pose proof (sizes_nonneg ch). split; [discriminate|lia]. }
  destruct cs as [|d cs].
  - cbn [setIdL addIdsL] in *. injection El as <- <-. cbn [removelast].
    rewrite Forall_cons_iff. split.
    + intros H. apply rbind_inv in H. destruct H as (x & Hx & H). cbn [rbind] in H. assert (x = c') as -> by congruence.
      split; [constructor|]. split; [apply Hc; exact Hx|constructor].
    + intros [_ [Hr _]]. apply Hc in Hr. rewrite Hr. reflexivity.
  - change (removelast (c :: d :: cs)) with (c :: removelast (d :: cs)). rewrite !(Forall_cons_iff _ c). split.
    + intros H. apply rbind_inv in H. destruct H as (x & Hx & H). apply rbind_inv in H. destruct H as (q & Hq & H).
      assert (Exq : x = c' /\ q = l) by (split; congruence). destruct Exq as [-> ->].
      assert (Hone : size c = 1).
      { cbn [setIdL] in Hq. apply rbind_inv in Hq. destruct Hq as (d1 & Hd & Hq). apply rbind_inv in Hq. destruct Hq as (q & _ & Hq).
        apply setId_id in Hd. cbn [addIdsL] in El. destruct (addIds (u32 (n + 1 + size c)) d) as [d2 m2] eqn:Ed. destruct (addIdsL m2 cs) as [l3 m3].
        assert (d1 = d2) as -> by congruence. pose proof (addIds_id (u32 (n + 1 + size c)) d) as Hi. rewrite Ed in Hi. cbn [fst] in Hi.
        pose proof (size_pos d). rewrite sizes_cons in Hs. pose proof (sizes_nonneg cs). rewrite !u32_id in * by lia. lia. }
      assert (Hrec : setIdL (n + 1) (d :: cs) = Ok (fst (addIdsL (u32 (n + 1 + 1)) (d :: cs)))).
      { replace (n + 1 + 1) with (n + 1 + size c) by lia. rewrite El. exact Hq. }
      apply IH in Hrec; [|exact Hp2|lia|lia]. destruct Hrec as [R1 R2]. split; [split; [apply Hleaf; exact Hone|exact R1]|]. split; [apply Hc; exact Hx|exact R2].
    + intros [[H1 H2] [H3 H4]]. apply Hc in H3. rewrite H3. cbn [rbind]. apply Hleaf in H1.
      assert (Hrec : setIdL (n + 1) (d :: cs) = Ok (fst (addIdsL (u32 (n + 1 + 1)) (d :: cs)))) by (apply IH; [exact Hp2|lia|lia|split; assumption]).
      replace (n + 1 + 1) with (n + 1 + size c) in Hrec by lia. rewrite El in Hrec. cbn [fst] in Hrec. rewrite Hrec. reflexivity.
Qed.
Lemma setId_spec t : plain t -> forall n, 0 <= n -> n + size t <= 4294967296 -> (setId n t = Ok (fst (addIds n t)) <-> rightmost t).
Proof.
  induction t as [i k ns e h cs IH] using td_rect'. intros Hp n Hn Hs. rewrite size_eq in Hs.
  destruct (Hp _ (Column_refl _)) as (K1 & K2 & K3). cbn [td_kind td_children] in K1, K2, K3.
  rewrite rightmost_iff. cbn [td_children]. destruct cs as [|c cs].
  - rewrite setId_leaf by assumption. rewrite addIds_eq. cbn. split; [repeat constructor|reflexivity].
  - rewrite setId_eq by (apply K3; discriminate). rewrite addIds_eq.
    rewrite <- (setIdL_spec (c :: cs) IH) with (n := n); [|apply Forall_forall; intros d Hd; eapply plain_child; [exact Hp|exact Hd]|exact Hn|lia].
    destruct (addIdsL (u32 (n + 1)) (c :: cs)) as [l m]. cbn [fst]. split.
    + intros H. apply rbind_inv in H. destruct H as (q & Hq & H). assert (q = l) as -> by congruence. exact Hq.
    + intros H. rewrite H. reflexivity.
Qed.

(** ** ensureOrcFooter *)
Lemma sameBytes_length a : forall b, sameBytes a b = true -> length a = length b.
Proof. induction a as [|x a IH]; intros [|y b] H; try discriminate; [reflexivity|]. cbn in *. apply andb_prop in H. f_equal. apply IH. apply H. Qed.
Lemma footer_refused psLen buf : ensureOrcFooter psLen buf = Err.
Proof.
  unfold ensureOrcFooter. change (zlen Magic + 1) with 4. destruct ((psLen <? 4) || (zlen buf <? 4)) eqn:E; [reflexivity|].
  destruct (sameBytes _ _) eqn:Es; [|reflexivity]. apply sameBytes_length in Es. exfalso. unfold zdrop in Es. rewrite skipn_length in Es.
  change (length Magic) with 3%nat in Es. unfold zlen in *. lia.
Qed.
