(** Model/Unused.v. *)
From Verif.Model Require Import Go Stream Schema File Column Assembled Unused.
From Verif.Spec Require Import SchemaSpec HelperSpec ColumnSpec UnusedSpec.
From Verif.Proofs Require Import Base SchemaP.

(** ** Batches *)
Section BInd.
  Variable P : bvec -> Prop.
  Hypothesis H : forall i k s cs, Forall P cs -> P (BVec i k s cs).
  Fixpoint bvec_rect' (v : bvec) : P v :=
    match v with
    | BVec i k s cs =>
        H i k s cs ((fix go (l : list bvec) : Forall P l :=
          match l with [] => Forall_nil _ | c :: r => Forall_cons _ (bvec_rect' c) (go r) end) cs)
    end.
End BInd.
Lemma Len_Clear v : Len (Clear v) = 0.
Proof.
  induction v as [i k s cs IH] using bvec_rect'. cbn [Clear].
  destruct s as [[a b]|]; cbn [clearVals]; destruct cs as [|c cs]; cbn [map Len]; try reflexivity;
    inversion IH; assumption.
Qed.
Lemma Cap_Clear v : Cap (Clear v) = Cap v.
Proof.
  induction v as [i k s cs IH] using bvec_rect'. cbn [Clear].
  destruct s as [[a b]|]; cbn [clearVals]; destruct cs as [|c cs]; cbn [map Cap]; try reflexivity;
    inversion IH; assumption.
Qed.
Lemma Len_nonneg v : 0 <= Len v.
Proof.
  induction v as [i k s cs IH] using bvec_rect'.
  destruct s as [[[|x a] b]|]; destruct cs as [|c cs]; cbn [Len]; try lia; try apply zlen_nonneg;
    inversion IH; assumption.
Qed.
Lemma b_Len_Clear b : b_Len (b_Clear b) = 0.
Proof. induction b as [|c r IH]; [reflexivity|]. cbn [b_Clear map b_Len]. rewrite Len_Clear. exact IH. Qed.
Lemma b_Cap_Clear b : b_Cap (b_Clear b) = b_Cap b.
Proof. induction b as [|c r IH]; [reflexivity|]. cbn [b_Clear map b_Cap]. rewrite Cap_Clear. cbv zeta. rewrite <- IH. reflexivity. Qed.
Lemma b_Len_0 b : b_Len b = 0 <-> Forall (fun c => Len c = 0) b.
Proof.
  induction b as [|c r IH]; [split; constructor|]. cbn [b_Len]. cbv zeta.
  destruct (Z.eqb_spec (Len c) 0); cbn [negb].
  - rewrite IH. split; intros H; [constructor; assumption|inversion H; assumption].
  - split; [contradiction|intros H; inversion H; contradiction].
Qed.
Lemma b_Len_all b n : n <> 0 -> (exists c, In c b /\ Len c <> 0) ->
  (forall c, In c b -> Len c <> 0 -> Len c = n) -> b_Len b = n.
Proof.
  intros Hn. induction b as [|c r IH]; intros (x & Hx & Hx0) H; [destruct Hx|]. cbn [b_Len]. cbv zeta.
  destruct (Z.eqb_spec (Len c) 0) as [E|E]; cbn [negb].
  - apply IH; [|intros y Hy; apply H; right; exact Hy]. destruct Hx as [->|Hx]; [contradiction|]. exists x. auto.
  - apply H; [left; reflexivity|exact E].
Qed.
Lemma b_Len_all_iff b : (forall c, In c b -> Len c <> 0 -> Len c = b_Len b) <->
  (forall c d, In c b -> In d b -> Len c <> 0 -> Len d <> 0 -> Len c = Len d).
Proof.
  split; intros H.
  - intros c d Hc Hd Hc0 Hd0. rewrite (H c Hc Hc0), (H d Hd Hd0). reflexivity.
  - intros c Hc Hc0. symmetry. apply b_Len_all; [exact Hc0|exists c; auto|]. intros d Hd Hd0. apply H; assumption.
Qed.

(** ** String *)
Lemma Named_inv t s : Named t s <-> s = t \/ exists c, In c (firstn (length (td_names t)) (td_children t)) /\ Named c s.
Proof.
  split.
  - intros ([|j q] & H); cbn [named_path] in H; [left; congruence|]. right.
    destruct (Nat.ltb_spec j (length (td_names t))) as [Hj|]; [|discriminate].
    destruct (nth_error (td_children t) j) as [c|] eqn:E; [|discriminate]. exists c. split; [|exists q; exact H].
    apply (nth_error_In _ j). rewrite <- E. clear - Hj. revert j Hj.
    generalize (length (td_names t)). intros n. revert n. induction (td_children t) as [|x l IH]; intros [|n] [|j] Hj;
      cbn [firstn nth_error]; try reflexivity; try lia. apply IH. lia.
  - intros [->|(c & Hin & q & Hq)]; [exists []; reflexivity|].
    apply In_nth_error in Hin. destruct Hin as (j & Ej).
    assert (Hj : (j < length (td_names t))%nat).
    { assert (Hlt : (j < length (firstn (length (td_names t)) (td_children t)))%nat) by (apply nth_error_Some; congruence).
      rewrite firstn_length in Hlt. lia. }
    exists (j :: q). cbn [named_path]. destruct (Nat.ltb_spec j (length (td_names t))); [|lia].
    assert (E : nth_error (td_children t) j = Some c).
    { rewrite <- Ej. clear - Hj. revert j Hj.
      generalize (length (td_names t)). intros n. revert n. induction (td_children t) as [|x l IH]; intros [|n] [|j] Hj;
        cbn [firstn nth_error]; try reflexivity; try lia. apply IH. lia. }
    rewrite E. exact Hq.
Qed.
Definition stringAll : list td -> list (list Z) -> res (list part) :=
  fix go (cs : list td) (names : list (list Z)) : res (list part) :=
    match names, cs with
    | [], _ => Ok []
    | _ :: _, [] => Panic
    | n :: names', c :: cs' =>
        let! p := String c in
        let! r := go cs' names' in
        Ok (PChild n :: p ++ r)
    end.
Lemma String_eq i k ns e h cs : String (Td i k ns e h cs) =
  let! ps := stringAll cs ns in Ok (PColumn i k :: (match cs with [] => [] | _ => [PNewline] end) ++ ps ++ [PNewline]).
Proof. reflexivity. Qed.
Lemma stringAll_nil cs : stringAll cs [] = Ok [].
Proof. destruct cs; reflexivity. Qed.
Lemma stringAll_cons c cs n ns : stringAll (c :: cs) (n :: ns) =
  let! p := String c in let! r := stringAll cs ns in Ok (PChild n :: p ++ r).
Proof. reflexivity. Qed.
Lemma stringAll_ok cs : forall ns, (forall c, In c (firstn (length ns) cs) -> exists p, String c = Ok p) ->
  (length ns <= length cs)%nat -> exists r, stringAll cs ns = Ok r.
Proof.
  induction cs as [|c cs IH]; intros [|n ns] H Hl; try (rewrite stringAll_nil; eauto; fail); [cbn in Hl; lia|].
  rewrite stringAll_cons. destruct (H c) as (p & ->); [left; reflexivity|]. cbn [rbind].
  destruct (IH ns) as (r & ->); [intros x Hx; apply H; right; exact Hx|cbn in Hl; lia|]. cbn [rbind]. eauto.
Qed.
Lemma stringAll_inv cs : forall ns r, stringAll cs ns = Ok r -> (length ns <= length cs)%nat /\
  (forall c, In c (firstn (length ns) cs) -> exists p, String c = Ok p) /\
  forall i k, In (PColumn i k) r <-> exists c p, In c (firstn (length ns) cs) /\ String c = Ok p /\ In (PColumn i k) p.
Proof.
  induction cs as [|c cs IH]; intros [|n ns] r H.
  - rewrite stringAll_nil in H. assert (r = []) as -> by congruence. split; [cbn; lia|]. cbn. split; [intros _ []|].
    intros i k. split; [intros []|intros (x & _ & [] & _)].
  - discriminate.
  - rewrite stringAll_nil in H. assert (r = []) as -> by congruence. split; [cbn; lia|]. cbn. split; [intros _ []|].
    intros i k. split; [intros []|intros (x & _ & [] & _)].
  - rewrite stringAll_cons in H. apply rbind_inv in H. destruct H as (p & Ep & H).
    apply rbind_inv in H. destruct H as (r' & Er & H). assert (r = PChild n :: p ++ r') as -> by congruence.
    apply IH in Er. destruct Er as (Hl & Hok & Hin). split; [cbn; lia|]. cbn [length firstn]. split.
    + intros x [<-|Hx]; [eauto|apply Hok; exact Hx].
    + intros i k. split.
      * intros [H1|H1]; [discriminate|]. apply in_app_or in H1. destruct H1 as [H1|H1].
        -- exists c, p. split; [left; reflexivity|auto].
        -- apply Hin in H1. destruct H1 as (x & q & Hx & Hq). exists x, q. split; [right; exact Hx|exact Hq].
      * intros (x & q & [<-|Hx] & Eq & Hq); right; apply in_or_app.
        -- left. assert (p = q) as -> by congruence. exact Hq.
        -- right. apply Hin. exists x, q. auto.
Qed.
Lemma String_returns t : (exists ps, String t = Ok ps) <->
  forall s, Named t s -> (length (td_names s) <= length (td_children s))%nat.
Proof.
  induction t as [i k ns e h cs IH] using td_rect'. rewrite Forall_forall in IH. rewrite String_eq.
  assert (Hf : forall c, In c (firstn (length ns) cs) -> In c cs)
    by (intros c Hc; rewrite <- (firstn_skipn (length ns) cs); apply in_or_app; left; exact Hc).
  split.
  - intros (ps & H) s Hs. apply rbind_inv in H. destruct H as (r & Er & _). apply stringAll_inv in Er.
    destruct Er as (Hl & Hok & _). apply Named_inv in Hs. destruct Hs as [->|(c & Hin & Hs)]; [exact Hl|].
    cbn [td_names td_children] in Hin. apply (proj1 (IH c (Hf c Hin)) (Hok c Hin) s Hs).
  - intros H. destruct (stringAll_ok cs ns) as (r & ->).
    + intros c Hc. apply (IH c (Hf c Hc)). intros s Hs. apply H. apply Named_inv. right. exists c. auto.
    + apply (H (Td i k ns e h cs)). apply Named_inv. left. reflexivity.
    + cbn [rbind]. eauto.
Qed.
Lemma String_shows t : forall ps, String t = Ok ps -> forall i k,
  In (PColumn i k) ps <-> exists s, Named t s /\ td_id s = i /\ td_kind s = k.
Proof.
  induction t as [i0 k0 ns e h cs IH] using td_rect'. rewrite Forall_forall in IH. rewrite String_eq.
  assert (Hf : forall c, In c (firstn (length ns) cs) -> In c cs)
    by (intros c Hc; rewrite <- (firstn_skipn (length ns) cs); apply in_or_app; left; exact Hc).
  intros ps H i k. apply rbind_inv in H. destruct H as (r & Er & H). injection H as <-.
  apply stringAll_inv in Er. destruct Er as (_ & Hok & Hin).
  assert (E : In (PColumn i k) (PColumn i0 k0 :: (match cs with [] => [] | _ => [PNewline] end) ++ r ++ [PNewline]) <->
    (i0 = i /\ k0 = k) \/ In (PColumn i k) r).
  { cbn [In]. rewrite !in_app_iff. split.
    - intros [H|[H|[H|[H|[]]]]]; try discriminate; [left; split; congruence| |right; exact H].
      exfalso. clear - H. destruct cs; [exact H|]. destruct H as [H|[]]. discriminate.
    - intros [[-> ->]|H]; auto. }
  rewrite E, Hin. split.
  - intros [[<- <-]|(c & p & Hc & Ep & Hp)].
    + exists (Td i0 k0 ns e h cs). split; [apply Named_inv; left; reflexivity|auto].
    + apply (IH c (Hf c Hc) p Ep) in Hp. destruct Hp as (s & Hs & H). exists s. split; [|exact H].
      apply Named_inv. right. exists c. auto.
  - intros (s & Hs & Hi & Hk). apply Named_inv in Hs. destruct Hs as [->|(c & Hc & Hs)]; [left; auto|]. right.
    cbn [td_names td_children] in Hc. destruct (Hok c Hc) as (p & Ep). exists c, p. split; [exact Hc|]. split; [exact Ep|].
    apply (IH c (Hf c Hc) p Ep). exists s. auto.
Qed.
Lemma String_not_err t : String t <> Err.
Proof.
  induction t as [i k ns e h cs IH] using td_rect'. rewrite String_eq. intros H.
  assert (E : stringAll cs ns <> Err).
  { clear H. revert ns. induction IH as [|c cs Hc _ IHc]; intros [|n ns]; try (rewrite stringAll_nil); try discriminate.
    rewrite stringAll_cons. destruct (String c); cbn [rbind]; [|contradiction|discriminate].
    specialize (IHc ns). destruct (stringAll cs ns); cbn [rbind]; [discriminate|contradiction|discriminate]. }
  destruct (stringAll cs ns); cbn [rbind] in H; [discriminate|contradiction|discriminate].
Qed.
Lemma Named_Column t s : evenly_named t -> (Named t s <-> Column t s).
Proof.
  intros He. split.
  - intros (p & Hp). exists p. clear He. revert t Hp. induction p as [|j q IH]; intros t Hp; [exact Hp|]. cbn [named_path at_path] in *.
    destruct (j <? length (td_names t))%nat; [|discriminate]. destruct (nth_error (td_children t) j); [apply IH; exact Hp|discriminate].
  - intros (p & Hp). exists p. revert t He Hp. induction p as [|j q IH]; intros t He Hp; [exact Hp|]. cbn [named_path at_path] in *.
    pose proof (He t ltac:(exists []; reflexivity)) as E0.
    destruct (nth_error (td_children t) j) as [c|] eqn:Ec; [|discriminate].
    assert (j < length (td_children t))%nat by (apply nth_error_Some; congruence).
    destruct (Nat.ltb_spec j (length (td_names t))); [|lia]. apply IH; [|exact Hp].
    intros s' (p' & Hp'). apply He. exists (j :: p'). cbn [at_path]. rewrite Ec. exact Hp'.
Qed.

(** ** The writer of lists *)
Section ListW.
Variable deflate : list (list Z) -> list Z -> res (list Z).
Variable F : floats.
Variable o : opts.
Variable stride : Z.
Notation wr := (writeRows deflate F o stride).
Lemma list_plain t vs : td_hasNulls t = false -> wr (NewListV2Writer o t) vs = Ok (NewListV2Writer o t).
Proof.
  intros H. induction vs as [|v vs IH]; [reflexivity|]. cbn [writeRows].
  assert (E : c_Write deflate F o stride (NewListV2Writer o t) v = Ok (NewListV2Writer o t)).
  { unfold c_Write, NewListV2Writer, newColW, hasNulls. rewrite H. reflexivity. }
  rewrite E. cbn [rbind]. exact IH.
Qed.
Definition bare (c : colW) : Prop := cw_kind c = KStruct /\ cs_detail (cw_stats c) = None /\ cw_present c <> None.
Lemma bare_step c v c' : bare c -> c_Write deflate F o stride c v = Ok c' -> Null v = true /\ bare c'.
Proof.
  intros (Hk & Hd & Hp) H. unfold c_Write, hasNulls in H. rewrite Hk in H. cbn [isKStruct andb] in H.
  destruct (cw_present c) as [p|] eqn:Ep; [|contradiction]. cbn [negb] in H.
  apply rbind_inv in H. destruct H as (p' & E1 & H).
  apply rbind_inv in H. destruct H as (d & _ & H). apply rbind_inv in H. destruct H as (st & Est & H).
  destruct (Null v); [|unfold addStats in Est; rewrite Hd in Est; discriminate].
  split; [reflexivity|]. assert (Hst : st = countNull (cw_stats c)) by congruence.
  assert (Hp' : p' <> None).
  { unfold optM in E1. apply rbind_inv in E1. destruct E1 as (x & _ & E1). congruence. }
  cbv zeta in H. destruct (WriteIndex o && indexes KStruct true) eqn:Ew.
  - unfold indexStep in H. cbn [cw_kind cw_indexInRows cw_index cw_indexStats cw_present cw_data cw_stats] in H.
    match type of H with context [if ?b then (?x, ?y, ?z) else _] => destruct b end; cbn [rbind] in H;
      apply rbind_inv in H; destruct H as (is & _ & H); injection H as <-; unfold bare; cbn [cw_kind cw_stats cw_present];
      rewrite Hst; cbn [countNull cs_detail]; auto.
  - injection H as <-. unfold bare. cbn [cw_kind cw_stats cw_present]. rewrite Hst. cbn [countNull cs_detail]. auto.
Qed.
Lemma bare_rows vs : forall c c', bare c -> wr c vs = Ok c' -> Forall (fun v => Null v = true) vs.
Proof.
  induction vs as [|v vs IH]; intros c c' Hb H; [constructor|]. cbn [writeRows] in H.
  apply rbind_inv in H. destruct H as (c1 & H1 & H). apply bare_step in H1; [|exact Hb]. destruct H1 as [Hn Hb1].
  constructor; [exact Hn|]. exact (IH c1 c' Hb1 H).
Qed.
Lemma list_nulls t vs c : td_hasNulls t = true -> wr (NewListV2Writer o t) vs = Ok c -> Forall (fun v => Null v = true) vs.
Proof.
  intros Hn H. eapply bare_rows; [|exact H]. unfold bare, NewListV2Writer, newColW. rewrite Hn. cbn. repeat split; discriminate.
Qed.
End ListW.

(** ** writeUints *)
Lemma uintBytes_length n v : length (uintBytes n v) = n.
Proof. induction n; cbn [uintBytes length]; congruence. Qed.
Lemma uintBytes_bytes n v : bytes (uintBytes n v).
Proof. induction n; cbn [uintBytes]; constructor; [|assumption]. unfold is_u8, u8. apply Z.mod_pos_bound. lia. Qed.
Lemma uintBytes_value n v : 0 <= v -> bigEndian (uintBytes n v) = v mod 2 ^ (8 * Z.of_nat n).
Proof.
  intros Hv. induction n as [|n IH]; cbn [uintBytes bigEndian].
  - change (2 ^ (8 * Z.of_nat 0)) with 1. rewrite Z.mod_1_r. reflexivity.
  - unfold zlen. rewrite uintBytes_length, IH. unfold u8.
    rewrite Z.shiftr_div_pow2 by lia. replace (Z.of_nat n * 8) with (8 * Z.of_nat n) by lia.
    set (m := 2 ^ (8 * Z.of_nat n)). assert (Hm : 0 < m) by (apply pow2_pos; lia).
    replace (2 ^ (8 * Z.of_nat (S n))) with (m * 256).
    2:{ unfold m. rewrite Nat2Z.inj_succ, <- Zmult_succ_r_reverse, Z.pow_add_r by lia. reflexivity. }
    rewrite Z.rem_mul_r by lia. ring.
Qed.
Lemma writeUints_groups w vs : 0 <= w -> Forall (fun v => 0 <= v) vs ->
  exists gs, writeUints w vs = concat gs /\
    Forall2 (fun g v => zlen g = (w + 7) / 8 /\ bytes g /\ bigEndian g = v mod 2 ^ (8 * ((w + 7) / 8))) gs vs.
Proof.
  intros Hw. induction vs as [|v vs IH]; intros H; [exists []; split; constructor|].
  inversion H as [|? ? Hv Hvs]; subst. destruct (IH Hvs) as (gs & E & Hgs).
  assert (0 <= (w + 7) / 8) by (apply Z.div_pos; lia).
  exists (uintBytes (Z.to_nat ((w + 7) / 8)) v :: gs). split; [cbn [writeUints concat]; congruence|].
  constructor; [|exact Hgs]. unfold zlen. rewrite uintBytes_length, uintBytes_value, Z2Nat.id by lia.
  split; [reflexivity|]. split; [apply uintBytes_bytes|reflexivity].
Qed.
Lemma writeUints_fit w vs : 0 <= w -> Forall (fun v => 0 <= v < 2 ^ w) vs ->
  exists gs, writeUints w vs = concat gs /\ Forall2 (fun g v => zlen g = (w + 7) / 8 /\ bytes g /\ bigEndian g = v) gs vs.
Proof.
  intros Hw H. destruct (writeUints_groups w vs Hw) as (gs & E & Hgs).
  { eapply Forall_impl; [|exact H]. cbn. intros. lia. }
  exists gs. split; [exact E|]. clear E. induction Hgs as [|g v gs vs (H1 & H2 & H3) _ IH]; [constructor|].
  inversion H as [|? ? Hv Hvs]; subst. constructor; [|apply IH; exact Hvs].
  split; [exact H1|]. split; [exact H2|]. rewrite H3. apply Z.mod_small. split; [lia|].
  eapply Z.lt_le_trans; [apply Hv|]. apply Z.pow_le_mono_r; [lia|]. pose proof (Z.mod_pos_bound (w + 7) 8 ltac:(lia)).
  pose proof (Z.div_mod (w + 7) 8 ltac:(lia)). lia.
Qed.
