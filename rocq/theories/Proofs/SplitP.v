(** A writer sees the rows only, not the batches. *)
From Coq Require Import ZifyBool ZifyNat.
From Verif.Model Require Import Go Chunk Stream Schema Rows File.
From Verif.Spec Require Import FileSpec SplitSpec.
From Verif.Proofs Require Import Base FileP.

Section Split.
Variable deflate : list (list Z) -> list Z -> res (list Z).
Variables C V ST : Type.
Variable I : iface C V ST.
Variable P : proto ST.
Variable o : opts.
Variable StripeSize : Z.
Notation wRow := (writeRow C V (i_Write I)).
Notation flush := (flushOut deflate (i_Flush I) (i_Index I) (i_WriteOut I) (i_Infos I) (pb_SF P) o).
Notation fwd := (forward (i_Reset I)).
Notation size := (sw_size (i_Size I)).
Notation wLoop := (writeLoop deflate (i_Write I) (i_Size I) (i_Flush I) (i_Index I) (i_WriteOut I) (i_Infos I) (i_Reset I) (pb_SF P) o StripeSize).

Fixpoint loop (rows : list (row V)) (count : Z) (w : stripeW C) : res (stripeW C) :=
  match rows with
  | [] => Ok (addRows count w)
  | r :: t =>
      let! cs := wRow (sw_cols w) r in
      let w := setCols cs w in
      let count := u64 (count + 1) in
      if StripeSize <=? size cs then let! w1 := flush (addRows count w) in let! w2 := fwd w1 in loop t 0 w2
      else loop t count w
  end.
Lemma writeLoop_loop n : forall i count v w rs, Forall2 (fun i r => cells i v = Some r) (seq i n) rs -> wLoop n i count v w = loop rs count w.
Proof.
  induction n as [|n IH]; intros i count v w rs H; cbn [seq] in H; inversion H as [|? r ? rs' Hr Hrs]; subst; cbn [writeLoop loop]; [reflexivity|].
  rewrite (writeValue_total C V (i_Write I) i v _ _ Hr). destruct (wRow (sw_cols w) r) as [cs| |]; cbn [rbind]; try reflexivity.
  destruct (StripeSize <=? size cs); [|apply IH; exact Hrs]. destruct (flush _) as [w1| |]; cbn [rbind]; try reflexivity. destruct (fwd w1) as [w2| |]; cbn [rbind]; try reflexivity.
  apply IH. exact Hrs.
Qed.

(** Rows counted early or late. *)
Lemma addRows_addRows (w : stripeW C) a b : addRows b (addRows a w) = addRows (u64 (a + b)) w.
Proof.
  unfold addRows. cbn [sw_info Offset IndexLength DataLength FooterLength NumberOfRows sw_schemas sw_cols sw_infos sw_out].
  replace (u64 (u64 (NumberOfRows (sw_info w) + a) + b)) with (u64 (NumberOfRows (sw_info w) + u64 (a + b))); [reflexivity|].
  unfold u64. rewrite Z.add_mod_idemp_l, Z.add_mod_idemp_r, Z.add_assoc by lia. reflexivity.
Qed.
Lemma addRows_setCols (w : stripeW C) cs a : addRows a (setCols cs w) = setCols cs (addRows a w).
Proof. reflexivity. Qed.
Lemma addRows_u64 (w : stripeW C) a : addRows (u64 a) w = addRows a w.
Proof. unfold addRows. replace (u64 (NumberOfRows (sw_info w) + u64 a)) with (u64 (NumberOfRows (sw_info w) + a)); [reflexivity|]. unfold u64. rewrite Z.add_mod_idemp_r by lia. reflexivity. Qed.
Lemma loop_early rows : forall a b w, loop rows b (addRows a w) = loop rows (u64 (a + b)) w.
Proof.
  induction rows as [|r t IH]; intros a b w; cbn [loop]; [rewrite addRows_addRows; reflexivity|].
  cbn [sw_cols addRows]. destruct (wRow (sw_cols w) r) as [cs| |]; cbn [rbind]; try reflexivity.
  assert (Eu : u64 (a + u64 (b + 1)) = u64 (u64 (a + b) + 1)) by (unfold u64; rewrite Z.add_mod_idemp_l, Z.add_mod_idemp_r by lia; f_equal; lia).
  change (setCols cs {| sw_schemas := sw_schemas w; sw_cols := sw_cols w; sw_info := sw_info (addRows a w); sw_infos := sw_infos w; sw_out := sw_out w |}) with (setCols cs (addRows a w)).
  change (setCols cs (addRows a w)) with (addRows a (setCols cs w)). destruct (_ <=? _); [|rewrite IH, Eu; reflexivity].
  rewrite addRows_addRows, Eu. reflexivity.
Qed.
Lemma loop_app a : forall b count w, loop (a ++ b) count w = (let! w' := loop a count w in loop b 0 w').
Proof.
  induction a as [|r t IH]; intros b count w; cbn [app loop rbind].
  - rewrite loop_early, Z.add_0_r. destruct b as [|r b]; cbn [loop]; [rewrite addRows_u64; reflexivity|].
    destruct (wRow (sw_cols w) r) as [cs| |]; cbn [rbind]; try reflexivity. replace (u64 (u64 count + 1)) with (u64 (count + 1)); [reflexivity|].
    unfold u64. rewrite Z.add_mod_idemp_l by lia. reflexivity.
  - destruct (wRow (sw_cols w) r) as [cs| |]; cbn [rbind]; try reflexivity. destruct (_ <=? _); [|apply IH].
    destruct (flush _) as [w1| |]; cbn [rbind]; try reflexivity. destruct (fwd w1) as [w2| |]; cbn [rbind]; try reflexivity. apply IH.
Qed.

Definition tidy (w : stripeW C) : Prop := u64 (NumberOfRows (sw_info w)) = NumberOfRows (sw_info w).
Lemma tidy_0 w : tidy w -> addRows 0 w = w.
Proof. intros H. unfold addRows. rewrite Z.add_0_r. unfold tidy in H. rewrite H. destruct w as [a b [? ? ? ? ?] d e]. reflexivity. Qed.
Lemma tidy_loop rows : forall count w w', loop rows count w = Ok w' -> tidy w'.
Proof.
  induction rows as [|r t IH]; intros count w w' H; cbn [loop] in H.
  - assert (w' = addRows count w) as -> by congruence. unfold tidy, addRows. cbn [sw_info NumberOfRows]. apply u64_u64.
  - apply rbind_inv in H. destruct H as (cs & _ & H). cbv zeta in H. destruct (_ <=? _); [|eapply IH; exact H].
    apply rbind_inv in H. destruct H as (w1 & _ & H). apply rbind_inv in H. destruct H as (w2 & _ & H). eapply IH; exact H.
Qed.
Lemma batches_loop vs rows : Rows vs rows -> forall w, tidy w -> writeBatches (write1 deflate I P o StripeSize) w vs = loop rows 0 w.
Proof.
  intros H. induction H as [|v vs rs rows Hv Hvs IH]; intros w Hw; cbn [writeBatches].
  - cbn [loop]. rewrite tidy_0 by exact Hw. reflexivity.
  - rewrite loop_app. unfold write1 at 1, Write. rewrite (writeLoop_loop _ _ _ _ _ _ Hv). destruct (loop rs 0 w) as [w'| |] eqn:E; cbn [rbind]; try reflexivity.
    apply IH. eapply tidy_loop. exact E.
Qed.
Lemma new_tidy schema w : newFileWriter (i_New I) schema = Ok w -> tidy w.
Proof.
  intros H. unfold newFileWriter in H. apply rbind_inv in H. destruct H as (l & _ & H). apply rbind_inv in H. destruct H as (cs & _ & H).
  match type of H with Ok ?z = _ => assert (w = z) as -> by congruence end. reflexivity.
Qed.
Lemma outcome_rows schema vs rows : Rows vs rows ->
  outcome deflate I P o StripeSize schema vs = (let! w0 := newFileWriter (i_New I) schema in let! w := loop rows 0 w0 in closeFile deflate I P o w).
Proof.
  intros H. unfold outcome. destruct (newFileWriter (i_New I) schema) as [w0| |] eqn:E; cbn [rbind]; try reflexivity. rewrite (batches_loop _ _ H) by (eapply new_tidy; exact E). reflexivity.
Qed.

(** Columns in another order. *)
Lemma nth_ext_some {A} (l : list A) : forall m, length l = length m -> (forall k x, nth_error l k = Some x -> nth_error m k = Some x) -> l = m.
Proof.
  induction l as [|x l IH]; intros [|y m] Hl H; try discriminate; [reflexivity|]. pose proof (H 0%nat x eq_refl) as E. cbn in E. injection E as <-. f_equal.
  apply IH; [cbn [length] in Hl; lia|]. intros k z Hz. apply (H (S k) z Hz).
Qed.
Lemma column_cons k id (x : V) r : column_of k [(id, x) :: r] = (if Nat.eqb id k then [x] else []) ++ column_of k [r].
Proof. unfold column_of. cbn [concat app filter fst]. destruct (Nat.eqb id k); reflexivity. Qed.
Lemma row_back r : forall cs cs', Forall (fun x => (fst x < length cs)%nat) r -> length cs' = length cs ->
  (forall k c, nth_error cs k = Some c -> exists c', nth_error cs' k = Some c' /\ writeVals (i_Write I) c (column_of k [r]) = Ok c') -> wRow cs r = Ok cs'.
Proof.
  induction r as [|[id x] r IH]; intros cs cs' Hf Hl H; cbn [writeRow].
  - f_equal. apply nth_ext_some; [congruence|]. intros k c Hc. destruct (H k c Hc) as (c' & Hc' & E). cbn in E. congruence.
  - inversion Hf as [|? ? Hid Hr]; subst. cbn [fst] in Hid. destruct (nth_error cs id) as [c|] eqn:Ec; [|apply nth_error_None in Ec; lia].
    destruct (H id c Ec) as (c' & Hc' & E). rewrite column_cons, Nat.eqb_refl in E. cbn [app writeVals] in E. apply rbind_inv in E. destruct E as (c1 & E1 & E).
    rewrite E1. cbn [rbind]. apply IH; [rewrite set_nth_length; exact Hr|rewrite set_nth_length; exact Hl|]. intros k d Hd. destruct (Nat.eq_dec id k) as [<-|Hk].
    + rewrite (set_nth_same _ _ _ _ Ec) in Hd. injection Hd as <-. eauto.
    + rewrite set_nth_other in Hd by exact Hk. destruct (H k d Hd) as (d' & Hd' & Ed). rewrite column_cons in Ed. apply Nat.eqb_neq in Hk. rewrite Hk in Ed. eauto.
Qed.
Lemma row_same r s cs cs' : same_row r s -> wRow cs r = Ok cs' -> wRow cs s = Ok cs'.
Proof.
  intros Hs H. destruct (Mid_row C V (i_Write I) cs [] cs r cs' (Mid_nil _ _ _ cs) H) as (Hf & Hl & Hk). cbn [app] in *. apply row_back; [|exact Hl|].
  - apply Forall_forall. intros [id x] Hin. assert (Hx : In x (column_of id [s])).
    { unfold column_of. cbn [concat]. rewrite app_nil_r. apply in_map_iff. exists (id, x). split; [reflexivity|]. apply filter_In. split; [exact Hin|apply Nat.eqb_refl]. }
    rewrite <- (Hs id) in Hx. unfold column_of in Hx. apply in_map_iff in Hx. destruct Hx as ([id' y] & _ & Hx). apply filter_In in Hx. destruct Hx as [Hx E].
    apply Nat.eqb_eq in E. cbn [fst] in *. subst id'. rewrite Forall_forall in Hf. exact (Hf _ Hx).
  - intros k c Hc. destruct (Hk k c Hc) as (c' & Hc' & E). exists c'. split; [exact Hc'|]. pose proof (Hs k) as Ek. unfold row in *. rewrite <- Ek. exact E.
Qed.
Lemma loop_same rows rows' : Forall2 same_row rows rows' -> forall count w w', loop rows count w = Ok w' -> loop rows' count w = Ok w'.
Proof.
  intros H. induction H as [|r s rows rows' Hr Hrs IH]; intros count w w' E; cbn [loop] in *; [exact E|].
  apply rbind_inv in E. destruct E as (cs & E1 & E). rewrite (row_same _ _ _ _ Hr E1). cbn [rbind]. cbv zeta in *. destruct (_ <=? _); [|apply IH; exact E].
  apply rbind_inv in E. destruct E as (w1 & E2 & E). rewrite E2. cbn [rbind]. apply rbind_inv in E. destruct E as (w2 & E3 & E). rewrite E3. cbn [rbind]. apply IH. exact E.
Qed.
Lemma outcome_same schema vs vs' rows rows' file : Rows vs rows -> Rows vs' rows' -> Forall2 same_row rows rows' ->
  outcome deflate I P o StripeSize schema vs = Ok file -> outcome deflate I P o StripeSize schema vs' = Ok file.
Proof.
  intros H H' Hs E. rewrite (outcome_rows _ _ _ H) in E. rewrite (outcome_rows _ _ _ H'). apply rbind_inv in E. destruct E as (w0 & E1 & E). rewrite E1. cbn [rbind].
  apply rbind_inv in E. destruct E as (w & E2 & E). rewrite (loop_same _ _ Hs _ _ _ E2). cbn [rbind]. exact E.
Qed.
End Split.

(** ** The values of a batch *)
Section Values.
Context {V : Type}.
Fixpoint at_row (i : nat) (l : list (nat * list V)) : option (row V) :=
  match l with
  | [] => Some []
  | (c, vals) :: t => match nth_error vals i, at_row i t with Some x, Some r => Some ((c, x) :: r) | _, _ => None end
  end.
Lemma at_row_app i l : forall m, at_row i (l ++ m) = match at_row i l, at_row i m with Some a, Some b => Some (a ++ b) | _, _ => None end.
Proof.
  induction l as [|[c vals] l IH]; intros m; cbn [at_row app]; [destruct (at_row i m); reflexivity|]. rewrite IH. destruct (nth_error vals i), (at_row i l), (at_row i m); reflexivity.
Qed.
Lemma cells_vectors i (v : cvec V) : cells i v = at_row i (vectors v).
Proof.
  induction v as [id vals ch IH] using cvec_ind'. cbn [cells vectors].
  assert (Hch : fold_right (fun c acc => match cells i c, acc with Some a, Some b => Some (a ++ b) | _, _ => None end) (Some []) ch = at_row i (flat_map vectors ch)).
  { clear vals. induction IH as [|c ch Hc Hch IHl]; [reflexivity|]. cbn [fold_right flat_map]. rewrite at_row_app, IHl, Hc. reflexivity. }
  rewrite Hch. destruct vals; cbn [app at_row]; reflexivity.
Qed.
Lemma at_row_column i l : NoDup (map fst l) -> forall r c vals, at_row i l = Some r -> In (c, vals) l -> exists x, nth_error vals i = Some x /\ column_of c [r] = [x].
Proof.
  intros Hnd. induction l as [|[d ws] l IH]; intros r c vals H Hin; [contradiction|]. cbn [at_row] in H. inversion Hnd as [|? ? Hd Hnd']; subst. cbn [fst] in *.
  destruct (nth_error ws i) as [y|] eqn:Ey; [|discriminate]. destruct (at_row i l) as [r'|] eqn:Er; [|discriminate]. assert (r = (d, y) :: r') as -> by congruence. rewrite column_cons.
  destruct Hin as [E|Hin].
  - injection E as -> ->. exists y. split; [exact Ey|]. rewrite Nat.eqb_refl. cbn [app]. f_equal.
    assert (Hno : forall r, at_row i l = Some r -> ~ In c (map fst l) -> column_of c [r] = []).
    { clear. induction l as [|[d ws] l IH]; intros r H Hn; cbn [at_row] in H; [assert (r = []) as -> by congruence; reflexivity|].
      destruct (nth_error ws i); [|discriminate]. destruct (at_row i l) as [r'|]; [|discriminate]. assert (r = (d, v) :: r') as -> by congruence. rewrite column_cons.
      cbn [map fst] in Hn. destruct (Nat.eqb_spec d c) as [->|_]; [exfalso; apply Hn; left; reflexivity|]. cbn [app]. apply IH; [reflexivity|]. intros X. apply Hn. right. exact X. }
    apply Hno; assumption.
  - destruct (Nat.eqb_spec d c) as [->|_]; [exfalso; apply Hd; apply (in_map fst) in Hin; exact Hin|]. cbn [app]. apply IH; auto.
Qed.
Lemma firstn_S_nth {A} (l : list A) : forall n x, nth_error l n = Some x -> firstn (S n) l = firstn n l ++ [x].
Proof. induction l as [|y l IH]; intros [|n] x H; cbn in H; try discriminate; [injection H as ->; reflexivity|]. cbn [firstn app]. f_equal. rewrite <- (IH _ _ H). reflexivity. Qed.
Lemma rows_column (v : cvec V) rs c vals : one_vector_each v -> In (c, vals) (vectors v) -> forall n, Forall2 (fun i r => cells i v = Some r) (seq 0 n) rs ->
  column_of c rs = firstn n vals /\ (n <= length vals)%nat.
Proof.
  intros Hnd Hin n. revert rs. induction n as [|n IH]; intros rs H; [inversion H; subst; split; [reflexivity|lia]|].
  rewrite seq_S in H. apply Forall2_app_inv_l in H. destruct H as (rs1 & rs2 & H1 & H2 & ->). inversion H2 as [|? r ? ? Hr Hn]; subst. inversion Hn; subst.
  destruct (IH _ H1) as [E L]. rewrite cells_vectors in Hr. cbn [Nat.add] in Hr. destruct (at_row_column n _ Hnd _ _ _ Hr Hin) as (x & Ex & Ec).
  rewrite (column_of_app V). rewrite E, Ec, (firstn_S_nth _ _ _ Ex). split; [reflexivity|]. apply Nat.le_succ_l. apply nth_error_Some. congruence.
Qed.
Lemma vlen_rect (v : cvec V) n : Forall (fun x => length (snd x) = n) (vectors v) -> vlen v = n \/ vlen v = O.
Proof.
  induction v as [id vals ch IH] using cvec_ind'. cbn [vectors vlen]. intros H. apply Forall_app in H. destruct H as [H1 H2].
  assert (Hch : match ch with c :: _ => vlen c | [] => O end = n \/ match ch with c :: _ => vlen c | [] => O end = O).
  { destruct IH as [|c ch Hc _]; [right; reflexivity|]. apply Hc. cbn [flat_map] in H2. apply Forall_app in H2. apply H2. }
  destruct vals as [[|x l]|]; try exact Hch. left. inversion H1; subst. reflexivity.
Qed.
End Values.
Lemma rows_by_batch {V} (vs : list (cvec V)) rows : Rows vs rows <-> exists rss, rows = concat rss /\ Forall2 (fun v rs => Rows [v] rs) vs rss.
Proof.
  split.
  - induction 1 as [|v vs rs rows Hv _ (rss & -> & IH)]; [exists []; split; [reflexivity|constructor]|]. exists (rs :: rss). split; [reflexivity|]. constructor; [|exact IH]. rewrite <- (app_nil_r rs). constructor; [exact Hv|constructor].
  - intros (rss & -> & H). induction H as [|v rs vs rss Hv _ IH]; [constructor|]. cbn [concat]. inversion Hv as [|? ? rs' rows' Hv' Hn]; subst. inversion Hn; subst. rewrite app_nil_r. constructor; assumption.
Qed.
