(** What a failing Write leaves behind. *)
From Coq Require Import ZifyBool ZifyNat.
From Verif.Model Require Import Go Codec ByteBool IntRle Chunk Stream Schema Rows Time File Column Failure.
From Verif.Spec Require Import FileSpec FailureSpec.
From Verif.Proofs Require Import Base FileP.

(** A row without cells for every row counted. *)
Definition ghost {V} (g : page V) : list (row V) := repeat [] (pg_rows g).
Lemma ghost_length {V} (g : page V) : length (ghost g) = pg_rows g.
Proof. apply repeat_length. Qed.

Lemma zlen_ghost {V} (g : page V) : zlen (ghost g) = Z.of_nat (pg_rows g).
Proof. unfold zlen. rewrite ghost_length. reflexivity. Qed.

Section Writer.
Variable deflate : list (list Z) -> list Z -> res (list Z).
Variables C V ST : Type.
Variable cw_Write : C -> V -> res C.
Variable cw_Left : C -> V -> option C.
Variable cw_Size : C -> Z.
Variable cw_Flush : C -> res C.
Variable cw_Index : C -> res (list Z).
Variable cw_WriteOut : C -> res (list Z * Z * C).
Variable cw_Infos : C -> list strm.
Variable cw_Stats : C -> ST.
Variable cw_Reset : C -> res C.
Variable newColumn : td -> res C.
Variable marshalSF : stripeFooter -> res (list Z).
Variable marshalFooter : footer ST -> res (list Z).
Variable marshalPS : postscript -> res (list Z).
Variable o : opts.
Variable StripeSize : Z.
Notation wValue := (writeValue cw_Write).
Notation wValueL := (writeValueL C V cw_Write cw_Left).
Notation wLoop := (writeLoop deflate cw_Write cw_Size cw_Flush cw_Index cw_WriteOut cw_Infos cw_Reset marshalSF o StripeSize).
Notation wLoopL := (writeLoopL deflate C V cw_Write cw_Left cw_Size cw_Flush cw_Index cw_WriteOut cw_Infos cw_Reset marshalSF o StripeSize).
Notation wr := (Write deflate cw_Write cw_Size cw_Flush cw_Index cw_WriteOut cw_Infos cw_Reset marshalSF o StripeSize).
Notation wrL := (WriteL deflate cw_Write cw_Left cw_Size cw_Flush cw_Index cw_WriteOut cw_Infos cw_Reset marshalSF o StripeSize).
Notation cl := (Close deflate cw_Flush cw_Index cw_WriteOut cw_Infos cw_Stats marshalSF marshalFooter marshalPS o).

(** ** The same results as in Model/File.v *)
Definition plain {A} (e : ending A) : res A :=
  match e with Done a => Ok a | Failed _ => Err | Crashed => Panic end.
Lemma writeValueL_plain i v : forall cs, plain (wValueL i v cs) = wValue i v cs.
Proof.
  induction v as [id vals ch IH] using cvec_ind'. intros cs. cbn [writeValueL writeValue].
  assert (G : forall cs1, plain ((fix go (l : list (cvec V)) (cs : list C) : ending (list C) :=
             match l with
             | [] => Done cs
             | c :: r => match wValueL i c cs with Done cs' => go r cs' | e => e end
             end) ch cs1) =
      (fix go (l : list (cvec V)) (cs : list C) : res (list C) :=
         match l with
         | [] => Ok cs
         | c :: r => let! cs' := wValue i c cs in go r cs'
         end) ch cs1).
  { clear vals cs. induction ch as [|c r IHr]; intros cs1; [reflexivity|]. inversion IH as [|? ? Hc Hr]; subst.
    specialize (IHr Hr). rewrite <- Hc. destruct (wValueL i c cs1) as [cs2|x|]; cbn [plain rbind]; [apply IHr|reflexivity|reflexivity]. }
  destruct vals as [l|]; [|apply G]. destruct (nth_error l i) as [x|]; [|reflexivity].
  destruct (nth_error cs id) as [c|]; [|reflexivity]. destruct (cw_Write c x) as [c'| |]; cbn [rbind plain]; [apply G|reflexivity|reflexivity].
Qed.
Lemma writeLoopL_plain n : forall i count v w, plain (wLoopL n i count v w) = wLoop n i count v w.
Proof.
  induction n as [|n IH]; intros i count v w; cbn [writeLoopL writeLoop]; [reflexivity|].
  rewrite <- writeValueL_plain. destruct (wValueL i v (sw_cols w)) as [cs|x|]; cbn [plain rbind]; [|reflexivity|reflexivity].
  destruct (StripeSize <=? sw_size cw_Size cs); [|apply IH].
  destruct (flushOut _ _ _ _ _ _ _ _) as [w1| |]; cbn [rbind plain]; [|reflexivity|reflexivity].
  destruct (forward cw_Reset w1) as [w2| |]; cbn [rbind plain]; [apply IH|reflexivity|reflexivity].
Qed.
Lemma WriteL_plain w v : plain (wrL w v) = wr w v.
Proof. apply writeLoopL_plain. Qed.

(** ** What is left *)
Hypothesis Hws : writes_streams cw_Flush cw_WriteOut cw_Infos.
(** [K id c]: an invariant of the writer of column [id]. *)
Variable K : nat -> C -> Prop.
Variable refused : nat -> V -> Prop.
Hypothesis Kleft : forall id c x c', K id c -> cw_Write c x = Err -> cw_Left c x = Some c' -> c' = c /\ refused id x.
Hypothesis Kaccept : forall id c x c', K id c -> cw_Write c x = Ok c' -> ~ refused id x.
Hypothesis Kwrite : forall id c x c', K id c -> cw_Write c x = Ok c' -> K id c'.
Hypothesis Kflush : forall id c c', K id c -> cw_Flush c = Ok c' -> K id c'.
Hypothesis Kout : forall id c b n c', K id c -> cw_WriteOut c = Ok (b, n, c') -> K id c'.
Hypothesis Kreset : forall id c c', K id c -> cw_Reset c = Ok c' -> K id c'.
Definition AllK (cs : list C) : Prop := forall id c, nth_error cs id = Some c -> K id c.

Lemma AllK_set cs id c : AllK cs -> K id c -> AllK (set_nth cs id c).
Proof.
  intros Ha Hk j d Hd. destruct (Nat.eq_dec id j) as [->|Hj].
  - destruct (nth_error cs j) as [e|] eqn:E.
    + rewrite (set_nth_same _ _ _ _ E) in Hd. congruence.
    + apply nth_error_None in E. assert (j < length (set_nth cs j c))%nat by (apply nth_error_Some; congruence). rewrite set_nth_length in *. lia.
  - rewrite set_nth_other in Hd by exact Hj. apply Ha. exact Hd.
Qed.
Lemma set_nth_id {A} (l : list A) n x : nth_error l n = Some x -> set_nth l n x = l.
Proof. revert n. induction l as [|y l IH]; intros [|n] H; cbn in *; [discriminate|discriminate|congruence|]. rewrite IH by exact H. reflexivity. Qed.

Notation wRow := (writeRow C V cw_Write).
Lemma AllK_row r : forall cs cs', AllK cs -> wRow cs r = Ok cs' -> AllK cs'.
Proof.
  induction r as [|[id x] r IH]; intros cs cs' Ha H; cbn [writeRow] in H; [assert (cs' = cs) as -> by congruence; exact Ha|].
  destruct (nth_error cs id) as [c|] eqn:Ec; [|discriminate]. apply rbind_inv in H. destruct H as (c' & Hc & H).
  apply (IH _ _ (AllK_set _ _ _ Ha (Kwrite _ _ _ _ (Ha _ _ Ec) Hc)) H).
Qed.
Lemma row_accepted r : forall cs cs', AllK cs -> wRow cs r = Ok cs' -> accepted refused r.
Proof.
  induction r as [|[id x] r IH]; intros cs cs' Ha H; cbn [writeRow] in H; [constructor|].
  destruct (nth_error cs id) as [c|] eqn:Ec; [|discriminate]. apply rbind_inv in H. destruct H as (c' & Hc & H).
  constructor; [exact (Kaccept _ _ _ _ (Ha _ _ Ec) Hc)|].
  apply (IH _ _ (AllK_set _ _ _ Ha (Kwrite _ _ _ _ (Ha _ _ Ec) Hc)) H).
Qed.
Lemma across_app i (a b : list (nat * list V)) (p q : row V) : across i a p -> across i b q -> across i (a ++ b) (p ++ q).
Proof. apply Forall2_app. Qed.
Lemma cells_across i (v : cvec V) : forall p, cells i v = Some p -> across i (vectors v) p.
Proof.
  induction v as [id vals ch IH] using cvec_ind'. intros p H. cbn [cells vectors] in *.
  assert (G : forall r, fold_right (fun c acc => match cells i c, acc with
                                           | Some a, Some b => Some (a ++ b) | _, _ => None end)
                             (Some []) ch = Some r -> across i (flat_map vectors ch) r).
  { clear H vals p. induction ch as [|c t IHr]; intros r H; cbn [fold_right flat_map] in *.
    - assert (r = []) as -> by congruence. constructor.
    - destruct (cells i c) as [a|] eqn:Ea; [|discriminate]. destruct (fold_right _ _ t) as [b|] eqn:Eb; [|discriminate].
      assert (r = a ++ b) as -> by congruence. inversion IH as [|? ? Hc Ht]; subst. apply across_app; auto. }
  destruct vals as [l|].
  - destruct (nth_error l i) as [x|] eqn:Ex; [|discriminate]. destruct (fold_right _ _ ch) as [r|]; [|discriminate].
    assert (p = (id, x) :: r) as -> by congruence. constructor; [split; [reflexivity|exact Ex]|]. apply G. reflexivity.
  - apply G. exact H.
Qed.

Lemma writeValueL_failed i v : forall cs cs', AllK cs -> wValueL i v cs = Failed (Some cs') ->
  exists a id l y rest p, vectors v = a ++ (id, l) :: rest /\ across i a p /\ nth_error l i = Some y /\ refused id y /\
    wRow cs p = Ok cs'.
Proof.
  induction v as [id vals ch IH] using cvec_ind'. intros cs cs' Ha H. cbn [writeValueL vectors] in *.
  assert (G : forall cs1, AllK cs1 -> (fix go (l : list (cvec V)) (cs : list C) : ending (list C) :=
             match l with
             | [] => Done cs
             | c :: r => match wValueL i c cs with Done cs' => go r cs' | e => e end
             end) ch cs1 = Failed (Some cs') ->
     exists a id l y rest p, flat_map vectors ch = a ++ (id, l) :: rest /\ across i a p /\ nth_error l i = Some y /\ refused id y /\
       wRow cs1 p = Ok cs').
  { clear H vals cs Ha. induction ch as [|c t IHr]; intros cs1 Ha H; [discriminate|]. inversion IH as [|? ? Hc Ht]; subst.
    cbn [flat_map]. destruct (wValueL i c cs1) as [cs2|x|] eqn:E; [| |discriminate].
    - assert (Ew : wValue i c cs1 = Ok cs2) by (rewrite <- writeValueL_plain, E; reflexivity).
      destruct (writeValue_cells _ _ _ _ _ _ _ Ew) as (p & Hp & Hr).
      destruct (IHr Ht cs2 (AllK_row _ _ _ Ha Hr) H) as (a & id' & l & y & rest & q & E1 & E2 & E3 & E4 & E5).
      exists (vectors c ++ a), id', l, y, rest, (p ++ q). rewrite E1, <- app_assoc. split; [reflexivity|].
      split; [apply across_app; [apply cells_across; exact Hp|exact E2]|]. split; [exact E3|]. split; [exact E4|].
      rewrite writeRow_app, Hr. exact E5.
    - assert (x = Some cs') as -> by congruence.
      destruct (Hc cs1 cs' Ha E) as (a & id' & l & y & rest & q & E1 & E2 & E3 & E4 & E5).
      exists a, id', l, y, (rest ++ flat_map vectors t), q. rewrite E1, <- app_assoc. auto. }
  destruct vals as [l|]; [|apply (G cs Ha H)].
  destruct (nth_error l i) as [x|] eqn:Ex; [|discriminate]. destruct (nth_error cs id) as [c|] eqn:Ec; [|discriminate].
  destruct (cw_Write c x) as [c'| |] eqn:Ew; [| |discriminate].
  - destruct (G _ (AllK_set _ _ _ Ha (Kwrite _ _ _ _ (Ha _ _ Ec) Ew)) H) as (a & id' & l' & y & rest & q & E1 & E2 & E3 & E4 & E5).
    exists ((id, l) :: a), id', l', y, rest, ((id, x) :: q). cbn [app]. rewrite E1. split; [reflexivity|].
    split; [constructor; [split; [reflexivity|exact Ex]|exact E2]|]. split; [exact E3|]. split; [exact E4|].
    cbn [writeRow]. rewrite Ec, Ew. exact E5.
  - destruct (cw_Left c x) as [c'|] eqn:El; cbn [option_map] in H; [|discriminate].
    destruct (Kleft _ _ _ _ (Ha _ _ Ec) Ew El) as [-> Hr].
    exists [], id, l, x, (flat_map vectors ch), []. split; [reflexivity|]. split; [constructor|]. split; [exact Ex|]. split; [exact Hr|].
    cbn [writeRow]. rewrite (set_nth_id _ _ _ Ec) in H. congruence.
Qed.

(** ** The stripes *)
Definition State (schemas : list td) (cs0 : list C) (q : list (page V) * page V) (w : stripeW C) : Prop :=
  exists ms csf, Past deflate C V cw_Write cw_Flush cw_Index cw_WriteOut cw_Infos cw_Reset marshalSF o (map td_enc schemas) cs0 (map pg_cells (fst q)) ms csf /\
    Mid C V cw_Write csf (pg_cells (snd q)) (sw_cols w) /\ sw_schemas w = schemas /\
    sw_out w = Magic ++ filedata ms /\ sw_infos w = directoryU V 3 (map ghost (fst q)) ms /\
    Offset (sw_info w) = u64 (3 + zlen (filedata ms)) /\ IndexLength (sw_info w) = 0 /\
    DataLength (sw_info w) = 0 /\ FooterLength (sw_info w) = 0 /\
    NumberOfRows (sw_info w) = u64 (Z.of_nat (pg_rows (snd q))) /\ AllK (sw_cols w).

Lemma State_done schemas cs0 ps g w n : State schemas cs0 (ps, g) w ->
  State schemas cs0 (ps, counting n g) (addRows (u64 (Z.of_nat n)) w).
Proof.
  intros (ms & csf & H1 & H2 & H3 & H4 & H5 & H6 & H7 & H8 & H9 & H10 & H11). exists ms, csf.
  cbn [fst snd pg_cells pg_rows counting addRows sw_cols sw_schemas sw_out sw_infos sw_info Offset IndexLength DataLength FooterLength NumberOfRows] in *.
  do 9 (split; [assumption|]). split; [|assumption].
  rewrite H10, u64_add_l, u64_add_r. f_equal. lia.
Qed.
Lemma State_row schemas cs0 ps g w p cs : State schemas cs0 (ps, g) w -> wRow (sw_cols w) p = Ok cs ->
  State schemas cs0 (ps, with_row p g) (setCols cs w).
Proof.
  intros (ms & csf & H1 & H2 & H3 & H4 & H5 & H6 & H7 & H8 & H9 & H10 & H11) Hw. exists ms, csf.
  cbn [fst snd pg_cells pg_rows with_row setCols sw_cols sw_schemas sw_out sw_infos sw_info] in *.
  split; [assumption|]. split; [eapply Mid_row; eassumption|]. do 8 (split; [assumption|]). eapply AllK_row; eassumption.
Qed.
Lemma writeOutAll_K cs : forall b n cs' k, (forall id c, nth_error cs id = Some c -> K (k + id)%nat c) ->
  writeOutAll cw_WriteOut cs = Ok (b, n, cs') -> forall id c, nth_error cs' id = Some c -> K (k + id)%nat c.
Proof.
  induction cs as [|c cs IH]; intros b n cs' k Ha H id d Hd; cbn [writeOutAll] in H.
  - assert (cs' = []) as -> by congruence. destruct id; discriminate.
  - apply rbind_inv in H. destruct H as ([[b1 n1] c1] & H1 & H). apply rbind_inv in H. destruct H as ([[b2 n2] r] & H2 & H).
    assert (cs' = c1 :: r) as -> by congruence. destruct id as [|id]; cbn [nth_error] in Hd.
    + assert (d = c1) as -> by congruence. eapply Kout; [|exact H1]. apply (Ha O). reflexivity.
    + replace (k + S id)%nat with (S k + id)%nat by lia. eapply IH; [|exact H2|exact Hd].
      intros j e He. replace (S k + j)%nat with (k + S j)%nat by lia. apply Ha. exact He.
Qed.
Lemma mapM_K (f : C -> res C) (Hf : forall id c c', K id c -> f c = Ok c' -> K id c') cs cs' : AllK cs -> mapM f cs = Ok cs' -> AllK cs'.
Proof.
  intros Ha H id d Hd. destruct (mapM_spec _ _ _ H) as [Hl Hk].
  destruct (nth_error cs id) as [c|] eqn:Ec.
  - destruct (Hk _ _ Ec) as (y & Hy & Hfy). assert (y = d) as -> by congruence. eapply Hf; [apply Ha; exact Ec|exact Hfy].
  - apply nth_error_None in Ec. assert (id < length cs')%nat by (apply nth_error_Some; congruence). lia.
Qed.
Lemma flushOut_K w w' : AllK (sw_cols w) -> flushOut deflate cw_Flush cw_Index cw_WriteOut cw_Infos marshalSF o w = Ok w' -> AllK (sw_cols w').
Proof.
  intros Ha H. unfold flushOut in H. apply rbind_inv in H. destruct H as (cs & Hfl & H). apply rbind_inv in H. destruct H as (ib & _ & H).
  apply rbind_inv in H. destruct H as ([[db n] cs'] & Hwo & H). apply rbind_inv in H. destruct H as (ft & _ & H).
  apply rbind_inv in H. destruct H as ([cb rest] & _ & H).
  match type of H with Ok ?x = _ => assert (w' = x) as -> by congruence end. cbn [sw_cols].
  intros id c Hc. apply (writeOutAll_K cs _ _ _ O (mapM_K _ Kflush _ _ Ha Hfl) Hwo id c Hc).
Qed.

Lemma State_cut schemas cs0 ps g w w1 w2 : State schemas cs0 (ps, g) w ->
  flushOut deflate cw_Flush cw_Index cw_WriteOut cw_Infos marshalSF o w = Ok w1 -> forward cw_Reset w1 = Ok w2 ->
  State schemas cs0 (ps ++ [g], empty_page) w2.
Proof.
  intros (ms & csf & H1 & H2 & H3 & H4 & H5 & H6 & H7 & H8 & H9 & H10 & H11) Hfl Hfw.
  cbn [fst snd] in *. pose proof (flushOut_K _ _ H11 Hfl) as Hk.
  destruct (flushOut_spec deflate C V ST cw_Write cw_Size cw_Flush cw_Index cw_WriteOut cw_Infos cw_Stats cw_Reset marshalSF o Hws _ _ _ _ H2 Hfl) as (m & Him & Ho & Hin & Hs & Hinfo).
  unfold forward in Hfw. apply rbind_inv in Hfw. destruct Hfw as (cs2 & Hrs & Hfw).
  match type of Hfw with Ok ?x = _ => assert (w2 = x) as -> by congruence end. clear Hfw.
  rewrite H3 in Him. exists (ms ++ [m]), cs2. cbn [fst snd sw_cols sw_schemas sw_out sw_infos sw_info newInfo Offset IndexLength DataLength FooterLength NumberOfRows empty_page pg_cells pg_rows].
  pose proof (Past_length _ _ _ _ _ _ _ _ _ _ _ _ _ _ _ _ H1) as Hlen. rewrite map_length in Hlen.
  split; [rewrite map_app; eapply Past_snoc; eassumption|]. split; [apply Mid_nil|]. split; [congruence|].
  unfold filedata. rewrite map_app, concat_app. cbn [map concat]. rewrite app_nil_r.
  split. { rewrite Ho, H4. unfold filedata. rewrite <- app_assoc. reflexivity. }
  split. { rewrite map_app. cbn [map]. rewrite directoryU_snoc by (rewrite map_length; exact Hlen). rewrite Hin, H5. f_equal.
           cbn [directoryU]. rewrite Hinfo, H6, H7, H8. rewrite !Z.add_0_l, H10.
           rewrite zlen_ghost. reflexivity. }
  rewrite Hinfo. cbn [Offset IndexLength DataLength FooterLength NumberOfRows].
  split. { rewrite H6, H7, H8, !Z.add_0_l. unfold im_bytes, filedata. rewrite !zlen_app. apply u64_sum4. }
  do 4 (split; [reflexivity|]). exact (mapM_K _ Kreset _ _ Hk Hrs).
Qed.

(** ** One Write *)
Lemma writeLoopL_spec schemas cs0 v n : forall i c ps g w, (i + n = vlen v)%nat -> State schemas cs0 (ps, g) w ->
  (forall w', wLoopL n i (u64 (Z.of_nat c)) v w = Done w' ->
     exists q, Attempt refused v i c (ps, g) true q /\ State schemas cs0 q w') /\
  (forall w', wLoopL n i (u64 (Z.of_nat c)) v w = Failed (Some w') ->
     exists q, Attempt refused v i c (ps, g) false q /\ State schemas cs0 q w').
Proof.
  induction n as [|n IH]; intros i c ps g w Hi Hst; cbn [writeLoopL].
  { split; [|intros w' H; discriminate]. intros w' H. match type of H with Done ?x = _ => assert (w' = x) as -> by congruence end.
    exists (ps, counting c g). split; [replace i with (vlen v) by lia; constructor|]. apply State_done. exact Hst. }
  assert (Hlt : (i < vlen v)%nat) by lia. assert (Hi' : (S i + n = vlen v)%nat) by lia.
  destruct (wValueL i v (sw_cols w)) as [cs|x|] eqn:E; [| |split; intros; discriminate].
  - assert (Ew : wValue i v (sw_cols w) = Ok cs) by (rewrite <- writeValueL_plain, E; reflexivity).
    destruct (writeValue_cells _ _ _ _ _ _ _ Ew) as (p & Hp & Hr).
    pose proof (State_row _ _ _ _ _ _ _ Hst Hr) as Hs1.
    assert (Hk : AllK (sw_cols w)) by (destruct Hst as (ms & csf & _ & _ & _ & _ & _ & _ & _ & _ & _ & _ & Hk); exact Hk).
    pose proof (row_accepted _ _ _ Hk Hr) as Hacc.
    assert (Ec : u64 (u64 (Z.of_nat c) + 1) = u64 (Z.of_nat (S c))) by (rewrite u64_add_l; f_equal; lia). rewrite Ec.
    destruct (StripeSize <=? sw_size cw_Size cs).
    + destruct (flushOut _ _ _ _ _ _ _ _) as [w1| |] eqn:Ef; cbn [rbind]; [|split; intros; discriminate|split; intros; discriminate].
      destruct (forward cw_Reset w1) as [w2| |] eqn:Efw; [|split; intros; discriminate|split; intros; discriminate].
      pose proof (State_cut _ _ _ _ _ _ _ (State_done _ _ _ _ _ (S c) Hs1) Ef Efw) as Hs2.
      destruct (IH (S i) O _ _ _ Hi' Hs2) as [I1 I2]. change (u64 (Z.of_nat 0)) with 0 in *.
      split; intros w' H; [destruct (I1 _ H) as (q & A & B)|destruct (I2 _ H) as (q & A & B)]; exists q; (split; [eapply AttemptCut; eassumption|exact B]).
    + destruct (IH (S i) (S c) _ _ _ Hi' Hs1) as [I1 I2].
      split; intros w' H; [destruct (I1 _ H) as (q & A & B)|destruct (I2 _ H) as (q & A & B)]; exists q; (split; [eapply AttemptRow; eassumption|exact B]).
  - split; [intros w' H; discriminate|]. intros w' H. destruct x as [cs|]; cbn [option_map] in H; [|discriminate].
    assert (w' = setCols cs w) as -> by congruence.
    assert (Hk : AllK (sw_cols w)) by (destruct Hst as (ms & csf & _ & _ & _ & _ & _ & _ & _ & _ & _ & _ & Hk); exact Hk).
    destruct (writeValueL_failed _ _ _ _ Hk E) as (a & id & l & y & rest & p & E1 & E2 & E3 & E4 & E5).
    pose proof (row_accepted _ _ _ Hk E5) as Hacc.
    exists (ps, with_row p g). split; [eapply AttemptFailed; eassumption|]. eapply State_row; eassumption.
Qed.
Lemma Tries_spec schemas cs0 w l w' : Tries wrL w l w' -> forall q, State schemas cs0 q w ->
  exists q', Attempts refused l q q' /\ State schemas cs0 q' w'.
Proof.
  induction 1 as [w|w v w1 l w2 H1 H2 IH|w v w1 l w2 H1 H2 IH]; intros [ps g] Hs.
  - exists (ps, g). split; [constructor|exact Hs].
  - destruct (writeLoopL_spec schemas cs0 v (vlen v) 0 0 ps g w eq_refl Hs) as [I1 _].
    destruct (I1 _ H1) as (q1 & A1 & S1). destruct (IH _ S1) as (q2 & A2 & S2). exists q2. split; [econstructor; eassumption|exact S2].
  - destruct (writeLoopL_spec schemas cs0 v (vlen v) 0 0 ps g w eq_refl Hs) as [_ I1].
    destruct (I1 _ H1) as (q1 & A1 & S1). destruct (IH _ S1) as (q2 & A2 & S2). exists q2. split; [econstructor; eassumption|exact S2].
Qed.
Lemma State_new schema w : newFileWriter newColumn schema = Ok w -> AllK (sw_cols w) ->
  State (sw_schemas w) (sw_cols w) ([], empty_page) w /\ Flat schema = Ok (sw_schemas w) /\
  mapM newColumn (sw_schemas w) = Ok (sw_cols w).
Proof.
  intros H Hk. unfold newFileWriter in H. apply rbind_inv in H. destruct H as (l & Hl & H).
  apply rbind_inv in H. destruct H as (cs & Hcs & H).
  match type of H with Ok ?x = _ => assert (w = x) as -> by congruence end. cbn [sw_schemas sw_cols] in *.
  split; [|auto]. exists [], cs. split; [constructor|]. split; [apply Mid_nil|]. do 8 (split; [reflexivity|]). exact Hk.
Qed.

(** ** The file *)
Lemma directoryU_ghost ps rss : Forall2 (fun (g : page V) rows => length rows = pg_rows g) ps rss -> forall off ms,
  directoryU V off (map ghost ps) ms = directoryU V off rss ms.
Proof.
  induction 1 as [|g q ps rss Hg _ IH]; intros off [|m ms]; try reflexivity. cbn [map directoryU]. rewrite IH.
  rewrite zlen_ghost, <- Hg. reflexivity.
Qed.
Lemma attempts_file schema w0 l w file : newFileWriter newColumn schema = Ok w0 -> AllK (sw_cols w0) ->
  Tries wrL w0 l w -> cl w = Ok file -> zlen file < W64 ->
  exists ps g, Attempts refused l ([], empty_page) (ps, g) /\
    forall rss, Forall2 (fun (g : page V) rows => length rows = pg_rows g) (ps ++ [g]) rss -> zlen (concat rss) < W64 ->
    exists ms csf raw fb psb,
      Images deflate C V cw_Write cw_Flush cw_Index cw_WriteOut cw_Infos cw_Reset marshalSF o
        (map td_enc (sw_schemas w0)) (sw_cols w0) (map pg_cells (ps ++ [g])) ms csf /\
      length rss = length ms /\
      file = Magic ++ filedata ms ++ fb ++ psb ++ [u8 (zlen psb)] /\
      marshalFooter (closedFooter C V ST cw_Stats (sw_schemas w0) rss ms csf) = Ok raw /\
      match CompressionKind o with
      | NONE => fb = raw
      | k => exists rest, CompressingAllInChunks deflate k (ChunkSize o) raw = Ok (fb, rest)
      end /\
      marshalPS {| p_footerLength := zlen fb; p_compression := CompressionKind o;
                   p_blockSize := u64 (ChunkSize o); p_metadataLength := 0 |} = Ok psb.
Proof.
  intros Hn Hk Ht Hc Hf. destruct (State_new _ _ Hn Hk) as (Hs & _ & _).
  destruct (Tries_spec _ _ _ _ _ Ht _ Hs) as ([ps g] & Ha & (ms & csf & H1 & H2 & H3 & H4 & H5 & H6 & H7 & H8 & H9 & H10 & _)).
  exists ps, g. split; [exact Ha|]. intros rss Hr Hb. cbn [fst snd] in *.
  apply Forall2_app_inv_l in Hr. destruct Hr as (rss1 & l2 & Hr1 & Hr2 & ->).
  inversion Hr2 as [|? rows ? ? Hlast Hnil]; subst. inversion Hnil; subst.
  pose proof (Past_length _ _ _ _ _ _ _ _ _ _ _ _ _ _ _ _ H1) as Hlen. rewrite map_length in Hlen.
  assert (Hl1 : length rss1 = length ms) by (rewrite <- Hlen; clear - Hr1; induction Hr1; cbn; congruence).
  rewrite (directoryU_ghost _ _ Hr1) in H5. rewrite <- Hlast in H10.
  destruct (close_any deflate C V ST cw_Write cw_Size cw_Flush cw_Index cw_WriteOut cw_Infos cw_Stats cw_Reset marshalSF marshalFooter marshalPS o StripeSize Hws
              w file (sw_schemas w) rss1 ms csf (pg_cells g) rows Hl1 H2 eq_refl H4 H5 H6 H7 H8 H9 H10 Hb Hc Hf)
    as (m & cs' & raw & fb & psb & B1 & B2 & B3 & B4 & B5).
  exists (ms ++ [m]), cs', raw, fb, psb. rewrite H3 in *.
  split. { rewrite map_app. eapply Past_Images; eassumption. }
  split; [rewrite !app_length; cbn; lia|]. auto.
Qed.
End Writer.
