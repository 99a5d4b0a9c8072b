(** How much a file writer holds, and how large stripes are. *)
From Coq Require Import ZifyBool ZifyNat.
From Verif.Model Require Import Go Codec ByteBool IntRle Chunk Stream Schema Rows File Column Wire.
From Verif.Spec Require Import SchemaSpec FileSpec AssemblySpec StripeSizeSpec.
From Verif.Proofs Require Import Base SchemaP ChunkP SizeP FileP.

Lemma total_app a b : total (a ++ b) = total a + total b.
Proof. unfold total. induction a as [|x a IH]; cbn [app fold_right]; [lia|]. rewrite IH. lia. Qed.
Lemma total_nonneg l : Forall (fun x => 0 <= x) l -> 0 <= total l.
Proof. unfold total. induction 1; cbn [fold_right]; lia. Qed.

(** ** What the writer reports never reaches the stripe size between two rows *)
Section Level.
Variable deflate : list (list Z) -> list Z -> res (list Z).
Variables C V ST : Type.
Variable I : iface C V ST.
Variable P : proto ST.
Variable o : opts.
Variable StripeSize : Z.
Hypothesis Hpos : 0 < StripeSize.
Hypothesis Hnew : forall t c, i_New I t = Ok c -> i_Size I c = 0.
Hypothesis Hreset : forall c c', i_Reset I c = Ok c' -> i_Size I c' = 0.

Lemma mapM_zero {A} (f : A -> res C) l l' : (forall x y, f x = Ok y -> i_Size I y = 0) -> mapM f l = Ok l' ->
  sw_size (i_Size I) l' = 0.
Proof.
  intros Hf. revert l'. induction l as [|x r IH]; intros l' H; cbn [mapM] in H.
  - assert (l' = []) as -> by congruence. reflexivity.
  - apply rbind_inv in H. destruct H as (y & Hy & H). apply rbind_inv in H. destruct H as (ys & Hys & H).
    assert (l' = y :: ys) as -> by congruence. unfold sw_size in *. cbn [fold_right]. rewrite (Hf _ _ Hy), (IH _ Hys). reflexivity.
Qed.
Lemma loop_level n : forall i count v w w',
  writeLoop deflate (i_Write I) (i_Size I) (i_Flush I) (i_Index I) (i_WriteOut I) (i_Infos I) (i_Reset I) (pb_SF P) o StripeSize n i count v w = Ok w' ->
  sw_size (i_Size I) (sw_cols w) < StripeSize -> sw_size (i_Size I) (sw_cols w') < StripeSize.
Proof.
  induction n as [|n IH]; intros i count v w w' H Hl; cbn [writeLoop] in H.
  - match type of H with Ok ?x = _ => assert (w' = x) as -> by congruence end. exact Hl.
  - apply rbind_inv in H. destruct H as (cs & Hv & H).
    destruct (Z.leb_spec StripeSize (sw_size (i_Size I) cs)) as [Hf|Hf].
    + apply rbind_inv in H. destruct H as (w1 & _ & H). apply rbind_inv in H. destruct H as (w2 & Hfw & H).
      apply (IH _ _ _ _ _ H). unfold forward in Hfw. apply rbind_inv in Hfw. destruct Hfw as (cs2 & Hrs & Hfw).
      match type of Hfw with Ok ?x = _ => assert (w2 = x) as -> by congruence end. cbn [sw_cols].
      rewrite (mapM_zero _ _ _ Hreset Hrs). exact Hpos.
    + apply (IH _ _ _ _ _ H). exact Hf.
Qed.
Lemma batches_level vs : forall w w', writeBatches (write1 deflate I P o StripeSize) w vs = Ok w' ->
  sw_size (i_Size I) (sw_cols w) < StripeSize -> sw_size (i_Size I) (sw_cols w') < StripeSize.
Proof.
  induction vs as [|v t IH]; intros w w' H Hl; cbn [writeBatches] in H; [assert (w' = w) as -> by congruence; exact Hl|].
  apply rbind_inv in H. destruct H as (w1 & H1 & H). apply (IH _ _ H). eapply loop_level; [exact H1|exact Hl].
Qed.
Lemma file_level schema w0 vs w : newFileWriter (i_New I) schema = Ok w0 ->
  writeBatches (write1 deflate I P o StripeSize) w0 vs = Ok w -> sw_size (i_Size I) (sw_cols w) < StripeSize.
Proof.
  intros Hn Hw. apply (batches_level _ _ _ Hw). unfold newFileWriter in Hn. apply rbind_inv in Hn. destruct Hn as (l & _ & Hn).
  apply rbind_inv in Hn. destruct Hn as (cs & Hcs & Hn).
  match type of Hn with Ok ?x = _ => assert (w0 = x) as -> by congruence end. cbn [sw_cols].
  rewrite (mapM_zero _ _ _ Hnew Hcs). exact Hpos.
Qed.

(** A property of columns that every method keeps. *)
Variable Q : C -> Prop.
Hypothesis Qnew : forall t c, i_New I t = Ok c -> Q c.
Hypothesis Qwrite : forall c v c', i_Write I c v = Ok c' -> Q c -> Q c'.
Hypothesis Qflush : forall c c', i_Flush I c = Ok c' -> Q c -> Q c'.
Hypothesis Qout : forall c b n c', i_WriteOut I c = Ok (b, n, c') -> Q c -> Q c'.
Hypothesis Qreset : forall c c', i_Reset I c = Ok c' -> Q c -> Q c'.
Lemma mapM_keeps (f : C -> res C) l l' : (forall x y, f x = Ok y -> Q x -> Q y) -> mapM f l = Ok l' -> Forall Q l -> Forall Q l'.
Proof.
  intros Hf. revert l'. induction l as [|x r IH]; intros l' H HQ; cbn [mapM] in H.
  - assert (l' = []) as -> by congruence. constructor.
  - apply rbind_inv in H. destruct H as (y & Hy & H). apply rbind_inv in H. destruct H as (ys & Hys & H).
    assert (l' = y :: ys) as -> by congruence. inversion HQ; subst. constructor; eauto.
Qed.
Lemma Forall_set (l : list C) n x : Forall Q l -> Q x -> Forall Q (set_nth l n x).
Proof. intros H Hx. revert n. induction H; intros [|n]; cbn; constructor; auto. Qed.
Lemma row_keeps r : forall cs cs', writeRow C V (i_Write I) cs r = Ok cs' -> Forall Q cs -> Forall Q cs'.
Proof.
  induction r as [|[id x] t IH]; intros cs cs' H HQ; cbn [writeRow] in H; [assert (cs' = cs) as -> by congruence; exact HQ|].
  destruct (nth_error cs id) as [c|] eqn:Ec; [|discriminate]. apply rbind_inv in H. destruct H as (c' & Hc & H).
  apply (IH _ _ H). apply Forall_set; [exact HQ|]. apply (Qwrite _ _ _ Hc). rewrite Forall_forall in HQ. apply HQ.
  eapply nth_error_In. exact Ec.
Qed.
Lemma out_keeps cs : forall b n cs', writeOutAll (i_WriteOut I) cs = Ok (b, n, cs') -> Forall Q cs -> Forall Q cs'.
Proof.
  induction cs as [|c r IH]; intros b n cs' H HQ; cbn [writeOutAll] in H; [assert (cs' = []) as -> by congruence; constructor|].
  apply rbind_inv in H. destruct H as ([[b1 n1] c1] & H1 & H). apply rbind_inv in H. destruct H as ([[b2 n2] r2] & H2 & H).
  assert (cs' = c1 :: r2) as -> by congruence. inversion HQ; subst. constructor; eauto.
Qed.
Lemma loop_keeps n : forall i count v w w',
  writeLoop deflate (i_Write I) (i_Size I) (i_Flush I) (i_Index I) (i_WriteOut I) (i_Infos I) (i_Reset I) (pb_SF P) o StripeSize n i count v w = Ok w' ->
  Forall Q (sw_cols w) -> Forall Q (sw_cols w').
Proof.
  induction n as [|n IH]; intros i count v w w' H Hl; cbn [writeLoop] in H.
  - match type of H with Ok ?x = _ => assert (w' = x) as -> by congruence end. exact Hl.
  - apply rbind_inv in H. destruct H as (cs & Hv & H).
    destruct (writeValue_cells _ _ _ _ _ _ _ Hv) as (r & _ & Hr). pose proof (row_keeps _ _ _ Hr Hl) as Hq.
    destruct (StripeSize <=? sw_size (i_Size I) cs).
    + apply rbind_inv in H. destruct H as (w1 & Hfl & H). apply rbind_inv in H. destruct H as (w2 & Hfw & H).
      apply (IH _ _ _ _ _ H). unfold forward in Hfw. apply rbind_inv in Hfw. destruct Hfw as (cs2 & Hrs & Hfw).
      match type of Hfw with Ok ?x = _ => assert (w2 = x) as -> by congruence end. cbn [sw_cols].
      apply (mapM_keeps _ _ _ Qreset Hrs). unfold flushOut in Hfl.
      apply rbind_inv in Hfl. destruct Hfl as (cs3 & H3 & Hfl). apply rbind_inv in Hfl. destruct Hfl as (ib & _ & Hfl).
      apply rbind_inv in Hfl. destruct Hfl as ([[db m] cs4] & H4 & Hfl).
      apply rbind_inv in Hfl. destruct Hfl as (ft & _ & Hfl). apply rbind_inv in Hfl. destruct Hfl as ([cb rest] & _ & Hfl).
      match type of Hfl with Ok ?x = _ => assert (w1 = x) as -> by congruence end. cbn [sw_cols].
      apply (out_keeps _ _ _ _ H4). apply (mapM_keeps _ _ _ Qflush H3). exact Hq.
    + apply (IH _ _ _ _ _ H). exact Hq.
Qed.
Lemma batches_keep vs : forall w w', writeBatches (write1 deflate I P o StripeSize) w vs = Ok w' ->
  Forall Q (sw_cols w) -> Forall Q (sw_cols w').
Proof.
  induction vs as [|v t IH]; intros w w' H Hl; cbn [writeBatches] in H; [assert (w' = w) as -> by congruence; exact Hl|].
  apply rbind_inv in H. destruct H as (w1 & H1 & H). apply (IH _ _ H). eapply loop_keeps; [exact H1|exact Hl].
Qed.
End Level.

(** ** The concrete columns *)
Section Columns.
Variable deflate : list (list Z) -> list Z -> res (list Z).
Variable F : floats.
Variable o : opts.
Variable stride : Z.

Lemma newW_size (e : enc) : w_Size o (newWriter e) = 0.
Proof. unfold w_Size. destruct (isNone (CompressionKind o)); reflexivity. Qed.
Lemma c_Size_eq c : c_Size o c = total (map (w_Size o) (col_streams c)).
Proof. unfold c_Size, total, col_streams. induction (_ ++ _) as [|w l IH]; cbn [fold_right map]; [reflexivity|]. rewrite IH. reflexivity. Qed.
Lemma total_zero l : Forall (fun x => x = 0) l -> total l = 0.
Proof. unfold total. induction 1 as [|x l H _ IH]; cbn [fold_right]; [reflexivity|]. rewrite H, IH. reflexivity. Qed.
Lemma new_size t c : NewWriter o t = Ok c -> c_Size o c = 0.
Proof.
  unfold NewWriter. intros H. apply rbind_inv in H. destruct H as (k & _ & H). assert (c = newColW o (td_id t) k (td_hasNulls t)) as -> by congruence.
  rewrite c_Size_eq. apply total_zero. apply Forall_map, Forall_app. split.
  - cbn [newColW cw_present]. destruct (td_hasNulls t); repeat constructor. apply newW_size.
  - cbn [newColW cw_data]. rewrite map_map. apply Forall_map. apply Forall_forall. intros p _. apply newW_size.
Qed.
Lemma reset_streams c c' : c_Reset o c = Ok c' -> Forall2 (fun w w' => w_Reset o w = Ok w') (col_streams c) (col_streams c').
Proof.
  unfold c_Reset. intros H. apply rbind_inv in H. destruct H as (p & Hp & H). apply rbind_inv in H. destruct H as (d & Hd & H).
  match type of H with Ok ?x = _ => assert (c' = x) as -> by congruence end. clear H. unfold col_streams. cbn [cw_present cw_data].
  apply Forall2_app.
  - destruct (cw_present c) as [q|]; cbn [optM] in Hp; [|assert (p = None) as -> by congruence; constructor].
    apply rbind_inv in Hp. destruct Hp as (q' & Hq & Hp). assert (p = Some q') as -> by congruence. repeat constructor. exact Hq.
  - revert d Hd. induction (cw_data c) as [|[k w] l IH]; intros d Hd; cbn [mapM] in Hd; [assert (d = []) as -> by congruence; constructor|].
    apply rbind_inv in Hd. destruct Hd as ([k' w'] & Hw & Hd). apply rbind_inv in Hd. destruct Hd as (d' & Hd' & Hd).
    assert (d = (k', w') :: d') as -> by congruence. cbn [map snd]. constructor; [|exact (IH _ Hd')].
    unfold onWriter in Hw. cbn [snd fst] in Hw. apply rbind_inv in Hw. destruct Hw as (x & Hx & Hw). congruence.
Qed.
Lemma wreset_size (w w' : writer enc) : w_Reset o w = Ok w' -> w_Size o w' = 0.
Proof. unfold w_Reset. destruct (isNone _); [discriminate|]. intros H. assert (w' = {| w_enc := w_enc w; w_buf := []; w_cbuf := []; w_length := 0 |}) as -> by congruence.
  unfold w_Size. cbn. destruct (isNone _); reflexivity. Qed.
Lemma reset_size c c' : c_Reset o c = Ok c' -> c_Size o c' = 0.
Proof.
  intros H. rewrite c_Size_eq. apply total_zero. apply Forall_map. apply reset_streams in H.
  induction H as [|w w' l l' Hw _ IH]; constructor; [|exact IH]. eapply wreset_size. exact Hw.
Qed.

(** *** Memory *)
Definition plain (w : writer enc) : Prop := isNone (CompressionKind o) = true -> w_cbuf w = [].
Lemma plain_size w : plain w -> zlen (w_buf w) + zlen (w_cbuf w) = w_Size o w.
Proof. unfold plain, w_Size. destruct (isNone _); intros H; [rewrite (H eq_refl); change (zlen (@nil Z)) with 0|]; lia. Qed.
Lemma s_Write_plain w v w' : s_Write deflate o w v = Ok w' -> plain w -> plain w'.
Proof.
  unfold s_Write, w_Write, plain. intros H Hp. apply rbind_inv in H. destruct H as ([e out] & _ & H).
  destruct (isNone (CompressionKind o)); [|discriminate]. cbn [negb andb] in H. intros _. specialize (Hp eq_refl).
  match type of H with Ok ?x = _ => assert (w' = x) as -> by congruence end. exact Hp.
Qed.
Lemma s_WriteAll_keeps (R : writer enc -> Prop) vs : (forall w v w', s_Write deflate o w v = Ok w' -> R w -> R w') ->
  forall w w', s_WriteAll deflate o w vs = Ok w' -> R w -> R w'.
Proof.
  intros HR. induction vs as [|v r IH]; intros w w' H Hw; cbn [s_WriteAll] in H; [congruence|].
  apply rbind_inv in H. destruct H as (w1 & H1 & H). eauto.
Qed.
Lemma s_Flush_plain w w' : s_Flush deflate o w = Ok w' -> plain w -> plain w'.
Proof.
  unfold s_Flush, w_Flush, plain. intros H Hp. apply rbind_inv in H. destruct H as ([e out] & _ & H).
  destruct (isNone (CompressionKind o)); [|discriminate]. intros _. specialize (Hp eq_refl).
  match type of H with Ok ?x = _ => assert (w' = x) as -> by congruence end. exact Hp.
Qed.

(** How the streams change. *)
Definition wrote (w w' : writer enc) : Prop := w' = w \/ exists v, s_Write deflate o w v = Ok w'.
Lemma wrote_refl l : Forall2 wrote l l.
Proof. induction l; constructor; [left; reflexivity|assumption]. Qed.
Lemma writeEach_streams ss : forall vs ss', writeEach deflate o ss vs = Ok ss' -> Forall2 wrote (map snd ss) (map snd ss').
Proof.
  induction ss as [|[k w] ss IH]; intros [|v vs] ss' H; cbn [writeEach] in H;
    try (assert (ss' = (k, w) :: ss) as -> by congruence; apply wrote_refl); try (assert (ss' = []) as -> by congruence; constructor).
  apply rbind_inv in H. destruct H as (w' & Hw & H). apply rbind_inv in H. destruct H as (r & Hr & H).
  assert (ss' = (k, w') :: r) as -> by congruence. cbn [map snd]. constructor; [|exact (IH _ _ Hr)].
  destruct v as [x|]; [right; eauto|left; congruence].
Qed.
Lemma indexStep_streams c v c' : indexStep F o stride c v = Ok c' -> col_streams c' = col_streams c /\ cw_pending c' = cw_pending c /\ cw_kind c' = cw_kind c.
Proof.
  unfold indexStep. destruct (stride <=? cw_indexInRows c + 1); intros H; apply rbind_inv in H; destruct H as (is & _ & H);
    match type of H with Ok ?x = _ => assert (c' = x) as -> by congruence end; auto.
Qed.
Lemma write_streams c v c' : c_Write deflate F o stride c v = Ok c' -> Forall2 wrote (col_streams c) (col_streams c') /\
  cw_kind c' = cw_kind c /\ (cw_kind c <> KDict -> cw_pending c' = cw_pending c).
Proof.
  unfold c_Write. intros H. destruct (isKStruct (cw_kind c) && negb (hasNulls c)).
  { assert (c' = c) as -> by congruence. split; [apply wrote_refl|auto]. }
  apply rbind_inv in H. destruct H as (p & Hp & H). apply rbind_inv in H. destruct H as (d & Hd & H). apply rbind_inv in H. destruct H as (st & _ & H).
  match type of H with (if _ then indexStep _ _ _ ?x _ else _) = _ => assert (G : col_streams c' = col_streams x /\ cw_pending c' = cw_pending x /\ cw_kind c' = cw_kind x) end.
  { destruct (_ && _); [exact (indexStep_streams _ _ _ H)|]. match type of H with Ok ?x = _ => assert (c' = x) as -> by congruence end. auto. }
  clear H. destruct G as (-> & -> & ->). unfold col_streams. cbn [cw_present cw_data cw_kind cw_pending]. split.
  - apply Forall2_app.
    + destruct (cw_present c) as [q|]; cbn [optM] in Hp; [|assert (p = None) as -> by congruence; constructor].
      apply rbind_inv in Hp. destruct Hp as (q' & Hq & Hp). assert (p = Some q') as -> by congruence. constructor; [right; eauto|constructor].
    + destruct (Null v); [assert (d = cw_data c) as -> by congruence; apply wrote_refl|].
      apply rbind_inv in Hd. destruct Hd as (vs & _ & Hd). exact (writeEach_streams _ _ _ Hd).
  - split; [reflexivity|]. intros Hk. destruct (cw_kind c); try reflexivity. congruence.
Qed.
Definition flushed (w w' : writer enc) : Prop := exists vs w1, s_WriteAll deflate o w vs = Ok w1 /\ s_Flush deflate o w1 = Ok w'.
Lemma dictFill_streams c d : dictFill deflate o c = Ok d ->
  Forall2 (fun w w' => exists vs, s_WriteAll deflate o w vs = Ok w') (map snd (cw_data c)) (map snd d).
Proof.
  assert (R : forall l, Forall2 (fun w w' => exists vs, s_WriteAll deflate o w vs = Ok w') l l)
    by (induction l; constructor; [exists []; reflexivity|assumption]).
  unfold dictFill. intros H.
  destruct (cw_kind c); try (assert (d = cw_data c) as -> by congruence; apply R).
  destruct (cw_data c) as [|[k1 dw] [|[k2 sw] [|[k3 lw] [|x l]]]]; try (match type of H with Ok ?x = _ => assert (d = x) as -> by congruence end; apply R).
  apply rbind_inv in H. destruct H as (data & _ & H). apply rbind_inv in H. destruct H as (dw' & H1 & H).
  apply rbind_inv in H. destruct H as (sw' & H2 & H). apply rbind_inv in H. destruct H as (lw' & H3 & H).
  assert (d = [(k1, dw'); (k2, sw'); (k3, lw')]) as -> by congruence. cbn [map snd]. repeat (constructor; [eauto|]). constructor.
Qed.
Lemma flush_streams c c' : c_Flush deflate o c = Ok c' -> Forall2 flushed (col_streams c) (col_streams c') /\
  cw_kind c' = cw_kind c /\ cw_pending c' = cw_pending c.
Proof.
  unfold c_Flush. intros H. apply rbind_inv in H. destruct H as (d0 & Hd0 & H). apply rbind_inv in H. destruct H as (p & Hp & H).
  apply rbind_inv in H. destruct H as (d & Hd & H). match type of H with Ok ?x = _ => assert (c' = x) as -> by congruence end. clear H.
  unfold col_streams. cbn [cw_present cw_data cw_kind cw_pending]. split; [|auto]. apply Forall2_app.
  - destruct (cw_present c) as [q|]; cbn [optM] in Hp; [|assert (p = None) as -> by congruence; constructor].
    apply rbind_inv in Hp. destruct Hp as (q' & Hq & Hp). assert (p = Some q') as -> by congruence. constructor; [exists [], q; auto|constructor].
  - apply dictFill_streams in Hd0. remember (map snd (cw_data c)) as l0 eqn:E0. clear E0. revert l0 Hd0 d Hd.
    induction d0 as [|[k w] l IH]; intros l0 Hd0 d Hd; cbn [mapM map snd] in *.
    + assert (d = []) as -> by congruence. inversion Hd0. constructor.
    + apply rbind_inv in Hd. destruct Hd as ([k' w'] & Hw & Hd). apply rbind_inv in Hd. destruct Hd as (d' & Hd' & Hd).
      assert (d = (k', w') :: d') as -> by congruence. cbn [map snd]. inversion Hd0 as [|x y lx ly (vs & Hx) Hl]; subst. constructor; [|exact (IH _ Hl _ Hd')].
      exists vs, w. split; [exact Hx|]. unfold onWriter in Hw. cbn [snd fst] in Hw. apply rbind_inv in Hw. destruct Hw as (z & Hz & Hw). congruence.
Qed.
Lemma out_streams c b n c' : c_WriteOut o c = Ok (b, n, c') ->
  col_streams c' = map (fun w => snd (w_WriteOut o w)) (col_streams c) /\
  b = concat (map (fun w => fst (w_WriteOut o w)) (col_streams c)) /\
  cw_kind c' = cw_kind c /\ cw_pending c' = cw_pending c.
Proof.
  unfold c_WriteOut. destruct (_ && _); [discriminate|]. intros H.
  match type of H with Ok (?x, _, ?y) = _ => assert (b = x) as -> by congruence; assert (c' = y) as -> by congruence end. clear H.
  unfold col_streams. cbn [cw_present cw_data cw_kind cw_pending]. rewrite !map_app, !map_map, concat_app.
  assert (E1 : forall (l : list (Z * writer enc)), map (fun x => snd (snd (let (b, w) := w_WriteOut o (snd x) in (b, (fst x, w))))) l = map (fun x => snd (w_WriteOut o (snd x))) l)
    by (intros l; apply map_ext; intros x; destruct (w_WriteOut o (snd x)); reflexivity).
  assert (E2 : forall (l : list (Z * writer enc)), map (fun x => fst (let (b, w) := w_WriteOut o (snd x) in (b, (fst x, w)))) l = map (fun x => fst (w_WriteOut o (snd x))) l)
    by (intros l; apply map_ext; intros x; destruct (w_WriteOut o (snd x)); reflexivity).
  rewrite E1, E2. destruct (cw_present c) as [q|]; cbn [map concat app fst snd]; [|auto].
  destruct (w_WriteOut o q) as [x y]. cbn [map concat app fst snd]. rewrite app_nil_r. auto.
Qed.
Lemma reset_rest c c' : c_Reset o c = Ok c' -> cw_kind c' = cw_kind c /\ cw_pending c' = cw_pending c.
Proof.
  unfold c_Reset. intros H. apply rbind_inv in H. destruct H as (p & Hp & H). apply rbind_inv in H. destruct H as (d & Hd & H).
  match type of H with Ok ?x = _ => assert (c' = x) as -> by congruence end. auto.
Qed.

Lemma Forall2_keeps (R : writer enc -> writer enc -> Prop) (S : writer enc -> Prop) l l' :
  (forall w w', R w w' -> S w -> S w') -> Forall2 R l l' -> Forall S l -> Forall S l'.
Proof. intros H. induction 1; intros HS; inversion HS; subst; constructor; eauto. Qed.
Lemma wrote_keeps (S : writer enc -> Prop) : (forall w v w', s_Write deflate o w v = Ok w' -> S w -> S w') -> forall w w', wrote w w' -> S w -> S w'.
Proof. intros H w w' [->|(v & Hv)]; eauto. Qed.

(** A column without a dictionary holds exactly what it reports. *)
Definition direct (c : colW) : Prop := Forall plain (col_streams c) /\ cw_kind c <> KDict /\ cw_pending c = [].
Lemma direct_size c : direct c -> buffered c = c_Size o c.
Proof.
  intros (H & _ & Hp). unfold buffered. rewrite Hp, c_Size_eq. unfold total at 2. cbn [map fold_right]. rewrite Z.add_0_r. f_equal.
  induction H as [|w l Hw _ IH]; cbn [map]; [reflexivity|]. rewrite IH, plain_size by exact Hw. reflexivity.
Qed.
Lemma direct_write c v c' : c_Write deflate F o stride c v = Ok c' -> direct c -> direct c'.
Proof.
  intros H (H1 & H2 & H3). destruct (write_streams _ _ _ H) as (Hs & Hk & Hp). split; [|split; [congruence|rewrite Hp; assumption]].
  eapply Forall2_keeps; [|exact Hs|exact H1]. apply wrote_keeps. exact s_Write_plain.
Qed.
Lemma direct_flush c c' : c_Flush deflate o c = Ok c' -> direct c -> direct c'.
Proof.
  intros H (H1 & H2 & H3). destruct (flush_streams _ _ H) as (Hs & Hk & Hp). split; [|split; congruence].
  eapply Forall2_keeps; [|exact Hs|exact H1]. intros w w' (vs & w1 & Ha & Hf) Hw. apply (s_Flush_plain _ _ Hf).
  eapply s_WriteAll_keeps; [exact s_Write_plain|exact Ha|exact Hw].
Qed.
Lemma direct_out c b n c' : c_WriteOut o c = Ok (b, n, c') -> direct c -> direct c'.
Proof.
  intros H (H1 & H2 & H3). destruct (out_streams _ _ _ _ H) as (Hs & _ & Hk & Hp). split; [|split; congruence].
  rewrite Hs. apply Forall_map. eapply Forall_impl; [|exact H1]. intros w Hw. unfold plain, w_WriteOut in *.
  destruct (isNone _); [|discriminate]. exact Hw.
Qed.
Lemma direct_reset c c' : c_Reset o c = Ok c' -> direct c -> direct c'.
Proof.
  intros H (H1 & H2 & H3). destruct (reset_rest _ _ H) as (Hk & Hp). split; [|split; congruence].
  eapply Forall2_keeps; [|exact (reset_streams _ _ H)|exact H1]. intros w w' Hr _. unfold w_Reset in Hr. destruct (isNone _); [discriminate|].
  match type of Hr with Ok ?x = _ => assert (w' = x) as -> by congruence end. intros _. reflexivity.
Qed.
Lemma direct_new t c : ~ dictionary t -> NewWriter o t = Ok c -> direct c.
Proof.
  unfold NewWriter. intros Hd H. apply rbind_inv in H. destruct H as (k & Hk & H). assert (c = newColW o (td_id t) k (td_hasNulls t)) as -> by congruence.
  split; [|split; [|reflexivity]].
  - unfold col_streams. cbn [newColW cw_present cw_data]. apply Forall_app. split.
    + destruct (td_hasNulls t); repeat constructor.
    + rewrite map_map. apply Forall_map, Forall_forall. intros p _ _. reflexivity.
  - cbn [newColW cw_kind]. intros ->. apply Hd. unfold dictionary. unfold writerKind in Hk.
    destruct (td_kind t); try discriminate Hk; destruct (Z.eqb_spec (td_enc t) 2) as [|]; try discriminate Hk; try (destruct (Z.eqb_spec (td_enc t) 0) as [|]; discriminate Hk);
      (destruct (Z.eqb_spec (td_enc t) 3) as [E|]; [|discriminate Hk]); split; auto.
Qed.

(** *** The size of a stripe *)
Hypothesis Hz : CompressionKind o = ZLIB.
Hypothesis Hcs : 1 <= ChunkSize o.
Definition small (w : writer enc) : Prop := zlen (w_buf w) <= ChunkSize o.
Lemma s_Write_small w v w' : s_Write deflate o w v = Ok w' -> small w' /\ exists a, w_cbuf w' = w_cbuf w ++ a.
Proof.
  unfold s_Write, w_Write, small. intros H. apply rbind_inv in H. destruct H as ([e out] & _ & H). rewrite Hz in H. cbn [isNone negb andb] in H.
  destruct (Z.ltb_spec (ChunkSize o) (zlen (w_buf w ++ out))) as [Hl|Hl].
  - apply rbind_inv in H. destruct H as ([c buf'] & Hc & H). cbn [CompressingChunks] in Hc.
    match type of H with Ok ?x = _ => assert (w' = x) as -> by congruence end. cbn [w_buf w_cbuf].
    destruct (toChunks_size deflate (ChunkSize o) Hcs _ _ _ _ _ Hc) as (k & _ & _ & _ & Hr & _). split; [exact Hr|eauto].
  - match type of H with Ok ?x = _ => assert (w' = x) as -> by congruence end. cbn [w_buf w_cbuf]. split; [exact Hl|].
    exists []. rewrite app_nil_r. reflexivity.
Qed.
Lemma s_WriteAll_grows vs : forall w w', s_WriteAll deflate o w vs = Ok w' -> exists a, w_cbuf w' = w_cbuf w ++ a.
Proof.
  induction vs as [|v r IH]; intros w w' H; cbn [s_WriteAll] in H; [assert (w' = w) as -> by congruence; exists []; rewrite app_nil_r; reflexivity|].
  apply rbind_inv in H. destruct H as (w1 & H1 & H). destruct (s_Write_small _ _ _ H1) as (_ & a & Ha). destruct (IH _ _ H) as (b & Hb).
  exists (a ++ b). rewrite Hb, Ha, app_assoc. reflexivity.
Qed.
Lemma s_Flush_grows w w' : s_Flush deflate o w = Ok w' -> exists a, w_cbuf w' = w_cbuf w ++ a.
Proof.
  unfold s_Flush, w_Flush. intros H. apply rbind_inv in H. destruct H as ([e out] & _ & H). rewrite Hz in H. cbn [isNone] in H.
  apply rbind_inv in H. destruct H as ([c b] & _ & H). match type of H with Ok ?x = _ => assert (w' = x) as -> by congruence end. cbn [w_cbuf]. eauto.
Qed.
Lemma flushed_grows w w' : flushed w w' -> zlen (w_cbuf w) <= zlen (w_cbuf w').
Proof.
  intros (vs & w1 & H1 & H2). destruct (s_WriteAll_grows _ _ _ H1) as (a & Ha). destruct (s_Flush_grows _ _ H2) as (b & Hb).
  rewrite Hb, Ha, !zlen_app. pose proof (zlen_nonneg a). pose proof (zlen_nonneg b). lia.
Qed.
Definition width (n : Z) (c : colW) : Prop := zlen (col_streams c) = n /\ Forall small (col_streams c).
Lemma Forall2_zlen {A B} (R : A -> B -> Prop) l l' : Forall2 R l l' -> zlen l' = zlen l.
Proof. induction 1; [reflexivity|]. rewrite !zlen_cons. lia. Qed.
Lemma width_write n c v c' : c_Write deflate F o stride c v = Ok c' -> width n c -> width n c'.
Proof.
  intros H (H1 & H2). destruct (write_streams _ _ _ H) as (Hs & _ & _). split; [rewrite (Forall2_zlen _ _ _ Hs); exact H1|].
  eapply Forall2_keeps; [|exact Hs|exact H2]. apply wrote_keeps. intros w x w' Hw _. exact (proj1 (s_Write_small _ _ _ Hw)).
Qed.
Lemma width_vals n vs : forall c c', writeVals (c_Write deflate F o stride) c vs = Ok c' -> width n c -> width n c'.
Proof.
  induction vs as [|v r IH]; intros c c' H Hw; cbn [writeVals] in H; [congruence|].
  apply rbind_inv in H. destruct H as (c1 & H1 & H). apply (IH _ _ H). eapply width_write; eassumption.
Qed.
Lemma width_size n c : width n c -> c_Size o c <= total (map (fun w => zlen (w_cbuf w)) (col_streams c)) + n * ChunkSize o.
Proof.
  intros (H1 & H2). subst n. rewrite c_Size_eq. unfold total.
  induction H2 as [|w l Hw _ IH]; [cbn; lia|]. cbn [map fold_right]. rewrite zlen_cons. unfold w_Size at 1. rewrite Hz. cbn [isNone]. unfold small in Hw. nia.
Qed.
(** What the column held when the stripe was cut, against what it then wrote. *)
Lemma column_written n c c1 c2 b k c' : width n c -> c_Flush deflate o c1 = Ok c2 -> c_WriteOut o c2 = Ok (b, k, c') ->
  (exists vs, writeVals (c_Write deflate F o stride) c vs = Ok c1) ->
  c_Size o c1 <= zlen b + n * ChunkSize o /\ zlen (col_streams c') = n.
Proof.
  intros Hw Hf Ho (vs & Hv). pose proof (width_vals _ _ _ _ Hv Hw) as Hw1. destruct (flush_streams _ _ Hf) as (Hs & _).
  destruct (out_streams _ _ _ _ Ho) as (Es & -> & _). pose proof (width_size _ _ Hw1) as Hsz. split.
  - eapply Z.le_trans; [exact Hsz|]. apply Z.add_le_mono_r. clear - Hs Hz Hcs.
    induction Hs as [|w w' l l' H _ IH]; unfold total in *; cbn [map fold_right concat]; [change (zlen (@nil Z)) with 0; lia|].
    rewrite zlen_app. apply flushed_grows in H. unfold w_WriteOut at 1. rewrite Hz. cbn [isNone fst]. lia.
  - rewrite Es. unfold zlen. rewrite map_length. fold (zlen (col_streams c2)). rewrite (Forall2_zlen _ _ _ Hs). apply Hw1.
Qed.
Lemma width_reset n c c' : c_Reset o c = Ok c' -> zlen (col_streams c) = n -> width n c'.
Proof.
  intros H Hn. pose proof (reset_streams _ _ H) as Hs. split; [rewrite (Forall2_zlen _ _ _ Hs); exact Hn|].
  clear H Hn. induction Hs as [|w w' l l' Hr _ IH]; constructor; [|exact IH]. unfold w_Reset in Hr. destruct (isNone _); [discriminate|].
  match type of Hr with Ok ?x = _ => assert (w' = x) as -> by congruence end. unfold small. change (zlen _) with 0. lia.
Qed.
Lemma width_new t c : NewWriter o t = Ok c -> width (column_streams t) c.
Proof.
  unfold NewWriter. intros H. apply rbind_inv in H. destruct H as (k & Hk & H). assert (c = newColW o (td_id t) k (td_hasNulls t)) as -> by congruence. clear H.
  split.
  - unfold col_streams, column_streams. cbn [newColW cw_present cw_data]. rewrite zlen_app. f_equal; [destruct (td_hasNulls t); reflexivity|].
    unfold writerKind in Hk.
    destruct (td_kind t); try discriminate Hk; try (destruct (Z.eqb_spec (td_enc t) 2) as [E2|]; [|destruct (Z.eqb_spec (td_enc t) 3)]); try discriminate Hk;
      try (destruct (Z.eqb_spec (td_enc t) 0) as [|]; try discriminate Hk);
      try match type of Hk with Ok ?x = _ => assert (k = x) as -> by congruence end; try reflexivity;
      try (rewrite E2; reflexivity).
  - unfold col_streams. cbn [newColW cw_present cw_data]. apply Forall_app. split.
    + destruct (td_hasNulls t); repeat constructor. unfold small. cbn. lia.
    + rewrite map_map. apply Forall_map, Forall_forall. intros p _. unfold small. cbn. lia.
Qed.

Variable marshal : stripeFooter -> res (list Z).
Variable StripeSize : Z.
Notation Strs := (Stripes deflate colW value (c_Write deflate F o stride) (c_Size o) (c_Flush deflate o)
  (fun c => marshalIndex (cw_index c)) (c_WriteOut o) c_Infos (c_Reset o) marshal o StripeSize).
Lemma sum_columns (ns : list Z) : forall (cs : list colW) (xs : list colimage), length cs = length ns -> length xs = length ns ->
  (forall k n c x, nth_error ns k = Some n -> nth_error cs k = Some c -> nth_error xs k = Some x ->
     c_Size o c <= zlen (concat (ci_streams x)) + n * ChunkSize o) ->
  total (map (c_Size o) cs) <= zlen (concat (concat (map ci_streams xs))) + total ns * ChunkSize o.
Proof.
  induction ns as [|n ns IH]; intros [|c cs] [|x xs] L1 L2 H; try discriminate.
  unfold total in *. cbn [map fold_right concat]. rewrite concat_app, zlen_app. pose proof (H O _ _ _ eq_refl eq_refl eq_refl).
  pose proof (IH cs xs ltac:(cbn in L1; lia) ltac:(cbn in L2; lia) (fun k => H (S k))). nia.
Qed.
Lemma widths_nth ns cs : Forall2 width ns cs -> forall k c, nth_error cs k = Some c -> exists n, nth_error ns k = Some n /\ width n c.
Proof.
  induction 1 as [|n c ns cs Hw _ IH]; intros [|k] x Hx; try discriminate; cbn [nth_error] in *; [assert (x = c) as -> by congruence; eauto|auto].
Qed.
Lemma widths_build ns : forall cs, length cs = length ns -> (forall k n c, nth_error ns k = Some n -> nth_error cs k = Some c -> width n c) ->
  Forall2 width ns cs.
Proof.
  induction ns as [|n ns IH]; intros [|c cs] L H; try discriminate; constructor; [exact (H O _ _ eq_refl eq_refl)|].
  apply IH; [cbn in L; lia|]. intros k. exact (H (S k)).
Qed.
Lemma widths_len ns cs : Forall2 width ns cs -> length cs = length ns.
Proof. induction 1; cbn; congruence. Qed.
Lemma nth_ex {A} (l : list A) k : (k < length l)%nat -> exists x, nth_error l k = Some x.
Proof. intros H. destruct (nth_error l k) eqn:E; [eauto|]. apply nth_error_None in E. lia. Qed.
Lemma nth_lt {A} (l : list A) k x : nth_error l k = Some x -> (k < length l)%nat.
Proof. intros H. apply nth_error_Some. congruence. Qed.
Lemma stripes_sized encs ns cs rss ms csf : Strs encs cs rss ms csf -> Forall2 width ns cs ->
  Forall (fun m => StripeSize <= zlen (concat (im_streams m)) + total ns * ChunkSize o) (removelast ms).
Proof.
  induction 1 as [cs rows m cs' Hi Ho|cs rows m cs' cs'' rss ms csf Hi Hcut Hr Hs IH]; intros Hw; [constructor|].
  assert (Hne : ms <> []) by (destruct Hs; discriminate).
  pose proof (widths_len _ _ Hw) as Hl. destruct Hi as (_ & L1 & L2 & Hk & _).
  change (removelast (m :: ms)) with (match ms with [] => [] | _ => m :: removelast ms end).
  destruct ms as [|m1 ms1]; [congruence|]. constructor.
  - destruct Hcut as (a & b & n & _ & _ & (cs1 & Lc & Hk1 & ->) & Hge). eapply Z.le_trans; [exact Hge|].
    unfold im_streams. apply sum_columns; [lia|lia|]. intros k w c1 x E1 E2 E3.
    destruct (nth_ex cs k ltac:(apply nth_lt in E1; lia)) as (c & Hc).
    destruct (widths_nth _ _ Hw _ _ Hc) as (n' & En & Hwc). assert (n' = w) as -> by congruence.
    destruct (Hk1 _ _ Hc) as (c1' & E1' & Hv). assert (c1' = c1) as -> by congruence.
    destruct (Hk _ _ Hc) as (x' & c' & Ex & Ec' & d1 & d2 & Hv' & Hf & _ & (nn & Hwo) & _).
    assert (x' = x) as -> by congruence. assert (d1 = c1) as -> by congruence.
    exact (proj1 (column_written w c c1 d2 _ _ _ Hwc Hf Hwo (ex_intro _ _ Hv))).
  - apply IH. destruct (mapM_spec _ _ _ Hr) as [Lr Hrk]. apply widths_build; [lia|]. intros k w c'' E1 E2.
    destruct (nth_ex cs k ltac:(apply nth_lt in E1; lia)) as (c & Hc).
    destruct (widths_nth _ _ Hw _ _ Hc) as (n' & En & Hwc). assert (n' = w) as -> by congruence.
    destruct (Hk _ _ Hc) as (x' & c' & Ex & Ec' & d1 & d2 & Hv' & Hf & _ & (nn & Hwo) & _).
    destruct (Hrk _ _ Ec') as (c2 & Ec2 & Hres). assert (c2 = c'') as -> by congruence.
    apply (width_reset _ _ _ Hres). exact (proj2 (column_written w c d1 d2 _ _ _ Hwc Hf Hwo (ex_intro _ _ Hv'))).
Qed.
Lemma widths_new l : forall cs, mapM (NewWriter o) l = Ok cs -> Forall2 width (map column_streams l) cs.
Proof.
  induction l as [|t r IH]; intros cs H; cbn [mapM map] in *; [assert (cs = []) as -> by congruence; constructor|].
  apply rbind_inv in H. destruct H as (c & Hc & H). apply rbind_inv in H. destruct H as (cs' & Hr & H).
  assert (cs = c :: cs') as -> by congruence. constructor; [apply width_new; exact Hc|apply IH; exact Hr].
Qed.
Lemma directory_data (rss : list (list (row value))) : forall off ms, length rss = length ms ->
  map DataLength (directory off rss ms) = map (fun m => zlen (concat (im_streams m))) ms.
Proof.
  induction rss as [|r rss IH]; intros off [|m ms] L; try discriminate; [reflexivity|]. cbn [directory map DataLength].
  rewrite IH by (cbn in L; lia). reflexivity.
Qed.
End Columns.

Lemma flatten_total t : total (map column_streams (flatten t)) = schema_streams t.
Proof.
  induction t as [i k ns e h cs IH] using td_rect'. rewrite flatten_eq. cbn [map]. unfold total. cbn [fold_right schema_streams].
  f_equal. rewrite flat_map_concat_map. induction cs as [|c cs IHc]; cbn [map concat fold_right]; [reflexivity|].
  fold (total (map column_streams (flatten c ++ concat (map flatten cs)))). rewrite map_app, total_app.
  inversion IH as [|? ? H1 H2]; subst. rewrite H1. f_equal. unfold total. apply IHc. exact H2.
Qed.
Lemma removelast_map {A B} (f : A -> B) l : removelast (map f l) = map f (removelast l).
Proof. induction l as [|x [|y l] IH]; cbn [map removelast] in *; [reflexivity..|]. rewrite IH. reflexivity. Qed.
