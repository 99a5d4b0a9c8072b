(** What a nullable column gives back after refusing values. *)
From Coq Require Import ZifyBool ZifyNat.
From Verif.Model Require Import Go Codec ByteBool IntRle Chunk Stream Time File Column Failure.
From Verif.Spec Require Import BoolSpec Session StreamSpec ChunkSpec ColumnSpec RefusalSpec.
From Verif.Proofs Require Import Base CodecP SessionP ByteBoolP StreamP ReadP ColumnP ColumnReadP.

Lemma drawn_deal bits : forall gs, drawn bits gs = deal bits gs.
Proof. induction bits as [|[] b IH]; intros gs; [reflexivity| |cbn [drawn deal]; rewrite IH; reflexivity]. destruct gs; [reflexivity|]. cbn [drawn deal]. rewrite IH. reflexivity. Qed.
Lemma deal_prefix bits : forall gs l x, exists r, deal (bits ++ l) (gs ++ x) = deal bits gs ++ r.
Proof.
  induction bits as [|[] b IH]; intros gs l x; [eexists; reflexivity| |].
  - destruct gs as [|g t]; [eexists; reflexivity|]. cbn [app deal]. destruct (IH t l x) as (r & ->). exists r. reflexivity.
  - cbn [app deal]. destruct (IH gs l x) as (r & ->). exists r. reflexivity.
Qed.
Lemma drawn_bits bits : forall gs, exists y, bits = map (fun r => match r with Some _ => true | None => false end) (drawn bits gs) ++ y.
Proof.
  induction bits as [|[] b IH]; intros gs; [exists []; reflexivity| |].
  - destruct gs as [|g t]; [exists (true :: b); reflexivity|]. destruct (IH t) as (y & E). exists y. cbn [drawn map app]. rewrite <- E. reflexivity.
  - destruct (IH gs) as (y & E). exists y. cbn [drawn map app]. rewrite <- E. reflexivity.
Qed.
Lemma rows_there vs : map (fun r => match r with Some _ => true | None => false end) (rows_of vs) = there vs.
Proof. unfold rows_of, there. rewrite map_map. apply map_ext. intros v. unfold row_of. destruct (Null v); reflexivity. Qed.

Lemma right_iff l : let t := taken l in
  (exists x, drawn (there (map fst l)) (nonnull (rows_of t)) = rows_of t ++ x) <-> firstn (length t) (there (map fst l)) = there t.
Proof.
  intros t. set (bits := there (map fst l)). split.
  - intros (x & E). destruct (drawn_bits bits (nonnull (rows_of t))) as (y & Eb). rewrite E, map_app, rows_there in Eb.
    assert (El : length (there t) = length t) by apply map_length.
    rewrite Eb, <- app_assoc, firstn_app, El, Nat.sub_diag, firstn_O, app_nil_r. apply firstn_all2. lia.
  - intros E. destruct (deal_all t (skipn (length t) bits) []) as (r & Er). exists r. rewrite drawn_deal, <- Er, app_nil_r.
    f_equal. rewrite <- (firstn_skipn (length t) bits) at 1. rewrite E. reflexivity.
Qed.
Lemma right_no_nulls l : Forall (fun q => Null (fst q) = false) l ->
  drawn (there (map fst l)) (nonnull (rows_of (taken l))) = rows_of (taken l).
Proof.
  intros H. assert (G : forall b (t : list value), Forall (fun v => Null v = false) t -> (length t <= length b)%nat ->
    Forall (fun x => x = true) b -> drawn b (nonnull (rows_of t)) = rows_of t).
  { induction b as [|x b IH]; intros t Ht Hl Hb.
    - destruct t; [reflexivity|cbn in Hl; lia].
    - inversion Hb; subst. destruct t as [|v t]; [reflexivity|]. inversion Ht as [|? ? Hv Ht']; subst.
      assert (Er : rows_of (v :: t) = Some (V v) :: rows_of t) by (unfold rows_of; cbn [map]; unfold row_of at 1; rewrite Hv; reflexivity).
      rewrite Er. change (nonnull (Some (V v) :: rows_of t)) with (V v :: nonnull (rows_of t)). cbn [drawn].
      f_equal. apply IH; [exact Ht'|cbn in Hl; lia|assumption]. }
  apply G.
  - unfold taken. apply Forall_map. apply Forall_forall. intros q Hq. apply filter_In in Hq. rewrite Forall_forall in H. apply H. tauto.
  - unfold taken, there. rewrite !map_length. clear. induction l as [|[v []] l IH]; cbn [filter snd length map]; lia.
  - unfold there. rewrite map_map. apply Forall_map. eapply Forall_impl; [|exact H]. intros q Hq. cbv beta in Hq |- *. rewrite Hq. reflexivity.
Qed.

Section Column.
Variable deflate : list (list Z) -> list Z -> res (list Z).
Variable inflate : list Z -> res (list Z).
Variable o : opts.
Hypothesis Ho : supported o.
Hypothesis Hok : flate_ok deflate inflate.
Variable F : floats.
Variable stride : Z.

Definition given (k : ckind) (l : list (value * bool)) (i : nat) : list gval :=
  match i with O => map GBool (there (map fst l)) | S j => flat_map (inp k j) (nonnull (rows_of (taken l))) end.

Lemma left_streams c v c1 : hasNulls c = true -> c_Left deflate o c v = Some c1 ->
  Null v = false /\ cw_id c1 = cw_id c /\ cw_kind c1 = cw_kind c /\ hasNulls c1 = true /\
  Fed deflate o (streams c) (streams c1) (fun i => match i with O => [GBool true] | S _ => [] end).
Proof.
  intros Hn H. unfold c_Left in H. destruct (Null v || negb (refuses (cw_kind c) (V v))) eqn:E; [discriminate|].
  apply Bool.orb_false_elim in E. destruct E as [E _]. split; [exact E|].
  unfold hasNulls, streams in *. destruct (cw_present c) as [p|]; [|discriminate]. cbn [optM] in H.
  destruct (s_Write deflate o p (GBool true)) as [p'| |] eqn:Ep; cbn [rbind] in H; try discriminate.
  assert (c1 = {| cw_id := cw_id c; cw_kind := cw_kind c; cw_present := Some p'; cw_data := cw_data c;
                         cw_stats := cw_stats c; cw_indexInRows := cw_indexInRows c;
                         cw_indexStats := cw_indexStats c; cw_index := cw_index c;
                         cw_flushed := cw_flushed c; cw_pending := cw_pending c |}) as -> by congruence.
  cbn [cw_id cw_kind cw_present cw_data]. do 3 (split; [reflexivity|]). cbn [app Fed]. split; [reflexivity|].
  split; [|apply Fed_nil; reflexivity]. unfold s_Write in Ep. cbn [writeAll]. rewrite Ep. reflexivity.
Qed.
Lemma offered_streams c l c' : Offered deflate F o stride c l c' -> readable (cw_kind c) = true -> hasNulls c = true ->
  cw_id c' = cw_id c /\ cw_kind c' = cw_kind c /\ hasNulls c' = true /\
  Fed deflate o (streams c) (streams c') (given (cw_kind c) l).
Proof.
  induction 1 as [c|c v c1 l c2 H1 _ IH|c v c1 l c2 _ H1 _ IH]; intros Hl Hn.
  - do 2 (split; [reflexivity|]). split; [exact Hn|]. apply Fed_nil. intros [|i]; reflexivity.
  - destruct (c_Write_streams _ _ _ _ _ _ _ (leaf_active _ _ Hl) H1) as (I1 & K1 & N1 & F1).
    rewrite Hn in N1, F1. destruct IH as (I2 & K2 & N2 & F2); [rewrite K1; exact Hl|exact N1|].
    split; [congruence|]. split; [congruence|]. split; [exact N2|]. rewrite K1 in F2.
    eapply Fed_ext; [|eapply Fed_trans; eassumption]. intros [|i]; [reflexivity|]. cbn [ins1 given].
    change (taken ((v, true) :: l)) with (v :: taken l). unfold rows_of, nonnull. cbn [map flat_map]. fold (rows_of (taken l)).
    unfold input, row_of. destruct (Null v); [reflexivity|]. cbn [app flat_map]. reflexivity.
  - destruct (left_streams _ _ _ Hn H1) as (Hv & I1 & K1 & N1 & F1).
    destruct IH as (I2 & K2 & N2 & F2); [rewrite K1; exact Hl|exact N1|].
    split; [congruence|]. split; [congruence|]. split; [exact N2|]. rewrite K1 in F2.
    eapply Fed_ext; [|eapply Fed_trans; eassumption]. intros [|i]; [|reflexivity].
    cbn [given map there fst app]. rewrite Hv. reflexivity.
Qed.

Lemma refused_column id k l c bs infos : readable k = true -> Offered deflate F o stride (newColW o id k true) l c ->
  Forall (typed k) (nonnull (rows_of (taken l))) -> carried k (nonnull (rows_of (taken l))) ->
  put_out deflate o c = Ok (bs, infos) ->
  reads_back inflate o k true bs infos (drawn (there (map fst l)) (nonnull (rows_of (taken l)))).
Proof.
  intros Hl Hof Hty Hca H.
  destruct (Clean_new o id k true Hl) as (its & [Hst Hf] & Hsp & Hsd).
  destruct (offered_streams _ _ _ Hof Hl eq_refl) as (Hid1 & Hk1 & Hn1 & Hfed). cbn [newColW cw_id cw_kind] in Hid1, Hk1, Hfed.
  unfold put_out in H. apply rbind_inv in H. destruct H as (c2 & Hfl & H).
  apply rbind_inv in H. destruct H as ([[bs' n] c3] & Hwo & H).
  assert (bs' = bs /\ infos = c_Infos c3) as (-> & ->) by (split; congruence). clear H.
  assert (Hnd : cw_kind c <> KDict). { rewrite Hk1. destruct k; discriminate. }
  destruct (c_Flush_streams deflate o c c2 Hnd Hfl) as (Hid2 & Hk2 & Hn2 & _ & Hflu).
  destruct (c_WriteOut_streams o c2 bs n c3 Hwo) as (Hbs & Hn & Hid3 & Hk3 & Hn3 & Hst3).
  rewrite Hst in Hfed. pose proof (Fed_Flushed_Done _ _ _ _ _ _ Hfed Hflu) as Hd.
  assert (Hinf : c_Infos c3 = map (fun q => info id (fst q) (snd q)) (streams c2)).
  { rewrite c_Infos_streams, Hst3, map_map. apply map_ext. intros [q w]. cbn [fst snd]. unfold info.
    rewrite drained_length. f_equal. congruence. }
  rewrite Hinf, Hbs. clear Hinf. set (bits := there (map fst l)) in *. set (gs := nonnull (rows_of (taken l))) in *.
  intros pre post Hlen.
  pose proof (Done_Served deflate inflate o Ho Hok id its _ _ pre post Hd Hlen) as Hs.
  set (file := pre ++ concat (map (fun q => StreamSpec.stored o (snd q)) (streams c2)) ++ post) in *. clearbody file.
  change (given k l) with (fun i => match i with O => map GBool bits | S j => flat_map (inp k j) gs end) in Hs.
  set (offs := offsets (zlen pre) (map (fun q => info id (fst q) (snd q)) (streams c2))) in *. clearbody offs.
  replace (hasNulls (newColW o id k true)) with true in Hf by reflexivity. cbn [newColW cw_kind] in Hf.
  unfold planned in Hf. cbn [app] in Hf. clear - Hl Hty Hca Hf Hs Hsp Hsd. clearbody gs bits.
  inversion Hf as [|it0 p0 its' pl' [Hk0 Hf0] Hf']; subst. cbn [fst snd] in *.
  destruct offs as [|[s0 off0] offs]; cbn [Served] in Hs; try contradiction.
  destruct Hs as (Hsk & (e0 & b0 & Hseg & Hsv) & Hs).
  destruct (it_enc it0) as [be|boe|ie| | | |] eqn:Hie; cbn [Fresh] in Hf0; try contradiction. destruct Hf0 as [Hbi Hbv].
  rewrite seg_bool in Hseg.
  destruct (segment bool_Encode bool_Flush boe bits) as [[e1 b1]| |] eqn:Eseg; cbn in Hseg; try discriminate.
  assert (b1 = b0) as -> by congruence.
  pose proof (bits_yields inflate o _ _ boe e1 b0 _ Hbi Hbv Eseg Hsv) as Hy.
  set (c0 := setPresent (newBoolReader (newReader file off0 (st_length s0))) (newColR k true)) in *.
  assert (Hi : InitStream file (newColR k true) s0 off0 = Ok c0).
  { unfold InitStream. rewrite Hsk, Hk0, Z.eqb_refl. cbn [newColR cr_kind cr_hasNulls]. destruct k; reflexivity. }
  destruct (data_yields inflate o k gs file c0 its' offs Hl eq_refl Hty Hca Hf') as (r & Hr & Hk & Hp & _ & _ & Hyv).
  { eapply Served_ext; [|exact Hs]. reflexivity. }
  pose proof (yields_rows_bits inflate o _ r _ _ ltac:(rewrite Hk; exact Hl) Hp Hy Hyv) as Hrows.
  unfold presentStale, dataStale, dataItems in Hsp, Hsd. cbn [firstStale tl] in Hsp, Hsd. unfold firstStale in Hsd.
  rewrite Hsp, Hsd in Hrows. destruct (stored_fresh bits) as (l2 & E2). destruct (back_fresh k gs Hty) as (x & Ex).
  rewrite E2, Ex in Hrows. destruct (deal_prefix bits gs l2 x) as (z & Ez). rewrite Ez, <- drawn_deal in Hrows.
  exists r. cbn [InitStreams]. rewrite Hi. cbn [rbind]. split; [exact Hr|]. intros vecs Hle _.
  destruct (readBatches_rows inflate o vecs r _ ltac:(rewrite Hk; exact Hl) ltac:(rewrite Hp; discriminate) Hrows) as (outs & r' & H1 & H2);
    [rewrite app_length; lia|].
  exists outs, r'. split; [exact H1|]. rewrite H2. apply cut_app. exact Hle.
Qed.
End Column.
