(** The streams listed by the files of this writer. *)
From Coq Require Import ZifyBool ZifyNat.
From Verif.Model Require Import Go Codec ByteBool IntRle Chunk Stream Schema Rows Time File Column Wire Assembled Close.
From Verif.Spec Require Import BoolSpec Session StreamSpec ChunkSpec SchemaSpec RowsSpec FileSpec ColumnSpec AssemblySpec EndSpec ProjectSpec CloseSpec.
From Verif.Proofs Require Import Base OpenBatchP SchemaP ChunkP TailP RowsP FileP OpenP FileClaimsP WireP ColumnP AssembledP BatchP EndP EndColP OpenTreeP EndFileP EndMainP ProjectP CloseP OpenCloseP.

Section Columns.
Variable deflate : list (list Z) -> list Z -> res (list Z).
Variable F : floats.
Variable o : opts.
Variable stride : Z.
Notation I := (columns deflate F o stride).
Notation CImage := (ColumnImage colW value (i_Write I) (i_Flush I) (i_Index I) (i_WriteOut I) (i_Infos I) o).
Notation CChain := (Chain colW value (i_Write I) (i_Flush I) (i_Index I) (i_WriteOut I) (i_Infos I) (i_Reset I) o).

Lemma optM_some {A B} (f : A -> res B) x y : optM f x = Ok y -> (match y with Some _ => true | None => false end) = (match x with Some _ => true | None => false end).
Proof. destruct x; cbn [optM]; intros H; [apply rbind_inv in H; destruct H as (b & _ & H)|]; match type of H with Ok ?z = _ => assert (y = z) as -> by congruence end; reflexivity. Qed.
Lemma c_Write_nulls c v c' : c_Write deflate F o stride c v = Ok c' -> hasNulls c' = hasNulls c.
Proof.
  unfold c_Write. intros H. destruct (isKStruct (cw_kind c) && negb (hasNulls c)); [assert (c' = c) as -> by congruence; reflexivity|].
  apply rbind_inv in H. destruct H as (p & Hp & H). apply rbind_inv in H. destruct H as (d & _ & H). apply rbind_inv in H. destruct H as (st & _ & H).
  apply optM_some in Hp. unfold hasNulls. destruct (WriteIndex o && indexes (cw_kind c) (Null v)).
  - apply indexStep_same in H. destruct H as (_ & _ & H & _). rewrite H. exact Hp.
  - match type of H with Ok ?x = _ => assert (c' = x) as -> by congruence end. exact Hp.
Qed.
Lemma c_Flush_nulls c c' : c_Flush deflate o c = Ok c' -> hasNulls c' = hasNulls c.
Proof.
  unfold c_Flush. intros H. apply rbind_inv in H. destruct H as (d0 & _ & H). apply rbind_inv in H. destruct H as (p & Hp & H).
  apply rbind_inv in H. destruct H as (d & _ & H). match type of H with Ok ?x = _ => assert (c' = x) as -> by congruence end. exact (optM_some _ _ _ Hp).
Qed.
Definition names (c : colW) : list Z := (if hasNulls c then [0] else []) ++ kinds c.
Lemma names_eq c c' : hasNulls c' = hasNulls c -> kinds c' = kinds c -> names c' = names c.
Proof. unfold names. intros -> ->. reflexivity. Qed.
Lemma writeRows_names vs : forall c c', writeRows deflate F o stride c vs = Ok c' -> names c' = names c.
Proof.
  induction vs as [|v t IH]; intros c c' H; cbn [writeRows] in H; [congruence|]. apply rbind_inv in H. destruct H as (c1 & H1 & H). rewrite (IH _ _ H).
  apply names_eq; [eapply c_Write_nulls; exact H1|apply c_Write_kinds in H1; apply H1].
Qed.
Lemma infos_names c : map st_kind (c_Infos c) = names c.
Proof. unfold c_Infos, names, hasNulls, kinds. rewrite map_app, map_map. destruct (cw_present c); reflexivity. Qed.
Lemma image_names c vs x c' : CImage c vs x c' -> names c' = names c /\ map st_kind (ci_infos x) = names c.
Proof.
  intros (c1 & c2 & Hw & Hf & _ & (n & Hwo) & Hi & _). rewrite writeVals_rows in Hw. cbn in Hf, Hwo, Hi. apply writeRows_names in Hw.
  assert (E2 : names c2 = names c1) by (apply names_eq; [eapply c_Flush_nulls; exact Hf|apply c_Flush_kinds in Hf; apply Hf]).
  assert (E3 : names c' = names c2) by (pose proof (c_WriteOut_streams _ _ _ _ _ Hwo); apply names_eq; [tauto|apply c_WriteOut_kinds in Hwo; apply Hwo]).
  assert (E : names c' = names c) by congruence. split; [exact E|]. rewrite <- Hi, infos_names. exact E.
Qed.
Lemma chain_names c vss xs cf : CChain c vss xs cf -> Forall (fun x => map st_kind (ci_infos x) = names c) xs.
Proof.
  induction 1 as [c vs x c' H|c vs x c1 c2 vss xs cf H Hr _ IH]; apply image_names in H; destruct H as [H1 H2]; constructor; [exact H2|constructor|exact H2|].
  assert (E : names c2 = names c) by (rewrite <- H1; apply names_eq; [apply c_Reset_streams in Hr; tauto|apply c_Reset_kinds in Hr; apply Hr]). rewrite <- E. exact IH.
Qed.
Lemma new_names id k (h : bool) : names (newColW o id k h) = (if h then [0] else []) ++ map fst (dataStreams k o).
Proof. unfold names, hasNulls, kinds, newColW. cbn [cw_present cw_data]. rewrite map_map. cbn [fst]. destruct h; reflexivity. Qed.
(** They are those of the format. *)
Lemma new_listed k e kw (h : bool) : writerKind k e = Ok kw ->
  k <> LIST /\ k <> MAP /\ well_listed k e ((if h then [0] else []) ++ map fst (dataStreams kw o)) /\
  (k = STRING -> e <> 3 -> In 0 ((if h then [0] else []) ++ map fst (dataStreams kw o)) <-> h = true).
Proof.
  intros H. assert (E : map fst (dataStreams kw o) = format_streams k e /\ NoDup (0 :: format_streams k e) /\ k <> LIST /\ k <> MAP).
  { unfold writerKind in H. destruct k; try discriminate H; cbn [format_streams];
      repeat match type of H with context [if ?b then _ else _] => destruct b eqn:?; try discriminate H end;
      match type of H with Ok ?x = _ => assert (kw = x) as -> by congruence end; try (replace (e =? 3) with false by lia);
      (split; [reflexivity|]); (split; [repeat (constructor; [cbn [In]; intuition discriminate|]); constructor|split; discriminate]). }
  destruct E as (E & Hn & N1 & N2). rewrite E. split; [exact N1|]. split; [exact N2|]. inversion Hn as [|? ? Hn0 Hn1]; subst. split.
  - unfold well_listed. destruct h; cbn [app]; (split; [assumption|]); split; intros x Hx; auto; right; exact Hx.
  - intros _ _. destruct h; cbn [app]; (split; intros H'; [|]); [reflexivity|left; reflexivity|destruct (Hn0 H')|discriminate].
Qed.
End Columns.

Lemma infos_filter cols : forall i j y, (forall k z, nth_error cols k = Some z -> Forall (fun s => st_column s = Z.of_nat (i + k)) (ci_infos z)) ->
  nth_error cols j = Some y -> filter (fun s => (Z.to_nat (st_column s) =? i + j)%nat) (concat (map ci_infos cols)) = ci_infos y.
Proof.
  assert (Hall : forall l i, Forall (fun s => st_column s = Z.of_nat i) l -> filter (fun s => (Z.to_nat (st_column s) =? i)%nat) l = l).
  { induction 1 as [|s l Hs _ IH]; [reflexivity|]. cbn [filter]. rewrite Hs, Nat2Z.id, Nat.eqb_refl, IH. reflexivity. }
  assert (Hno : forall l i j, i <> j -> Forall (fun s => st_column s = Z.of_nat i) l -> filter (fun s => (Z.to_nat (st_column s) =? j)%nat) l = []).
  { intros l i j Hij. induction 1 as [|s l Hs _ IH]; [reflexivity|]. cbn [filter]. rewrite Hs, Nat2Z.id. destruct (Nat.eqb_spec i j); [contradiction|exact IH]. }
  assert (Hnone : forall cols i j, (j < i)%nat -> (forall k z, nth_error cols k = Some z -> Forall (fun s => st_column s = Z.of_nat (i + k)) (ci_infos z)) ->
    filter (fun s => (Z.to_nat (st_column s) =? j)%nat) (concat (map ci_infos cols)) = []).
  { intros l. induction l as [|z l IH]; intros i j Hj H; [reflexivity|]. cbn [map concat]. rewrite filter_app, (Hno (ci_infos z) (i + 0)%nat j ltac:(lia) (H O z eq_refl)).
    apply (IH (S i)); [lia|]. intros k w Hk. replace (S i + k)%nat with (i + S k)%nat by lia. apply H. exact Hk. }
  induction cols as [|z l IH]; intros i j y H Hy; [destruct j; discriminate|]. cbn [map concat]. rewrite filter_app.
  assert (Ht : forall k w, nth_error l k = Some w -> Forall (fun s => st_column s = Z.of_nat (S i + k)) (ci_infos w)).
  { intros k w Hk. replace (S i + k)%nat with (i + S k)%nat by lia. apply H. exact Hk. }
  destruct j as [|j]; cbn [nth_error] in Hy.
  - assert (z = y) as -> by congruence. rewrite (Hall _ _ (H O y eq_refl)), (Hnone l (S i) (i + 0)%nat ltac:(lia) Ht). apply app_nil_r.
  - rewrite (Hno (ci_infos z) (i + 0)%nat (i + S j)%nat ltac:(lia) (H O z eq_refl)). cbn [app]. replace (i + S j)%nat with (S i + j)%nat by lia. apply IH; assumption.
Qed.

Lemma written_batches deflate inflate F o stride StripeSize schema rows file r bopt x xs : flate_ok deflate inflate ->
  written_and_opened deflate inflate F o stride StripeSize schema rows file r ->
  openBatches inflate bopt file = Ok (r, x) -> CreateBatchReader inflate unmarshalSF (RowSize bopt) file r = Ok xs -> IsInclude bopt 0 = true ->
  opened_batches inflate bopt file schema r x xs /\
  forall f t, In f xs -> In t (flatten schema) -> exists kw, writerKind (td_kind t) (td_enc t) = Ok kw /\ encoded f t = td_enc t /\
    listed f t = (if td_hasNulls t then [0] else []) ++ map fst (dataStreams kw o).
Proof.
  intros Hflate (Hcs & (t0 & Hsize & Hnorm) & (vs & Hrows & Hclosed) & Hfile & Hnrows & Hopen) Hob Hxs Hinc.
  assert (Hs32 : size t0 <= 4294967296) by exact Hsize.
  destruct (normalize_spec _ _ Hs32 Hnorm) as (_ & Hnum & Hun).
  assert (Hflat : Flat schema = Ok (flatten schema)).
  { unfold Flat. rewrite (Numbered_CheckId _ Hnum Hun), Hun. reflexivity. }
  assert (Hids := ids_flatten schema Hnum).
  assert (Hcol_of : forall j t, nth_error (flatten schema) j = Some t -> col t = j).
  { intros j t Et. pose proof (f_equal (fun l => nth_error l j) Hids) as Hq. cbv beta in Hq. rewrite (map_nth_error _ _ _ Et) in Hq.
    rewrite count_up_nth in Hq by (apply nth_error_Some; congruence). unfold col. assert (td_id t = 0 + Z.of_nat j) by congruence. lia. }
  assert (Hnumd : numbered schema).
  { exists (flatten schema). split; [exact Hflat|]. apply Forall_forall. intros u Hx. apply (nth_id schema Hnum u Hx). }
  assert (Hrw : forall q, Rows vs q -> zlen q < W64).
  { intros q Hq. rewrite (Rows_fun _ _ Hq _ Hrows). change (2 ^ 62) with 4611686018427387904 in Hnrows. lia. }
  destruct (closed_opens deflate inflate _ _ _ _ wire o StripeSize cs_hasNull (columns_contract deflate F o stride) wire_ok Hflate Hcs _ _ _ Hclosed Hfile Hrw Hnumd)
    as (schemas & cs & rows' & rss & ms & csf & fb & psb & H1 & H2 & H3 & H4 & H5 & H6 & H7 & H8 & Hbig & Hempty & Hns & Hall).
  assert (rows' = rows) as -> by (eapply Rows_fun; eassumption). assert (schemas = flatten schema) as -> by congruence. clear H1.
  cbn [wire pb_unPS pb_unFooter] in *. destruct (Hns r Hopen) as (ns & Hn).
  destruct (Z_le_gt_dec (zlen fb + zlen psb + 1) 16384) as [Hle|Hgt]; [|rewrite Hbig in Hopen by lia; discriminate].
  assert (Hne : rows <> []) by (intros ->; rewrite Hempty in Hopen by (auto; lia); discriminate).
  destruct (Hall Hle Hne ns Hn) as (r' & Hr' & R1 & R2 & R3 & R4 & R5 & R6 & R7 & R8). assert (r' = r) as -> by congruence.
  clear Hbig Hempty Hns Hall Hr' Hle R8.
  pose proof (unmarshall_nodes _ _ _ Hn) as Hnodes. pose proof (Forall2_len _ _ _ Hnodes) as Hlnodes.
  destruct (mapM_spec _ _ _ H2) as [Hlcs Hcsn].
  set (I := columns deflate F o stride) in *.
  assert (Hchain : forall t, In t (flatten schema) -> exists kw ys cf,
      writerKind (td_kind t) (td_enc t) = Ok kw /\
      Chain colW value (i_Write I) (i_Flush I) (i_Index I) (i_WriteOut I) (i_Infos I) (i_Reset I) o (newColW o (td_id t) kw (td_hasNulls t)) (map (column_of (col t)) rss) ys cf /\
      nth_error csf (col t) = Some cf /\ Forall2 (fun m y => nth_error (im_cols m) (col t) = Some y) ms ys).
  { intros t Ht. destruct (nth_id schema Hnum t Ht) as [_ Hnt]. destruct (Hcsn _ _ Hnt) as (c & Hc & Hnew).
    unfold I in Hnew. cbn [i_New columns] in Hnew. unfold NewWriter in Hnew. apply rbind_inv in Hnew. destruct Hnew as (kw & Hkw & Hnew).
    assert (c = newColW o (td_id t) kw (td_hasNulls t)) as -> by congruence.
    destruct (Stripes_Chain _ _ _ _ _ _ _ _ _ _ _ _ _ _ (col t) _ _ _ _ H5 _ Hc) as (ys & cf & E1 & E2 & E3).
    exists kw, ys, cf. auto. }
  assert (Hflag : fr_hasNulls r = map td_hasNulls (flatten schema)).
  { rewrite (newFileReader_hasNulls _ _ _ _ _ Hopen), R6, R7, <- Hlnodes.
    apply nth_ext with (d := false) (d' := false).
    { rewrite !map_length, seq_length. reflexivity. }
    intros j Hj. rewrite map_length, seq_length in Hj.
    destruct (nth_error (flatten schema) j) as [t|] eqn:Et; [|apply nth_error_None in Et; lia].
    rewrite (nth_error_nth _ _ _ (map_nth_error td_hasNulls _ _ Et)).
    assert (Hseq : nth_error (seq 0 (length (flatten schema))) j = Some j).
    { rewrite (nth_error_nth' _ O) by (rewrite seq_length; exact Hj). rewrite seq_nth by exact Hj. reflexivity. }
    rewrite (nth_error_nth _ _ _ (map_nth_error _ _ _ Hseq)).
    assert (Ht : In t (flatten schema)) by (eapply nth_error_In; exact Et).
    pose proof (Hcol_of j t Et) as Hcj.
    destruct (Hchain t Ht) as (kw & ys & cf & Hkw & Hch & Hcf & _). rewrite Hcj in Hcf.
    rewrite (map_nth_error _ _ _ Hcf). unfold I. cbn [i_Stats columns]. rewrite (chain_hasNull deflate F o stride _ _ _ _ Hch). destruct kw; reflexivity. }
  split.
  - split; [exact Hob|exact Hxs| | |exact Hinc].
    + split; [apply Numbered_id; exact Hnum|]. intros t Ht. destruct (nth_id schema Hnum t Ht) as [Hb Hnt]. split; [lia|]. split.
      * pose proof (Forall2_nth _ _ _ Hnodes (col t)) as Hnd. rewrite Hnt in Hnd. unfold col in Hnd. rewrite R6. destruct (nth_error ns (Z.to_nat (td_id t))) as [n|]; [|contradiction]. exists n. split; [reflexivity|exact Hnd].
      * rewrite Hflag. apply map_nth_error. exact Hnt.
    + split.
      * rewrite Hids. apply count_up_NoDup.
      * intros i Hi. rewrite R6, <- Hlnodes in Hi. rewrite Hids. eapply nth_error_In. rewrite count_up_nth by exact Hi. reflexivity.
  - intros f t Hf Ht. unfold CreateBatchReader in Hxs. destruct (RowSize bopt =? 0); [discriminate|].
    rewrite R2, R3 in Hxs. destruct (initStripes_nth _ _ _ _ _ _ Hxs) as [Hlx Hx]. apply In_nth_error in Hf. destruct Hf as (j & Hj).
    destruct (nth_error (directory 3 rss ms) j) as [i|] eqn:Hi. 2: { apply nth_error_None in Hi. assert (j < length xs)%nat by (apply nth_error_Some; congruence). lia. }
    destruct (Hx j i Hi) as (f' & Hf' & Hos). assert (f' = f) as -> by congruence.
    destruct (H8 j i Hi) as (m & starts & Hm & Hos' & Hfst & _). unfold wire in Hos'. cbn [pb_unSF] in Hos'.
    assert (f = (map td_enc (flatten schema), starts)) as -> by congruence.
    destruct (nth_id schema Hnum t Ht) as [Hb Hnt].
    assert (Hcolim : forall u, In u (flatten schema) -> exists kw y, writerKind (td_kind u) (td_enc u) = Ok kw /\ nth_error (im_cols m) (col u) = Some y /\
      Forall (fun s => st_column s = td_id u) (ci_infos y) /\ map st_kind (ci_infos y) = (if td_hasNulls u then [0] else []) ++ map fst (dataStreams kw o)).
    { intros u Hu. destruct (Hchain u Hu) as (kw & ys & cf & Hkw & Hch & Hcf & Hys). pose proof (Forall2_nth _ _ _ Hys j) as Hy. rewrite Hm in Hy. destruct (nth_error ys j) as [y|] eqn:Ey; [|contradiction].
      exists kw, y. split; [exact Hkw|]. split; [exact Hy|]. split.
      - pose proof (chain_id deflate F o stride _ _ _ _ Hch) as Hci. rewrite Forall_forall in Hci. apply (Hci y). eapply nth_error_In. exact Ey.
      - pose proof (chain_names deflate F o stride _ _ _ _ Hch) as Hci. rewrite Forall_forall in Hci. rewrite <- (new_names o (td_id u)). apply Hci. eapply nth_error_In. exact Ey. }
    destruct (Hcolim t Ht) as (kw & y & Hkw & Hy & _ & Hk). exists kw. split; [exact Hkw|]. split.
    + unfold encoded. cbn [fst]. apply (nth_error_nth (map td_enc (flatten schema)) (Z.to_nat (td_id t)) 0 (map_nth_error td_enc _ _ Hnt)).
    + rewrite <- Hk. unfold listed, kinds_listed. cbn [snd]. rewrite <- (infos_filter (im_cols m) 0 (col t) y); [|clear - Hcolim H5 Hlcs Hm Hcol_of Hnum|exact Hy].
      * change (concat (map ci_infos (im_cols m))) with (im_infos m). rewrite <- Hfst. rewrite <- (map_map fst st_kind). f_equal. cbn [Nat.add].
        assert (Hk6 : Forall (fun s : strm * Z => st_kind (fst s) <> 6) starts).
        { destruct (columns_in_range _ _ _ _ (columns_contract deflate F o stride) _ _ _ Hflat H2 Hnumd) as [_ Hrng].
          destruct (columns_contract deflate F o stride) as (_ & Hid & _). pose proof wire_ok as (P1 & _).
          destruct (Stripes_readable deflate inflate _ _ _ (i_Write I) (i_Size I) (i_Flush I) (i_Index I) (i_WriteOut I)
                (i_Infos I) (i_Stats I) (i_Reset I) (i_of I) cs_hasNull (pb_SF wire) (pb_unSF wire) (pb_unFooter wire) (pb_unPS wire)
                o StripeSize Hid Hflate Hcs P1 _ _ _ _ _ H5 Hrng) as [Hrd _].
          rewrite Forall_forall in Hrd. destruct (Hrd m (nth_error_In _ _ Hm)) as (_ & Hk6 & _). rewrite <- Hfst in Hk6.
          rewrite Forall_forall in Hk6 |- *. intros s Hs. apply (Hk6 (fst s)). apply in_map. exact Hs. }
        clear - Hk6. induction Hk6 as [|s l Hs _ IH]; [reflexivity|]. cbn [map filter]. unfold of_column at 1, col. replace (st_kind (fst s) =? 6) with false by lia. cbn [negb]. rewrite andb_true_r.
        destruct (Z.to_nat (st_column (fst s)) =? Z.to_nat (td_id t))%nat; cbn [map]; rewrite IH; reflexivity.
      * intros k z Hz. pose proof (Stripes_images _ _ _ _ _ _ _ _ _ _ _ _ _ _ _ _ _ _ H5) as Him. rewrite Forall_forall in Him.
        destruct (Him m (nth_error_In _ _ Hm)) as [Hl _]. rewrite Hlcs in Hl. destruct (nth_error (flatten schema) k) as [u|] eqn:Eu.
        2: { apply nth_error_None in Eu. assert (k < length (im_cols m))%nat; [apply nth_error_Some; congruence|lia]. }
        destruct (Hcolim u (nth_error_In _ _ Eu)) as (_ & z' & _ & Hz' & Hid & _). rewrite (Hcol_of k u Eu) in Hz'. assert (z' = z) as -> by congruence.
        rewrite Forall_forall in *. intros s Hs. rewrite (Hid s Hs). pose proof (Hcol_of k u Eu) as Hc. unfold col in Hc.
        destruct (nth_id schema Hnum u (nth_error_In _ _ Eu)) as [Hb _]. lia.
Qed.

Lemma written_closes deflate inflate F o stride StripeSize schema rows file r bopt x y : flate_ok deflate inflate ->
  written_and_opened deflate inflate F o stride StripeSize schema rows file r ->
  openBatches inflate bopt file = Ok (r, x) -> IsInclude bopt 0 = true -> Later inflate r x y ->
  batch_Close y = Ok (batchClones inflate bopt file).
Proof.
  intros Hflate Hw Hob Hinc Hl. assert (Hxs : exists xs, CreateBatchReader inflate unmarshalSF (RowSize bopt) file r = Ok xs).
  { pose proof Hob as H. apply openBatches_ok in H. apply rbind_inv in H. destruct H as (r' & _ & H). apply rbind_inv in H. destruct H as (xs & Ex & H). apply rbind_inv in H. destruct H as (ss & _ & H).
    assert (r' = r) as -> by congruence. exists xs. exact Ex. }
  destruct Hxs as (xs & Hxs). destruct (written_batches _ _ _ _ _ _ _ _ _ _ _ _ _ Hflate Hw Hob Hxs Hinc) as [H Hf].
  apply (proj2 (batch_bnd _ _ _ _ _ _ _ H y Hl)). apply Forall_forall. intros f Hin. eapply plain; [exact H|]. intros t Ht _.
  destruct (Hf f t Hin Ht) as (kw & Hkw & -> & ->). exact (new_listed o _ _ _ (td_hasNulls t) Hkw).
Qed.
