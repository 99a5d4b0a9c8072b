(** One column through all stripes of a file. *)
From Coq Require Import ZifyBool ZifyNat.
From Verif.Model Require Import Go Codec ByteBool IntRle Chunk Stream Schema Rows Time File Column Wire Assembled.
From Verif.Spec Require Import BoolSpec Session StreamSpec ChunkSpec SchemaSpec FileSpec ColumnSpec AssemblySpec EndSpec.
From Verif.Proofs Require Import Base SessionP ByteBoolP ReadP FileP ColumnP ColumnReadP StatsP AssembledP.

(** ** The stripes seen from column [k] *)
Section Chain.
Variable deflate : list (list Z) -> list Z -> res (list Z).
Variables C V : Type.
Variable cw_Write : C -> V -> res C.
Variable cw_Size : C -> Z.
Variable cw_Flush : C -> res C.
Variable cw_Index : C -> res (list Z).
Variable cw_WriteOut : C -> res (list Z * Z * C).
Variable cw_Infos : C -> list strm.
Variable cw_Reset : C -> res C.
Variable marshalSF : stripeFooter -> res (list Z).
Variable o : opts.
Variable StripeSize : Z.
Notation CImage := (ColumnImage C V cw_Write cw_Flush cw_Index cw_WriteOut cw_Infos o).
Notation SImage := (StripeImage deflate C V cw_Write cw_Flush cw_Index cw_WriteOut cw_Infos marshalSF o).
Notation Strs := (Stripes deflate C V cw_Write cw_Size cw_Flush cw_Index cw_WriteOut cw_Infos cw_Reset marshalSF o StripeSize).
Notation Imgs := (Images deflate C V cw_Write cw_Flush cw_Index cw_WriteOut cw_Infos cw_Reset marshalSF o).

Inductive Chain : C -> list (list V) -> list colimage -> C -> Prop :=
| ChainLast c vs x c' : CImage c vs x c' -> Chain c [vs] [x] c'
| ChainMore c vs x c1 c2 vss xs cf : CImage c vs x c1 -> cw_Reset c1 = Ok c2 ->
    Chain c2 vss xs cf -> Chain c (vs :: vss) (x :: xs) cf.

Lemma Images_Chain encs k cs rss ms csf : Imgs encs cs rss ms csf -> forall c, nth_error cs k = Some c ->
  exists xs cf, Chain c (map (column_of k) rss) xs cf /\ nth_error csf k = Some cf /\
    Forall2 (fun m x => nth_error (im_cols m) k = Some x) ms xs.
Proof.
  intros H. induction H as [cs rows m cs' H|cs rows m cs' cs'' rss ms csf H Hr _ IH]; intros c Hc.
  - destruct H as (_ & _ & _ & Hk & _). destruct (Hk k c Hc) as (x & c' & Hx & Hc' & Hi).
    exists [x], c'. split; [constructor; exact Hi|]. split; [exact Hc'|]. repeat constructor. exact Hx.
  - destruct H as (_ & _ & _ & Hk & _). destruct (Hk k c Hc) as (x & c1 & Hx & Hc1 & Hi).
    destruct (mapM_spec _ _ _ Hr) as [_ Hr']. destruct (Hr' k c1 Hc1) as (c2 & Hc2 & Hres).
    destruct (IH c2 Hc2) as (xs & cf & H1 & H2 & H3). exists (x :: xs), cf.
    split; [econstructor; eassumption|]. split; [exact H2|]. constructor; assumption.
Qed.
Lemma Stripes_Chain encs k cs rss ms csf : Strs encs cs rss ms csf -> forall c, nth_error cs k = Some c ->
  exists xs cf, Chain c (map (column_of k) rss) xs cf /\ nth_error csf k = Some cf /\
    Forall2 (fun m x => nth_error (im_cols m) k = Some x) ms xs.
Proof. intros H. apply Images_Chain with (encs := encs) (cs := cs). eapply Stripes_Images. exact H. Qed.
End Chain.

(** ** The concrete columns *)
Section Columns.
Variable deflate : list (list Z) -> list Z -> res (list Z).
Variable inflate : list Z -> res (list Z).
Variable F : floats.
Variable o : opts.
Variable stride : Z.
Notation I := (columns deflate F o stride).
Notation CImage := (ColumnImage colW value (i_Write I) (i_Flush I) (i_Index I) (i_WriteOut I) (i_Infos I) o).
Notation CChain := (Chain colW value (i_Write I) (i_Flush I) (i_Index I) (i_WriteOut I) (i_Infos I) (i_Reset I) o).

Lemma writeVals_rows vs : forall c, writeVals (i_Write I) c vs = writeRows deflate F o stride c vs.
Proof. induction vs as [|v t IH]; intros c; [reflexivity|]. cbn. destruct (c_Write _ _ _ _ _ _); cbn; auto. Qed.
Lemma image_writes c vs x c' : CImage c vs x c' ->
  writeColumn deflate F o stride c vs = Ok (concat (ci_streams x), ci_infos x, c').
Proof.
  intros (c1 & c2 & Hw & Hf & _ & (n & Ho) & Hi & _). rewrite writeVals_rows in Hw. unfold writeColumn. rewrite Hw. cbn [rbind].
  cbn in Hf, Ho, Hi. rewrite Hf. cbn [rbind]. rewrite Ho. cbn [rbind]. rewrite Hi. reflexivity.
Qed.

(** HasNull of the statistics is what the writer was created with. *)
Lemma addStats_hasNull k g st st' : addStats F k g st = Ok st' -> cs_hasNull st' = cs_hasNull st.
Proof.
  unfold addStats. destruct (cs_detail st); [|discriminate]. intros H. apply rbind_inv in H. destruct H as (x & _ & H).
  match type of H with Ok ?x = _ => assert (st' = x) as -> by congruence end. reflexivity.
Qed.
Lemma c_Write_hasNull c v c' : c_Write deflate F o stride c v = Ok c' -> cs_hasNull (cw_stats c') = cs_hasNull (cw_stats c).
Proof.
  unfold c_Write. intros H. destruct (isKStruct (cw_kind c) && negb (hasNulls c)); [congruence|].
  apply rbind_inv in H. destruct H as (p & _ & H). apply rbind_inv in H. destruct H as (d & _ & H).
  apply rbind_inv in H. destruct H as (st & Hst & H).
  assert (Hs : cs_hasNull st = cs_hasNull (cw_stats c)).
  { destruct (Null v).
    - match type of Hst with Ok ?x = _ => assert (st = x) as -> by congruence end. destruct (isKStruct (cw_kind c)); reflexivity.
    - eapply addStats_hasNull. exact Hst. }
  destruct (WriteIndex o && indexes (cw_kind c) (Null v)).
  - apply indexStep_same in H. destruct H as (_ & _ & _ & _ & _ & ->). exact Hs.
  - match type of H with Ok ?x = _ => assert (c' = x) as -> by congruence end. exact Hs.
Qed.
Lemma writeRows_hasNull vs : forall c c', writeRows deflate F o stride c vs = Ok c' ->
  cs_hasNull (cw_stats c') = cs_hasNull (cw_stats c).
Proof.
  induction vs as [|v t IH]; intros c c' H; cbn [writeRows] in H; [congruence|].
  apply rbind_inv in H. destruct H as (c1 & H1 & H). rewrite (IH _ _ H). eapply c_Write_hasNull. exact H1.
Qed.
Lemma c_Flush_hasNull c c' : c_Flush deflate o c = Ok c' -> cs_hasNull (cw_stats c') = cs_hasNull (cw_stats c).
Proof.
  unfold c_Flush. intros H. apply rbind_inv in H. destruct H as (d0 & _ & H). apply rbind_inv in H. destruct H as (p & _ & H).
  apply rbind_inv in H. destruct H as (d & _ & H). match type of H with Ok ?x = _ => assert (c' = x) as -> by congruence end. reflexivity.
Qed.
Lemma c_WriteOut_stats c b n c' : c_WriteOut o c = Ok (b, n, c') -> cw_stats c' = cw_stats c.
Proof.
  unfold c_WriteOut. destruct (checksFlushed (cw_kind c) && negb (cw_flushed c)); [discriminate|]. intros H.
  match type of H with Ok (_, _, ?z) = _ => assert (c' = z) as -> by congruence end. reflexivity.
Qed.
Lemma c_Reset_stats c c' : c_Reset o c = Ok c' -> cw_stats c' = cw_stats c.
Proof.
  unfold c_Reset. intros H. apply rbind_inv in H. destruct H as (p & _ & H). apply rbind_inv in H. destruct H as (d & _ & H).
  match type of H with Ok ?x = _ => assert (c' = x) as -> by congruence end. reflexivity.
Qed.
Lemma image_hasNull c vs x c' : CImage c vs x c' -> cs_hasNull (cw_stats c') = cs_hasNull (cw_stats c).
Proof.
  intros (c1 & c2 & Hw & Hf & _ & (n & Hwo) & _). rewrite writeVals_rows in Hw. cbn in Hf, Hwo.
  rewrite (c_WriteOut_stats _ _ _ _ Hwo), (c_Flush_hasNull _ _ Hf). eapply writeRows_hasNull. exact Hw.
Qed.
Lemma chain_hasNull c vss xs cf : CChain c vss xs cf -> cs_hasNull (cw_stats cf) = cs_hasNull (cw_stats c).
Proof.
  induction 1 as [c vs x c' H|c vs x c1 c2 vss xs cf H Hr _ IH]; [eapply image_hasNull; exact H|].
  rewrite IH, (c_Reset_stats _ _ Hr). eapply image_hasNull; exact H.
Qed.

Lemma writeRows_id vs : forall c c', writeRows deflate F o stride c vs = Ok c' -> cw_id c' = cw_id c.
Proof.
  induction vs as [|v t IH]; intros c c' H; cbn [writeRows] in H; [congruence|].
  apply rbind_inv in H. destruct H as (c1 & H1 & H). rewrite (IH _ _ H). apply c_Write_kinds in H1. apply H1.
Qed.
Lemma image_id c vs x c' : CImage c vs x c' -> cw_id c' = cw_id c /\ Forall (fun s => st_column s = cw_id c) (ci_infos x).
Proof.
  intros (c1 & c2 & Hw & Hf & _ & (n & Hwo) & Hi & _). rewrite writeVals_rows in Hw. cbn in Hf, Hwo, Hi.
  apply writeRows_id in Hw. apply c_Flush_kinds in Hf. apply c_WriteOut_kinds in Hwo.
  assert (E : cw_id c' = cw_id c) by (destruct Hf, Hwo; congruence). split; [exact E|].
  rewrite <- Hi, c_Infos_streams. apply Forall_map. apply Forall_forall. intros q _. cbn [info st_column]. exact E.
Qed.
Lemma chain_id c vss xs cf : CChain c vss xs cf ->
  Forall (fun x => Forall (fun s => st_column s = cw_id c) (ci_infos x)) xs.
Proof.
  induction 1 as [c vs x c' H|c vs x c1 c2 vss xs cf H Hr _ IH]; apply image_id in H; destruct H as [H1 H2].
  - repeat constructor. exact H2.
  - constructor; [exact H2|]. apply c_Reset_kinds in Hr. replace (cw_id c) with (cw_id c2) by (destruct Hr; congruence). exact IH.
Qed.

(** What a reader of a column gives in one stripe: the rows, or the values, or for a
    struct the presence bits. *)
Definition colReads (k : ckind) (h : bool) (vs : list value) (r : colR) : Prop :=
  cr_kind r = k /\
  match k with
  | KStruct => if h then exists p, cr_present r = Some p /\ Yields (bool_Next inflate o) p (bitsOf vs)
               else cr_present r = None
  | _ => if h then cr_present r <> None /\ Yields (rowNext inflate o) r (rows_of vs)
         else cr_present r = None /\ Yields (fun c => nextValue inflate o c GNil) r (nonnull (rows_of vs))
  end.
Definition opens (k : ckind) (h : bool) (vs : list value) (x : colimage) : Prop :=
  forall pre post, zlen (pre ++ concat (ci_streams x) ++ post) < W64 ->
    exists r, InitStreams (pre ++ concat (ci_streams x) ++ post) (newColR k h) (offsets (zlen pre) (ci_infos x)) = Ok r /\
      colReads k h vs r.

Hypothesis Ho : supported o.
Hypothesis Hok : flate_ok deflate inflate.
Notation leaf := readable.

Lemma leaf_opens k h vs file its offs : leaf k = true ->
  Forall (typed k) (nonnull (rows_of vs)) -> carried k (nonnull (rows_of vs)) ->
  Fits its (planned o k h) -> presentStale h its = [] -> dataStale h its = [] ->
  Served inflate o file its offs (insAll h k vs) ->
  exists r, InitStreams file (newColR k h) offs = Ok r /\ colReads k h vs r.
Proof.
  intros Hl Hty Hca Hf Hsp Hsd Hs. unfold colReads. destruct h.
  - destruct (column_rows inflate o k true vs file its offs Hl Hty Hca Hf Hs) as (r & Hr & Hk & Hp & Hy).
    exists r. split; [exact Hr|]. split; [exact Hk|]. rewrite Hsp, Hsd in Hy.
    destruct (rowsBack_fresh k true vs Hty ltac:(discriminate)) as (q & Hq). rewrite Hq in Hy. apply Yields_prefix in Hy.
    destruct k; try discriminate; (split; [|exact Hy]; intros E; apply Hp in E; discriminate).
  - destruct (data_yields inflate o k (nonnull (rows_of vs)) file (newColR k false) its offs Hl eq_refl Hty Hca Hf) as (r & Hr & Hk & Hp & _ & _ & Hyv).
    { eapply Served_ext; [|exact Hs]. intros i. apply insAll_false. }
    exists r. split; [exact Hr|]. split; [exact Hk|]. unfold dataStale, dataItems, firstStale in Hsd. rewrite Hsd in Hyv.
    destruct (back_fresh k _ Hty) as (l & Hb). rewrite Hb in Hyv. apply Yields_prefix in Hyv.
    destruct k; try discriminate; (split; [rewrite Hp; reflexivity|exact Hyv]).
Qed.

(** What the values must satisfy, see [storable]. *)
Definition segs_ok (k : ckind) (h : bool) (vss : list (list value)) : Prop :=
  (leaf k = true -> Forall (fun vs => Forall (typed k) (nonnull (rows_of vs)) /\ carried k (nonnull (rows_of vs))) vss) /\
  (h = true -> Forall whole8 (removelast vss)) /\
  (k = KBool -> Forall (fun vs => whole8 (nonnull (rows_of vs))) (removelast vss)).
Lemma segs_ok_tail k h vs vs2 vss : segs_ok k h (vs :: vs2 :: vss) ->
  segs_ok k h (vs2 :: vss) /\ (h = true -> whole8 vs) /\ (k = KBool -> whole8 (nonnull (rows_of vs))).
Proof.
  intros (H1 & H2 & H3). split; [split; [|split]|split].
  - intros E. specialize (H1 E). inversion H1; assumption.
  - intros E. specialize (H2 E). inversion H2; assumption.
  - intros E. specialize (H3 E). inversion H3; assumption.
  - intros E. specialize (H2 E). inversion H2; assumption.
  - intros E. specialize (H3 E). inversion H3; assumption.
Qed.
Lemma chain_nonempty c vss xs cf : CChain c vss xs cf -> vss <> [].
Proof. destruct 1; discriminate. Qed.

Lemma chain_leaf vss xs cf c : CChain c vss xs cf -> forall its, Clean o c its ->
  leaf (cw_kind c) = true -> presentStale (hasNulls c) its = [] -> dataStale (hasNulls c) its = [] ->
  segs_ok (cw_kind c) (hasNulls c) vss ->
  Forall2 (opens (cw_kind c) (hasNulls c)) vss xs.
Proof.
  assert (Hone : forall c vs x c' its, CImage c vs x c' -> Clean o c its -> leaf (cw_kind c) = true ->
    presentStale (hasNulls c) its = [] -> dataStale (hasNulls c) its = [] ->
    Forall (typed (cw_kind c)) (nonnull (rows_of vs)) /\ carried (cw_kind c) (nonnull (rows_of vs)) ->
    opens (cw_kind c) (hasNulls c) vs x).
  { intros c0 vs x c' its H Hc Hl Hsp Hsd [Hty Hca] pre post Hlen. apply image_writes in H.
    destruct (column_stripe deflate inflate o Ho Hok F stride c0 its vs _ _ _ Hc Hl Hty H) as (Hs & _).
    destruct Hc as [_ Hf]. eapply leaf_opens; eauto. }
  induction 1 as [c vs x c' H|c vs x c1 c2 vss xs cf H Hr Hc2 IH]; intros its Hc Hl Hsp Hsd Hok'.
  - constructor; [|constructor]. eapply Hone; eauto. destruct Hok' as (H1 & _). specialize (H1 Hl). inversion H1; assumption.
  - assert (Hty : Forall (typed (cw_kind c)) (nonnull (rows_of vs)) /\ carried (cw_kind c) (nonnull (rows_of vs))).
    { destruct Hok' as (H1 & _). specialize (H1 Hl). inversion H1; assumption. }
    constructor; [eapply Hone; eauto|].
    destruct vss as [|v2 vss]; [exfalso; apply chain_nonempty in Hc2; congruence|].
    destruct (segs_ok_tail _ _ _ _ _ Hok') as (Hok2 & Hw1 & Hw2).
    apply image_writes in H. destruct (column_stripe deflate inflate o Ho Hok F stride c its vs _ _ _ Hc Hl (proj1 Hty) H) as (_ & _ & _ & Hn).
    destruct (Hn c2 Hr) as (its' & HC & HK & HN & _ & HP & HD). rewrite <- HK, <- HN. apply (IH its').
    + exact HC.
    + rewrite HK. exact Hl.
    + rewrite HN, HP. destruct (hasNulls c); [|reflexivity]. rewrite Hsp. apply next_stale_whole. unfold whole8, bitsOf in *. rewrite map_length. apply Hw1. reflexivity.
    + rewrite HN, HD, Hsd. destruct (cw_kind c); try reflexivity. apply next_stale_whole. unfold whole8 in *. rewrite map_length. apply Hw2. reflexivity.
    + rewrite HK, HN. exact Hok2.
Qed.

(** Struct columns: PRESENT or nothing. *)
Lemma struct_inactive c vs : cw_kind c = KStruct -> hasNulls c = false -> writeRows deflate F o stride c vs = Ok c.
Proof.
  intros Hk Hn. induction vs as [|v t IH]; [reflexivity|]. cbn [writeRows]. unfold c_Write. rewrite Hk, Hn. cbn [isKStruct andb negb rbind]. exact IH.
Qed.
Lemma chain_plain_struct vss xs cf c : CChain c vss xs cf -> cw_kind c = KStruct -> hasNulls c = false -> streams c = [] ->
  Forall2 (opens KStruct false) vss xs.
Proof.
  assert (Hone : forall c vs x c', CImage c vs x c' -> cw_kind c = KStruct -> hasNulls c = false -> streams c = [] ->
    opens KStruct false vs x /\ cw_kind c' = KStruct /\ hasNulls c' = false /\ streams c' = []).
  { intros c0 vs x c' H Hk Hn Hs. destruct H as (c1 & c2 & Hw & Hf & _ & (n & Hwo) & Hi & _).
    rewrite writeVals_rows, struct_inactive in Hw by assumption. assert (c1 = c0) as -> by congruence. cbn in Hf, Hwo, Hi.
    destruct (c_Flush_streams deflate o c0 c2 ltac:(congruence) Hf) as (_ & Hk2 & Hn2 & _ & Hflu).
    destruct (c_WriteOut_streams o c2 _ n c' Hwo) as (_ & _ & _ & Hk3 & Hn3 & Hst3).
    rewrite Hs in Hflu. destruct (streams c2); [|contradiction]. split; [|split; [congruence|split; [congruence|exact Hst3]]].
    intros pre post _. rewrite <- Hi, c_Infos_streams, Hst3. cbn [map offsets InitStreams]. eexists. split; [reflexivity|].
    split; reflexivity. }
  induction 1 as [c vs x c' H|c vs x c1 c2 vss xs cf H Hr Hc2 IH]; intros Hk Hn Hs;
    destruct (Hone _ _ _ _ H Hk Hn Hs) as (H1 & H2 & H3 & H4).
  - constructor; [exact H1|constructor].
  - constructor; [exact H1|]. destruct (c_Reset_streams o c1 c2 Hr) as (_ & Hk4 & Hn4 & Hst4). apply IH; try congruence.
    rewrite Hst4, H4. reflexivity.
Qed.

Lemma chain_struct vss xs cf c : CChain c vss xs cf -> forall it, cw_kind c = KStruct -> hasNulls c = true ->
  streams c = [(it_kind it, newWriter (it_enc it))] -> Fits [it] (planned o KStruct true) -> it_stale it = [] ->
  Forall whole8 (removelast vss) -> Forall2 (opens KStruct true) vss xs.
Proof.
  assert (Hone : forall c vs x c' it, CImage c vs x c' -> cw_kind c = KStruct -> hasNulls c = true ->
    streams c = [(it_kind it, newWriter (it_enc it))] -> Fits [it] (planned o KStruct true) -> it_stale it = [] ->
    opens KStruct true vs x /\ cw_kind c' = KStruct /\ hasNulls c' = true /\
    exists it', map (fun q => (fst q, newWriter (w_enc (snd q)))) (streams c') = [(it_kind it', newWriter (it_enc it'))] /\
      Fits [it'] (planned o KStruct true) /\ it_stale it' = next_stale [] (bitsOf vs)).
  { intros c0 vs x c' it H Hk Hn Hst Hf Hsp. pose proof (image_writes _ _ _ _ H) as Hw. destruct H as (c1 & c2 & Hwv & Hfl & _ & (n & Hwo) & Hi & _).
    split.
    - intros pre post Hlen.
      pose proof (column_served deflate inflate o Ho Hok F stride c0 [it] vs (concat (ci_streams x)) (ci_infos x) c' Hst) as Hs.
      rewrite Hk, Hn in Hs. specialize (Hs eq_refl ltac:(discriminate) Hw pre post Hlen).
      inversion Hf as [|it0 p0 its' pl' [Hk0 Hf0] Hf']; subst it0 p0 its' pl'. cbn [fst snd] in *.
      destruct (offsets (zlen pre) (ci_infos x)) as [|[s0 off0] offs]; cbn [Served] in Hs; try contradiction.
      destruct Hs as (Hsk & (e0 & b0 & Hseg & Hsv) & Hs). destruct offs; [|contradiction].
      destruct (it_enc it) as [be|boe|ie| | | |] eqn:Hie; cbn [Fresh] in Hf0; try contradiction. destruct Hf0 as [Hbi Hbv].
      rewrite insAll_present, seg_bool in Hseg.
      destruct (segment bool_Encode bool_Flush boe (bitsOf vs)) as [[e1 b1]| |] eqn:Eseg; cbn in Hseg; try discriminate.
      assert (b1 = b0) as -> by congruence.
      pose proof (bits_yields inflate o _ _ boe e1 b0 _ Hbi Hbv Eseg Hsv) as Hy. rewrite Hsp in Hy.
      destruct (stored_fresh (bitsOf vs)) as (l & El). rewrite El in Hy. apply Yields_prefix in Hy.
      cbn [InitStreams]. unfold InitStream. rewrite Hsk, Hk0, Z.eqb_refl. cbn [newColR cr_kind cr_hasNulls rbind].
      eexists. split; [reflexivity|]. split; [reflexivity|]. eexists. split; [reflexivity|]. exact Hy.
    - rewrite writeVals_rows in Hwv. cbn in Hfl, Hwo, Hi.
      destruct (writeRows_streams deflate F o stride vs c0 c1) as (_ & Hk1 & Hn1 & Hfed); [rewrite Hk, Hn; reflexivity|exact Hwv|].
      destruct (c_Flush_streams deflate o c1 c2 ltac:(congruence) Hfl) as (_ & Hk2 & Hn2 & _ & Hflu).
      destruct (c_WriteOut_streams o c2 _ n c' Hwo) as (_ & _ & _ & Hk3 & Hn3 & Hst3).
      split; [congruence|]. split; [congruence|]. rewrite Hst in Hfed.
      pose proof (Fed_Flushed_Done deflate o [it] _ _ _ Hfed Hflu) as Hd. rewrite Hk, Hn in Hd.
      destruct (Done_next deflate inflate o Ho Hok [it] (planned o KStruct true) (streams c2) (insAll true KStruct vs) Hd Hf) as [Hf' Hm'].
      { intros i it' Hi'. destruct i; [|destruct i; discriminate]. assert (it' = it) as -> by (cbn in Hi'; congruence). apply is_bytes_all. rewrite insAll_present.
        apply Forall_map. apply Forall_forall. intros; exact Logic.I. }
      cbn [Done] in Hd. destruct (streams c2) as [|[k2 w2] [|? ?]] eqn:Es2; cbn [Done] in Hd; try tauto.
      cbn [nextItems] in Hf', Hm'. eexists. split; [|split; [exact Hf'|]].
      + rewrite Hst3, map_map. cbn [map fst snd]. rewrite drained_enc. cbn [map fst snd] in Hm'. symmetry. exact Hm'.
      + cbn [nextItem it_stale]. inversion Hf as [|it0 p0 its' pl' [Hk0 Hf0] _]; subst it0 p0 its' pl'. cbn [fst snd] in *.
        destruct (it_enc it) eqn:Hie; cbn [Fresh] in Hf0; try contradiction. cbn [staleAfter]. rewrite insAll_present, map_map, Hsp. cbn [bool_of]. rewrite map_id. reflexivity. }
  induction 1 as [c vs x c' H|c vs x c1 c2 vss xs cf H Hr Hc2 IH]; intros it Hk Hn Hs Hf Hsp Hw8;
    destruct (Hone _ _ _ _ it H Hk Hn Hs Hf Hsp) as (H1 & H2 & H3 & it' & H4 & H5 & H6).
  - constructor; [exact H1|constructor].
  - constructor; [exact H1|]. destruct (c_Reset_streams o c1 c2 Hr) as (_ & Hk4 & Hn4 & Hst4).
    destruct vss as [|v2 vss]; [exfalso; apply chain_nonempty in Hc2; congruence|]. inversion Hw8 as [|? ? Hw Hw8']; subst.
    apply (IH it'); [congruence|congruence|congruence|exact H5| |exact Hw8'].
    rewrite H6. apply next_stale_whole. unfold whole8, bitsOf in *. rewrite map_length. exact Hw.
Qed.

(** A column created for the file. *)
Theorem chain_opens id k h vss xs cf : CChain (newColW o id k h) vss xs cf -> leaf k = true \/ k = KStruct ->
  segs_ok k h vss -> Forall2 (opens k h) vss xs.
Proof.
  intros Hc Hk Hs. assert (Hh : hasNulls (newColW o id k h) = h) by (destruct h; reflexivity). destruct Hk as [Hk| ->].
  - destruct (Clean_new o id k h Hk) as (its & HC & HP & HD).
    pose proof (chain_leaf _ _ _ _ Hc its HC Hk) as H. rewrite Hh in H. apply H; assumption.
  - destruct h.
    + destruct Hs as (_ & Hw & _).
      apply (chain_struct _ _ _ _ Hc {| it_kind := sPRESENT; it_enc := EBool (NewBoolEncoder (WriteIndex o)); it_stale := [] |}); auto.
      constructor; [|constructor]. split; [reflexivity|]. cbn [snd it_enc it_stale Fresh]. split; [apply bool_New_inv|reflexivity].
    + apply (chain_plain_struct _ _ _ _ Hc); reflexivity.
Qed.
End Columns.
