(** Writing a column does not fail: values of the column's type, which the integer codec
    carries, are always accepted. *)
From Coq Require Import ZifyBool ZifyNat.
From Verif.Model Require Import Go Codec ByteBool IntRle Chunk Stream Time File Column.
From Verif.Spec Require Import BoolSpec Session StreamSpec ChunkSpec ColumnSpec.
From Verif.Proofs Require Import Base CodecP SessionP ByteBoolP OrcIntP StreamP StreamClaimsP IntBytesP ReadP TimeP CodecClaimsP ColumnP ColumnReadP.

Lemma segment_app (e : enc) a b e' o : segment encode encFlush e (a ++ b) = Ok (e', o) ->
  exists e1 o1 o2, feed encode e a = Ok (e1, o1) /\ segment encode encFlush e1 b = Ok (e', o2).
Proof.
  revert e o. induction a as [|x t IH]; intros e o H.
  - exists e, [], o. split; [reflexivity|exact H].
  - unfold segment in H. cbn [app feed] in H. apply rbind_inv in H. destruct H as ([e1 o1] & H1 & H).
    apply rbind_inv in H1. destruct H1 as ([e2 o2] & H2 & H1). apply rbind_inv in H1. destruct H1 as ([e3 o3] & H3 & H1).
    assert (e3 = e1) as -> by congruence. apply rbind_inv in H. destruct H as ([e4 o4] & H4 & H). assert (e4 = e') as -> by congruence.
    destruct (IH e2 (o3 ++ o4)) as (e5 & o5 & o6 & H5 & H6).
    { unfold segment. rewrite H3. cbn [rbind]. rewrite H4. reflexivity. }
    cbn [feed]. rewrite H2. cbn [rbind]. rewrite H5. cbn [rbind]. eauto.
Qed.

(** ** Statistics keep their shape *)
Definition shape (k : ckind) (d : detail) : Prop :=
  match k, d with
  | KShort, DInt _ _ _ | KInt, DInt _ _ _ | KLong, DInt _ _ _ | KFloat, DDouble _ _ _ | KDouble, DDouble _ _ _
  | KString, DString _ _ _ _ _ | KBool, DBucket _ | KDate, DDate _ _ | KByte, DBinary _ => True
  | _, _ => False
  end.
Lemma shape_new k : readable k = true -> shape k (newDetail k).
Proof. destruct k; try discriminate; intros; exact I. Qed.
Lemma addDetail_total F k g d : typed k g -> shape k d -> exists d', addDetail F k g d = Ok d' /\ shape k d'.
Proof.
  intros Hg Hd. destruct k; cbn [typed] in Hg; try contradiction; destruct g; try contradiction;
    destruct d; cbn [shape] in Hd; try contradiction; cbn [addDetail]; eexists; (split; [reflexivity|]); try exact I.
  cbn [addString]. destruct (1024 <=? zlen s); exact I.
Qed.
Definition statsOk (k : ckind) (s : colstats) : Prop := exists d, cs_detail s = Some d /\ shape k d.
Lemma addStats_total F k g s : typed k g -> statsOk k s -> exists s', addStats F k g s = Ok s' /\ statsOk k s'.
Proof.
  intros Hg (d & Hd & Hs). unfold addStats. rewrite Hd. destruct (addDetail_total F k g d Hg Hs) as (d' & -> & Hs').
  eexists. split; [reflexivity|]. exists d'. split; [reflexivity|exact Hs'].
Qed.
Lemma addIndexStats_total F k g s : typed k g -> k <> KFloat -> statsOk k s ->
  exists s', addIndexStats F k g s = Ok s' /\ statsOk k s'.
Proof.
  intros Hg Hk (d & Hd & Hs). unfold addIndexStats. rewrite Hd.
  assert (H : exists d', addIndexDetail F k g (Some d) = Ok (Some d') /\ shape k d').
  { destruct (addDetail_total F k g d Hg Hs) as (d' & He & Hs').
    destruct k; cbn [typed] in Hg; try contradiction; try congruence; destruct g; try contradiction;
      destruct d; cbn [shape] in Hs; try contradiction; cbn [addIndexDetail];
      try (rewrite He; cbn [rbind]; eexists; split; [reflexivity|assumption]);
      eexists; split; try reflexivity; exact I. }
  destruct H as (d' & -> & Hs'). eexists. split; [reflexivity|]. exists d'. split; [reflexivity|exact Hs'].
Qed.

Section Total.
Variable deflate : list (list Z) -> list Z -> res (list Z).
Variable o : opts.
Hypothesis Ho : supported o.
Hypothesis Htot : flate_total deflate.
Variable F : floats.
Variable stride : Z.

(** Every stream accepts what is to come. *)
Fixpoint Feedable (ss : list (Z * writer enc)) (ins : nat -> list gval) : Prop :=
  match ss with
  | [] => True
  | (_, w) :: r => (exists e b, segment encode encFlush (w_enc w) (ins O) = Ok (e, b)) /\ Feedable r (fun i => ins (S i))
  end.
Lemma Feedable_ext ss : forall a b, (forall i, a i = b i) -> Feedable ss a -> Feedable ss b.
Proof.
  induction ss as [|[k w] r IH]; intros a b Hab H; cbn in *; auto. destruct H as [H1 H2]. rewrite <- Hab. split; [exact H1|].
  eapply IH; [|exact H2]. intros; apply Hab.
Qed.
Lemma s_Write_total w x l e b : segment encode encFlush (w_enc w) (x :: l) = Ok (e, b) ->
  exists w' b', s_Write deflate o w x = Ok w' /\ segment encode encFlush (w_enc w') l = Ok (e, b').
Proof.
  intros H. destruct (segment_app _ [x] l _ _ H) as (e1 & o1 & o2 & H1 & H2).
  cbn [feed] in H1. apply rbind_inv in H1. destruct H1 as ([e3 o3] & H3 & H1). cbn [rbind] in H1.
  assert (e3 = e1) as -> by congruence.
  destruct (write_total deflate enc gval encode encFlush o Ho Htot w x e1 o3 H3) as (w' & Hw & He). exists w', o2. rewrite He. split; [exact Hw|exact H2].
Qed.
Lemma writeEach_total ss : forall l b, Feedable ss (fun i => (match nth i l None with Some x => [x] | None => [] end) ++ b i) ->
  exists ss', writeEach deflate o ss l = Ok ss' /\ Feedable ss' b.
Proof.
  induction ss as [|[k w] r IH]; intros l b H.
  - exists []. destruct l; split; reflexivity.
  - destruct l as [|x l].
    + exists ((k, w) :: r). split; [reflexivity|]. eapply Feedable_ext; [|exact H]. intros [|i]; reflexivity.
    + cbn [Feedable nth] in H. destruct H as [(e & o1 & H1) H]. cbn [writeEach].
      destruct (IH l (fun i => b (S i)) H) as (r' & Hr & Hf).
      destruct x as [x|].
      * cbn [app] in H1. destruct (s_Write_total w x (b O) e o1 H1) as (w' & b' & Hw & Hs). rewrite Hw. cbn [rbind]. rewrite Hr. cbn [rbind].
        eexists. split; [reflexivity|]. cbn [Feedable]. split; [eauto|exact Hf].
      * cbn [rbind]. rewrite Hr. cbn [rbind]. eexists. split; [reflexivity|]. cbn [Feedable]. split; [eauto|exact Hf].
Qed.

Definition indexOk (c : colW) : Prop := WriteIndex o = true -> cw_kind c <> KFloat /\ statsOk (cw_kind c) (cw_indexStats c).
Definition Accepts (c : colW) (vs : list value) : Prop :=
  readable (cw_kind c) = true /\ statsOk (cw_kind c) (cw_stats c) /\ indexOk c /\
  Feedable (streams c) (insAll (hasNulls c) (cw_kind c) vs).

Lemma c_Write_total c v vs : (Null v = false -> typed (cw_kind c) (V v)) -> Accepts c (v :: vs) ->
  exists c', c_Write deflate F o stride c v = Ok c' /\ Accepts c' vs /\ cw_kind c' = cw_kind c.
Proof.
  intros Hty (Hl & Hst & Hix & Hf). unfold c_Write.
  replace (isKStruct (cw_kind c) && negb (hasNulls c)) with false by (destruct (cw_kind c); try discriminate; reflexivity).
  unfold streams in Hf.
  assert (Hpres : exists p, optM (fun p => s_Write deflate o p (GBool (negb (Null v)))) (cw_present c) = Ok p /\
      (match p with Some _ => true | None => false end) = hasNulls c /\
      (match p with Some q => exists e b, segment encode encFlush (w_enc q) (map GBool (bitsOf vs)) = Ok (e, b) | None => True end) /\
      Feedable (cw_data c) (fun i => input (cw_kind c) v i ++ inputs (cw_kind c) vs i)).
  { unfold hasNulls in *. destruct (cw_present c) as [q|] eqn:Ep; cbn [optM].
    - cbn [app Feedable] in Hf. destruct Hf as [(e & b & H1) Hf]. rewrite insAll_present in H1. cbn [bitsOf map] in H1.
      destruct (s_Write_total _ _ _ _ _ H1) as (w' & b' & Hw & Hs). rewrite Hw. cbn [rbind].
      eexists. split; [reflexivity|]. split; [reflexivity|]. split; [eauto|]. eapply Feedable_ext; [|exact Hf]. reflexivity.
    - exists None. split; [reflexivity|]. split; [reflexivity|]. split; [exact I|]. eapply Feedable_ext; [|exact Hf]. reflexivity. }
  destruct Hpres as (p & -> & Hpn & Hpf & Hdf). cbn [rbind].
  assert (Hdata : exists d, (if Null v then Ok (cw_data c) else let! vs := puts (cw_kind c) (V v) in writeEach deflate o (cw_data c) vs) = Ok d /\
      Feedable d (inputs (cw_kind c) vs)).
  { unfold input in Hdf. destruct (Null v).
    - exists (cw_data c). split; [reflexivity|]. eapply Feedable_ext; [|exact Hdf]. reflexivity.
    - specialize (Hty eq_refl). assert (Hp : exists l, puts (cw_kind c) (V v) = Ok l).
      { destruct (cw_kind c); cbn [typed] in Hty; try contradiction; destruct (V v); try contradiction; cbn [puts]; eauto. }
      destruct Hp as (l & Hp). rewrite Hp in *. cbn [rbind]. apply writeEach_total. exact Hdf. }
  destruct Hdata as (d & -> & Hdf'). cbn [rbind].
  assert (Hstats : exists st, (if Null v then Ok (if isKStruct (cw_kind c) then countNull (cw_stats c) else cw_stats c)
              else addStats F (cw_kind c) (V v) (cw_stats c)) = Ok st /\ statsOk (cw_kind c) st).
  { destruct (Null v).
    - replace (isKStruct (cw_kind c)) with false by (destruct (cw_kind c); try discriminate; reflexivity). eauto.
    - apply addStats_total; auto. }
  destruct Hstats as (st & -> & Hst'). cbn [rbind].
  match goal with |- context [indexStep _ _ _ ?x _] => set (c1 := x) end.
  assert (Hc1 : Accepts c1 vs /\ cw_kind c1 = cw_kind c).
  { split; [|reflexivity]. unfold Accepts. cbn [c1 cw_kind cw_stats]. split; [exact Hl|]. split; [exact Hst'|].
    split; [exact Hix|]. unfold streams, hasNulls. cbn [c1 cw_present cw_data]. destruct p as [q|].
    - cbn [app Feedable]. rewrite insAll_present. split; [exact Hpf|]. eapply Feedable_ext; [|exact Hdf']. reflexivity.
    - cbn [app]. eapply Feedable_ext; [|exact Hdf']. reflexivity. }
  clearbody c1. destruct (WriteIndex o && indexes (cw_kind c) (Null v)) eqn:Ei; [|exists c1; split; [reflexivity|exact Hc1]].
  assert (Hwi : WriteIndex o = true) by (destruct (WriteIndex o); [reflexivity|discriminate]).
  destruct Hc1 as ((Hl1 & Hst1 & Hix1 & Hf1) & Hk1). destruct (Hix1 Hwi) as (Hnf & Hio).
  unfold indexStep.
  set (x := if stride <=? cw_indexInRows c1 + 1 then _ else _).
  assert (Hx : exists i s n, x = (i, s, n) /\ statsOk (cw_kind c1) s).
  { subst x. destruct (stride <=? cw_indexInRows c1 + 1).
    - eexists _, _, _. split; [reflexivity|]. exists (newDetail (cw_kind c1)). split; [reflexivity|]. apply shape_new. exact Hl1.
    - eexists _, _, _. split; [reflexivity|]. exact Hio. }
  destruct Hx as (i & s & n & -> & Hs).
  assert (Hs' : exists s', (if Null v then Ok (if isKStruct (cw_kind c1) then countNull s else s)
              else addIndexStats F (cw_kind c1) (V v) s) = Ok s' /\ statsOk (cw_kind c1) s').
  { rewrite <- Hk1 in Hty. destruct (Null v).
    - replace (isKStruct (cw_kind c1)) with false by (destruct (cw_kind c1); try discriminate; reflexivity). eauto.
    - apply addIndexStats_total; auto. }
  destruct Hs' as (s' & -> & Hs'). cbn [rbind]. eexists. split; [reflexivity|].
  split; [|exact Hk1]. unfold Accepts. cbn [cw_kind cw_stats]. split; [exact Hl1|]. split; [exact Hst1|].
  split; [intros _; split; [exact Hnf|exact Hs']|]. exact Hf1.
Qed.
Lemma writeRows_total vs : forall c, Forall (typed (cw_kind c)) (nonnull (rows_of vs)) -> Accepts c vs ->
  exists c', writeRows deflate F o stride c vs = Ok c' /\ Accepts c' [] /\ cw_kind c' = cw_kind c.
Proof.
  induction vs as [|v t IH]; intros c Hty Ha; [exists c; split; [reflexivity|]; split; [exact Ha|reflexivity]|].
  unfold rows_of, nonnull in Hty. cbn [map flat_map] in Hty. apply Forall_app in Hty. destruct Hty as [Hv Ht].
  destruct (c_Write_total c v t) as (c1 & Hw & Ha1 & Hk1); [|exact Ha|].
  { intros Hn. unfold row_of in Hv. rewrite Hn in Hv. inversion Hv; assumption. }
  cbn [writeRows]. rewrite Hw. cbn [rbind]. rewrite <- Hk1 in Ht. destruct (IH c1 Ht Ha1) as (c' & Hc & Ha' & Hk').
  exists c'. split; [exact Hc|]. split; [exact Ha'|congruence].
Qed.
Lemma s_Flush_total w : (exists e b, segment encode encFlush (w_enc w) [] = Ok (e, b)) -> exists w', s_Flush deflate o w = Ok w'.
Proof.
  intros (e & b & H). destruct (stream_total deflate enc gval encode encFlush o Ho Htot [] w e b H) as (w' & Hw). exists w'. exact Hw.
Qed.
Lemma flush_all ss : forall ins, (forall i, ins i = []) -> Feedable ss ins -> exists ss', mapM (onWriter (s_Flush deflate o)) ss = Ok ss'.
Proof.
  induction ss as [|[k w] r IH]; intros ins Hi H; [exists []; reflexivity|]. cbn [Feedable] in H. destruct H as [H1 H2]. rewrite Hi in H1.
  destruct (s_Flush_total w H1) as (w' & Hw). destruct (IH _ (fun i => Hi (S i)) H2) as (r' & Hr).
  cbn [mapM onWriter fst snd]. unfold onWriter. cbn [fst snd]. rewrite Hw. cbn [rbind]. unfold onWriter in Hr. rewrite Hr. cbn [rbind]. eauto.
Qed.
Lemma writeColumn_total c vs : Forall (typed (cw_kind c)) (nonnull (rows_of vs)) -> Accepts c vs ->
  exists bs infos c3, writeColumn deflate F o stride c vs = Ok (bs, infos, c3).
Proof.
  intros Hty Ha. destruct (writeRows_total vs c Hty Ha) as (c1 & Hw & Ha1 & Hk1). unfold writeColumn. rewrite Hw. cbn [rbind].
  destruct Ha1 as (Hl & _ & _ & Hf).
  assert (Hfl : exists c2, c_Flush deflate o c1 = Ok c2 /\ cw_flushed c2 = true).
  { unfold c_Flush. replace (dictFill deflate o c1) with (Ok (cw_data c1)) by (unfold dictFill; destruct (cw_kind c1); try discriminate; reflexivity).
    cbn [rbind]. unfold streams in Hf. destruct (cw_present c1) as [q|]; cbn [optM app Feedable] in *.
    - destruct Hf as [H1 H2]. destruct (s_Flush_total q) as (q' & ->). { destruct (hasNulls c1); exact H1. }
      destruct (flush_all _ _ (fun i => eq_refl) H2) as (d & Hd). cbn [rbind]. rewrite Hd. cbn [rbind]. eexists. split; reflexivity.
    - destruct (flush_all _ _ (fun i => eq_refl) Hf) as (d & Hd). cbn [rbind]. rewrite Hd. cbn [rbind]. eexists. split; reflexivity. }
  destruct Hfl as (c2 & -> & Hflu). cbn [rbind]. unfold c_WriteOut. rewrite Hflu. cbn [negb]. rewrite andb_false_r.
  cbn [rbind]. eauto.
Qed.

(** Fresh encoders accept typed and carried values. *)
Lemma segment_total_item st e0 e k i gs : Fresh st e0 e -> (exists p, nth_error (dataStreams k o) i = Some (p, e0)) ->
  readable k = true -> Forall (typed k) gs -> carried k gs ->
  exists e' b, segment encode encFlush e (flat_map (inp k i) gs) = Ok (e', b).
Proof.
  intros Hf (p & Hi) Hl Hty Hca.
  assert (Hint : forall ie xs, i_values ie = [] -> i_signed ie = true -> int_carried true xs ->
    exists e' b, segment encode encFlush (EInt ie) (map GInt64 xs) = Ok (e', b)).
  { intros ie xs Hv Hs Hc. destruct (carried_total true xs ie Hc Hv Hs) as (e' & b & H). rewrite seg_int64 by exact Hs. rewrite H. cbn. eauto. }
  destruct k; try discriminate; cbn [dataStreams] in Hi; destruct i as [|[|i]]; cbn [nth_error] in Hi; try discriminate;
    try (destruct i; discriminate); assert (e0 = snd (p, e0)) as Hp by reflexivity;
    match type of Hi with Some (?a, ?b) = _ => assert (e0 = b) as -> by congruence end; clear Hp;
    destruct e as [be|boe|ie| | | |]; cbn [Fresh] in Hf; try contradiction.
  1, 2, 3: rewrite ints_inputs by tauto; destruct Hf as [Hv Hs]; apply Hint; auto.
  - destruct Hf as [Hbi Hbv].
    assert (Hg : exists xs, flat_map (inp KByte 0) gs = map GByte xs /\ bytes xs).
    { clear - Hty. induction Hty as [|g t Hg Ht (xs & IH & Hx)]; [exists []; split; [reflexivity|constructor]|].
      destruct g; cbn in Hg; try contradiction. exists (v :: xs). cbn [flat_map]. rewrite IH. split; [reflexivity|constructor; assumption]. }
    destruct Hg as (xs & -> & Hx). rewrite seg_byte. destruct (byte_segment_spec xs be Hbi Hbv Hx) as (e2 & b2 & -> & _). cbn. eauto.
  - destruct Hf as [Hbi Hbv].
    assert (Hg : exists xs, flat_map (inp KBool 0) gs = map GBool xs).
    { clear - Hty. induction Hty as [|g t Hg Ht (xs & IH)]; [exists []; reflexivity|].
      destruct g; cbn in Hg; try contradiction. exists (b :: xs). cbn [flat_map]. rewrite IH. reflexivity. }
    destruct Hg as (xs & ->). rewrite seg_bool. destruct (bool_segment_bytes xs boe st Hbi Hbv) as (e2 & b2 & bs & -> & _). cbn. eauto.
  - assert (Hg : exists xs, flat_map (inp KFloat 0) gs = map GFloat xs).
    { clear - Hty. induction Hty as [|g t Hg Ht (xs & IH)]; [exists []; reflexivity|].
      destruct g; cbn in Hg; try contradiction. exists (bits :: xs). cbn [flat_map]. rewrite IH. reflexivity. }
    destruct Hg as (xs & ->). rewrite (seg_raw EFloat GFloat float_Encode) by reflexivity. eauto.
  - assert (Hg : exists xs, flat_map (inp KDouble 0) gs = map GDouble xs).
    { clear - Hty. induction Hty as [|g t Hg Ht (xs & IH)]; [exists []; reflexivity|].
      destruct g; cbn in Hg; try contradiction. exists (bits :: xs). cbn [flat_map]. rewrite IH. reflexivity. }
    destruct Hg as (xs & ->). rewrite (seg_raw EDouble GDouble double_Encode) by reflexivity. eauto.
  - assert (Hg : exists xs, flat_map (inp KString 0) gs = map GBytes xs).
    { clear - Hty. induction Hty as [|g t Hg Ht (xs & IH)]; [exists []; reflexivity|].
      destruct g; cbn in Hg; try contradiction. exists (s :: xs). cbn [flat_map]. rewrite IH. reflexivity. }
    destruct Hg as (xs & ->). rewrite (seg_raw EString GBytes string_Encode) by reflexivity. eauto.
  - assert (Hg : flat_map (inp KString 1) gs = map GUint64 (map int_of gs)).
    { clear - Hty. induction Hty as [|g t Hg Ht IH]; [reflexivity|].
      destruct g; cbn in Hg; try contradiction. cbn [flat_map map]. rewrite IH. reflexivity. }
    rewrite Hg. destruct Hf as [Hv Hs]. cbn in Hs. destruct (carried_total false _ ie Hca Hv Hs) as (e' & b & H).
    rewrite seg_uint64 by exact Hs. rewrite H. cbn. eauto.
  - rewrite ints_inputs by tauto. destruct Hf as [Hv Hs]. apply Hint; auto.
Qed.
Lemma Fits_Feedable k gs (Hl : readable k = true) (Hty : Forall (typed k) gs) (Hca : carried k gs) : forall its n,
  Fits its (skipn n (dataStreams k o)) ->
  Feedable (map (fun it => (it_kind it, newWriter (it_enc it))) its) (fun i => flat_map (inp k (n + i)) gs).
Proof.
  intros its. induction its as [|it r IH]; intros n H; [exact I|]. remember (skipn n (dataStreams k o)) as pl0 eqn:Hpl.
  inversion H as [|? [p e0] ? pl Hit Hr]; subst pl0. rename H2 into Hs. subst.
  assert (Hn : nth_error (dataStreams k o) n = Some (p, e0)).
  { rewrite <- (firstn_skipn n (dataStreams k o)) at 1. rewrite <- Hs. rewrite nth_error_app2; rewrite firstn_length.
    - assert (n < length (dataStreams k o))%nat. { assert (length (skipn n (dataStreams k o)) <> O) by (rewrite <- Hs; discriminate). rewrite skipn_length in *. lia. }
      replace (n - Nat.min n (length (dataStreams k o)))%nat with O by lia. reflexivity.
    - lia. }
  assert (Hsk : skipn (S n) (dataStreams k o) = pl).
  { clear - Hs. revert n Hs. induction (dataStreams k o) as [|x t IH]; intros n Hs; [destruct n; discriminate|].
    destruct n as [|n]; cbn [skipn] in *; [congruence|]. apply IH. exact Hs. }
  cbn [map Feedable]. split.
  - destruct Hit as [_ Hf]. rewrite Nat.add_0_r. cbn [w_enc newWriter snd] in *. eapply segment_total_item; eauto.
  - eapply Feedable_ext; [|apply (IH (S n)); rewrite Hsk; exact Hr]. intros i. cbv beta. replace (n + S i)%nat with (S n + i)%nat by lia. reflexivity.
Qed.
Lemma Clean_Accepts c its vs : Clean o c its -> readable (cw_kind c) = true -> statsOk (cw_kind c) (cw_stats c) -> indexOk c ->
  Forall (typed (cw_kind c)) (nonnull (rows_of vs)) -> carried (cw_kind c) (nonnull (rows_of vs)) -> Accepts c vs.
Proof.
  intros [Hst Hf] Hl Hso Hio Hty Hca. split; [exact Hl|]. split; [exact Hso|]. split; [exact Hio|]. rewrite Hst. unfold planned in Hf.
  destruct (hasNulls c); cbn [app] in Hf.
  - inversion Hf as [|it0 p0 its' pl' [Hk0 Hf0] Hf']; subst. cbn [fst snd map Feedable newWriter w_enc] in *. split.
    + destruct (it_enc it0) as [be|boe|ie| | | |] eqn:Hie; cbn [Fresh] in Hf0; try contradiction. destruct Hf0 as [Hbi Hbv].
      rewrite insAll_present, seg_bool. destruct (bool_segment_bytes (bitsOf vs) boe _ Hbi Hbv) as (e2 & b2 & bs & -> & _). cbn. eauto.
    + eapply Feedable_ext; [|apply (Fits_Feedable (cw_kind c) (nonnull (rows_of vs)) Hl Hty Hca its' 0 Hf')].
      intros i. cbv beta. rewrite insAll_data. reflexivity.
  - eapply Feedable_ext; [|apply (Fits_Feedable (cw_kind c) (nonnull (rows_of vs)) Hl Hty Hca its 0 Hf)].
    intros i. cbv beta. rewrite insAll_false. reflexivity.
Qed.
Lemma column_total id k hn vs : readable k = true -> (WriteIndex o = true -> k <> KFloat) ->
  Forall (typed k) (nonnull (rows_of vs)) -> carried k (nonnull (rows_of vs)) ->
  exists bs infos c3, writeColumn deflate F o stride (newColW o id k hn) vs = Ok (bs, infos, c3).
Proof.
  intros Hl Hwi Hty Hca. destruct (Clean_new o id k hn Hl) as (its & Hc & _).
  apply writeColumn_total; [exact Hty|]. eapply Clean_Accepts; [exact Hc|exact Hl| | |exact Hty|exact Hca].
  - exists (newDetail k). split; [reflexivity|]. apply shape_new. exact Hl.
  - intros H. split; [apply Hwi; exact H|]. exists (newDetail k). split; [|apply shape_new; exact Hl].
    cbn [newColW cw_kind cw_indexStats]. destruct k; try discriminate; reflexivity.
Qed.
End Total.
