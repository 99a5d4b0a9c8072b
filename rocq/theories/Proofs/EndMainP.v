(** From a closed file to the batches a client gets. *)
From Coq Require Import ZifyBool ZifyNat.
From Verif.Model Require Import Go Codec ByteBool IntRle Chunk Stream Schema Rows Time File Column Wire Assembled.
From Verif.Spec Require Import BoolSpec Session StreamSpec ChunkSpec SchemaSpec RowsSpec FileSpec ColumnSpec AssemblySpec EndSpec.
From Verif.Proofs Require Import Base OpenBatchP StripeNpP SchemaP ChunkP TailP RowsP SessionP ReadP FileP OpenP FileClaimsP WireP ColumnP ColumnReadP StatsP AssembledP BatchP EndP EndColP OpenTreeP EndFileP.

Lemma Rows_fun {V} (vs : list (cvec V)) r1 : Rows vs r1 -> forall r2, Rows vs r2 -> r1 = r2.
Proof.
  induction 1 as [|v vs rs rows Hv Hvs IH]; intros r2 H2; inversion H2 as [|? ? rs2 rows2 Hv2 Hvs2]; subst; [reflexivity|].
  f_equal; [|apply IH; exact Hvs2]. clear - Hv Hv2. revert rs2 Hv2. induction Hv as [|i r l rs Hi Hl IH]; intros rs2 H2; inversion H2; subst; [reflexivity|].
  f_equal; [congruence|]. apply IH. assumption.
Qed.
Lemma newFileReader_hasNulls inflate unPS unF file r : newFileReader inflate cs_hasNull unPS unF file = Ok r ->
  fr_hasNulls r = map (fun i => match nth_error (fr_stats r) i with Some s => cs_hasNull s | None => false end) (seq 0 (length (fr_nodes r))).
Proof.
  unfold newFileReader. intros H. apply rbind_inv in H. destruct H as ([[ps f]|] & _ & H); [|discriminate].
  destruct (f_rows f =? 0); [discriminate|]. apply rbind_inv in H. destruct H as (ns & _ & H).
  destruct (_ <? _)%nat; [discriminate|]. match type of H with Ok ?x = _ => assert (r = x) as -> by congruence end. reflexivity.
Qed.
Lemma unmarshall_nodes n l : forall ns, unmarshallNodes n (SchemasToTypes l) = Ok ns -> Forall2 nodeFor l ns.
Proof.
  induction l as [|t l IH]; intros ns H; cbn [SchemasToTypes map unmarshallNodes] in H; [assert (ns = []) as -> by congruence; constructor|].
  apply rbind_inv in H. destruct H as (x & Hx & H). apply rbind_inv in H. destruct H as (y & Hy & H).
  assert (ns = x :: y) as -> by congruence. constructor; [|apply IH; exact Hy].
  unfold unmarshallNode in Hx. cbn [t_sub t_kind t_names] in Hx. unfold nodeFor.
  destruct (map td_id (td_children t)) as [|z zs] eqn:Em.
  - match type of Hx with Ok ?q = _ => assert (x = q) as -> by congruence end. auto.
  - destruct (isStruct _ && _)%bool; [discriminate|]. destruct (forallb _ _); [|discriminate].
    match type of Hx with Ok ?q = _ => assert (x = q) as -> by congruence end. auto.
Qed.
Lemma initStripes_nth inflate unSF k file l : forall xs, initStripes inflate unSF k file l = Ok xs ->
  length xs = length l /\ forall j i, nth_error l j = Some i -> exists x, nth_error xs j = Some x /\ openStripe inflate unSF k file i = Ok x.
Proof.
  induction l as [|i l IH]; intros xs H; cbn [initStripes] in H; [assert (xs = []) as -> by congruence; split; [reflexivity|intros [|j] ? E; discriminate]|].
  destruct (NumberOfRows i =? 0); [discriminate|]. apply rbind_inv in H. destruct H as (x & Hx & H). apply rbind_inv in H. destruct H as (y & Hy & H).
  assert (xs = x :: y) as -> by congruence. destruct (IH y Hy) as [H1 H2]. split; [cbn; congruence|].
  intros [|j] q E; cbn [nth_error] in *; [assert (q = i) as -> by congruence; eauto|]. apply H2. exact E.
Qed.
Lemma newStripes_all {A} inflate o nodes hn bopt file (R : stripeRd -> A -> Prop) l : forall xs rss,
  length xs = length l -> length rss = length l ->
  (forall j i x rows, nth_error l j = Some i -> nth_error xs j = Some x -> nth_error rss j = Some rows ->
     exists s, newStripeRd inflate o nodes hn bopt file (NumberOfRows i) x = Ok s /\ R s rows) ->
  exists ss, newStripes inflate o nodes hn bopt file l xs = Ok ss /\ Forall2 R ss rss.
Proof.
  induction l as [|i l IH]; intros [|x xs] [|rows rss] H1 H2 H; try discriminate; [exists []; split; [reflexivity|constructor]|].
  cbn [newStripes]. destruct (H O i x rows eq_refl eq_refl eq_refl) as (s & Hs & Hr). rewrite Hs. cbn [rbind].
  destruct (IH xs rss) as (ss & E1 & E2); [cbn in H1; lia|cbn in H2; lia| |].
  - intros j. apply (H (S j)).
  - rewrite E1. cbn [rbind]. exists (s :: ss). split; [reflexivity|]. constructor; assumption.
Qed.
Lemma removelast_map {A B} (f : A -> B) l : removelast (map f l) = map f (removelast l).
Proof. induction l as [|a [|b l] IH]; [reflexivity|reflexivity|]. cbn [map removelast] in *. rewrite IH. reflexivity. Qed.
Lemma readerKind_bool k e : readerKind k e = Ok KBool -> k = BOOLEAN.
Proof. unfold readerKind. destruct k; try discriminate; try reflexivity; destruct (e =? _); try discriminate; destruct (e =? _); discriminate. Qed.
Lemma In_removelast {A} (x : A) l : In x (removelast l) -> In x l.
Proof. induction l as [|a [|b l] IH]; intros H; [exact H|destruct H|]. cbn [removelast] in H. destruct H as [->|H]; [left; reflexivity|right; apply IH; exact H]. Qed.

Lemma single_in {V} j (rss : list (list (row V))) rows :
  Forall (fun r => length (column_of j [r]) = 1%nat) (concat rss) -> In rows rss -> single j rows.
Proof.
  intros H Hin. rewrite Forall_forall in H. apply Forall_forall. intros r Hr. apply H. apply in_concat. eauto.
Qed.
Lemma storable_segs x p rss k : storable x p rss -> readerKind (td_kind x) (td_enc x) = Ok k -> (leaf k = true \/ k = KStruct) ->
  segs_ok k (td_hasNulls x) (map (column_of (col x)) rss).
Proof.
  intros (H1 & H2 & _ & H4 & H5) Hk Hl. split; [|split].
  - intros Hlk. rewrite Forall_map. apply (H4 k Hk). destruct k; discriminate.
  - intros Hh. rewrite removelast_map, Forall_map. specialize (H2 Hh). rewrite Forall_forall in *. intros rows Hr.
    unfold whole8. rewrite single_length by (eapply single_in; [apply Forall_forall; exact H1|apply In_removelast; exact Hr]). apply H2. exact Hr.
  - intros ->. rewrite removelast_map, Forall_map. apply H5. eapply readerKind_bool. exact Hk.
Qed.

Lemma Images_images deflate C V w f i wo inf rs sf o encs cs rss ms csf :
  Images deflate C V w f i wo inf rs sf o encs cs rss ms csf ->
  Forall (fun m => length (im_cols m) = length cs /\
                   forall k x, nth_error (im_cols m) k = Some x -> map st_length (ci_infos x) = map zlen (ci_streams x)) ms.
Proof.
  assert (Hone : forall cs rows m cs', StripeImage deflate C V w f i wo inf sf o encs cs rows m cs' ->
     length cs' = length cs /\ length (im_cols m) = length cs /\
     forall k x, nth_error (im_cols m) k = Some x -> map st_length (ci_infos x) = map zlen (ci_streams x)).
  { intros cs0 rows m cs' (_ & Hl & Hl' & Hk & _). split; [exact Hl'|]. split; [exact Hl|]. intros k x Hx.
    destruct (nth_error cs0 k) as [c|] eqn:Ec.
    2: { apply nth_error_None in Ec. assert (k < length (im_cols m))%nat; [|lia]. apply nth_error_Some. congruence. }
    destruct (Hk k c Ec) as (x' & c' & Hx' & Hc' & c1 & c2 & _ & _ & _ & _ & _ & Hm). congruence. }
  induction 1 as [cs rows m cs' Hi|cs rows m cs' cs'' rss ms csf Hi Hr H IH].
  - destruct (Hone _ _ _ _ Hi) as (_ & H1 & H2). constructor; [split; assumption|constructor].
  - destruct (Hone _ _ _ _ Hi) as (H0 & H1 & H2). destruct (mapM_spec _ _ _ Hr) as [Hlr _].
    assert (El : length cs'' = length cs) by congruence. rewrite El in IH. constructor; [split; assumption|exact IH].
Qed.

Lemma Stripes_images deflate C V w sz f i wo inf rs sf o ss encs cs rss ms csf :
  Stripes deflate C V w sz f i wo inf rs sf o ss encs cs rss ms csf ->
  Forall (fun m => length (im_cols m) = length cs /\
                   forall k x, nth_error (im_cols m) k = Some x -> map st_length (ci_infos x) = map zlen (ci_streams x)) ms.
Proof. intros H. eapply Images_images. eapply Stripes_Images. exact H. Qed.

Lemma directory_counts {V} (rss : list (list (row V))) : forall ms z, length rss = length ms ->
  map NumberOfRows (directory z rss ms) = map zlen rss.
Proof.
  induction rss as [|q rss IH]; intros [|m ms] z H; try discriminate; [reflexivity|].
  cbn [directory map NumberOfRows]. f_equal. apply IH. cbn in H. lia.
Qed.
Lemma zlen_in_concat {V} (q : list V) rss : In q rss -> zlen q <= zlen (concat rss).
Proof.
  induction rss as [|q0 rss IH]; intros Hqin; [destruct Hqin|]. cbn [concat]. rewrite zlen_app. pose proof (zlen_nonneg (concat rss)). pose proof (zlen_nonneg q0). destruct Hqin as [->|Hq]; [lia|]. specialize (IH Hq). lia.
Qed.
(** The first values of a column are read whatever comes after them. *)
Lemma colReads_prefix inflate o k h vs e c : colReads inflate o k h (vs ++ e) c -> colReads inflate o k h vs c.
Proof.
  intros [Hk H]. split; [exact Hk|].
  assert (Ea : rows_of (vs ++ e) = rows_of vs ++ rows_of e) by (unfold rows_of; apply map_app).
  assert (Eb : nonnull (rows_of (vs ++ e)) = nonnull (rows_of vs) ++ nonnull (rows_of e)).
  { rewrite Ea. unfold nonnull. apply flat_map_app. }
  assert (Ec : bitsOf (vs ++ e) = bitsOf vs ++ bitsOf e) by (unfold bitsOf; apply map_app).
  rewrite Eb, Ec, Ea in H.
  destruct k; destruct h; try exact H;
    try (destruct H as [H1 H2]; split; [exact H1|]; eapply Yields_prefix; exact H2);
    destruct H as (p & H1 & H2); exists p; split; [exact H1|]; eapply Yields_prefix; exact H2.
Qed.
Lemma opens_prefix inflate o k h vs e x : opens inflate o k h (vs ++ e) x -> opens inflate o k h vs x.
Proof.
  intros H pre post Hb. destruct (H pre post Hb) as (r & H1 & H2). exists r. split; [exact H1|]. eapply colReads_prefix. exact H2.
Qed.

Lemma flatten_child t v c : In v (flatten t) -> In c (td_children v) -> In c (flatten t).
Proof.
  intros Hv Hc. apply flatten_Column. apply flatten_Column in Hv. destruct Hv as [p Hp]. destruct (In_nth_error _ _ Hc) as [j Hj].
  exists (p ++ [j]). clear - Hp Hj. revert t Hp. induction p as [|q p IH]; intros t Hp; cbn [app at_path] in *.
  - injection Hp as ->. rewrite Hj. reflexivity.
  - destruct (nth_error (td_children t) q); [auto|discriminate].
Qed.

Section Stored.
Variable deflate : list (list Z) -> list Z -> res (list Z).
Variable inflate : list Z -> res (list Z).
Variable F : floats.
Variable o : opts.
Variables stride StripeSize : Z.
Hypothesis Hflate : flate_ok deflate inflate.
Hypothesis Hcs : 1 <= ChunkSize o < 2 ^ 23.
Variables (t0 schema : td) (file : list Z).
Hypothesis Hsize : size t0 <= 2 ^ 32.
Hypothesis Hnorm : NormalizeSchema t0 = Ok schema.
Hypothesis Hfile : zlen file < 2 ^ 62.
Variable r : fileR colstats.
Hypothesis Hopen : newFileReader inflate cs_hasNull unmarshalPS unmarshalFooter file = Ok r.
Variable bopt : batchOption.
Hypothesis Hread : readable_schema bopt false schema = true.
Hypothesis Hinc : IsInclude bopt 0 = true.
Hypothesis Hrow : RowSize bopt <> 0.
Notation I := (columns deflate F o stride).
(** [rss] are the rows counted, [all] those the columns hold. *)
Variables (schemas : list td) (cs csf : list colW) (all rss : list (list (row value))) (ms : list image) (raw fb psb : list Z).
Hypothesis H1 : Flat schema = Ok schemas.
Hypothesis H2 : mapM (i_New I) schemas = Ok cs.
Hypothesis H5 : Images deflate _ _ (i_Write I) (i_Flush I) (i_Index I) (i_WriteOut I) (i_Infos I) (i_Reset I) (pb_SF wire) o (map td_enc schemas) cs all ms csf.
Hypothesis H6 : length rss = length ms.
Hypothesis F7 : file = Magic ++ filedata ms ++ fb ++ psb ++ [u8 (zlen psb)].
Hypothesis F8 : pb_Footer wire (closedFooter _ _ _ (i_Stats I) schemas rss ms csf) = Ok raw.
Hypothesis Hzl : CompressionKind o = ZLIB.
Hypothesis F10 : exists rest, CompressingAllInChunks deflate ZLIB (ChunkSize o) raw = Ok (fb, rest).
Hypothesis F11 : pb_PS wire {| p_footerLength := zlen fb; p_compression := ZLIB;
                               p_blockSize := u64 (ChunkSize o); p_metadataLength := 0 |} = Ok psb.
Hypothesis Hnrows : zlen (concat rss) < 2 ^ 62.
Hypothesis Hcover : Forall2 (fun a q => forall x, exists e, column_of x a = column_of x q ++ e) all rss.

Lemma stored_batches : map NumberOfRows (fr_stripes r) = map zlen rss /\
  (~ Forall (fun l => l <> []) rss -> openBatches inflate bopt file = Err) /\
  (Forall (fun l => l <> []) rss -> Forall (fun q => storable (fst q) (snd q) rss) (columns_read bopt None schema) ->
   (forall t p k, In (t, p) (columns_read bopt None schema) -> readerKind (td_kind t) (td_enc t) = Ok k -> (leaf k = true \/ k = KStruct) ->
      segs_ok k (td_hasNulls t) (map (column_of (col t)) all)) ->
   exists x, openBatches inflate bopt file = Ok (r, x) /\
     flagged (fr_hasNulls r) schema /\
     SimW inflate (readerOpts r) bopt schema x (opened rss)).
Proof.
  assert (Hs32 : size t0 <= 4294967296) by exact Hsize.
  destruct (normalize_spec _ _ Hs32 Hnorm) as (_ & Hnum & Hun).
  assert (Hflat : Flat schema = Ok (flatten schema)).
  { unfold Flat. rewrite (Numbered_CheckId _ Hnum Hun), Hun. reflexivity. }
  assert (Hids := ids_flatten schema Hnum).
  assert (Hcol_of : forall j t, nth_error (flatten schema) j = Some t -> col t = j).
  { intros j t Et. pose proof (f_equal (fun l => nth_error l j) Hids) as Hq. cbv beta in Hq. rewrite (map_nth_error _ _ _ Et) in Hq.
    rewrite count_up_nth in Hq by (apply nth_error_Some; congruence). unfold col. assert (td_id t = 0 + Z.of_nat j) by congruence. lia. }
  assert (Hnumd : numbered schema).
  { exists (flatten schema). split; [exact Hflat|]. apply Forall_forall. intros x Hx. apply (nth_id schema Hnum x Hx). }
  destruct (stored_opens deflate inflate _ _ _ _ wire o StripeSize cs_hasNull (columns_contract deflate F o stride) wire_ok Hflate Hcs
     schema schemas cs all rss ms csf raw fb psb file H1 H2 Hnumd H5 H6 F7 F8 Hzl F10 F11 Hfile)
    as (H7 & H8 & Hbig & Hempty & Hns & Hall).
  assert (Esch : schemas = flatten schema) by congruence. clear H1. rewrite Esch in *. clear Esch.
  cbn [wire pb_unPS pb_unFooter] in *. destruct (Hns r Hopen) as (ns & Hn).
  destruct (Z_le_gt_dec (zlen fb + zlen psb + 1) 16384) as [Hle|Hgt]; [|rewrite Hbig in Hopen by lia; discriminate].
  assert (Hne : concat rss <> []) by (intros E0; rewrite Hempty in Hopen by (auto; lia); discriminate).
  destruct (Hall Hle Hne ns Hn) as (r' & Hr' & R1 & R2 & R3 & R4 & R5 & R6 & R7 & R8). assert (r' = r) as -> by congruence.
  clear Hbig Hempty Hns Hall Hr' Hle. split.
  { rewrite R2. apply directory_counts. exact H6. }
  pose proof (unmarshall_nodes _ _ _ Hn) as Hnodes. pose proof (Forall2_len _ _ _ Hnodes) as Hlnodes.
  split.
  { intros Hno. unfold openBatches. rewrite Hopen. cbn [rbind]. destruct (RowSize bopt =? 0); [reflexivity|].
    assert (Hem : exists j, exists i, nth_error (fr_stripes r) j = Some i /\ NumberOfRows i = 0).
    { assert (Hin : exists q, In q rss /\ q = []).
      { clear - Hno. induction rss as [|q l IH]; [destruct Hno; constructor|]. destruct q; [exists []; cbn; auto|].
        destruct IH as (z & Hz & E); [intros H; apply Hno; constructor; [discriminate|exact H]|]. exists z. cbn. auto. }
      destruct Hin as (q & Hin & ->). apply In_nth_error in Hin. destruct Hin as (j & Hj). exists j.
      pose proof (directory_counts rss ms 3 H6) as Hd. rewrite <- R2 in Hd. pose proof (f_equal (fun l => nth_error l j) Hd) as E. cbv beta in E.
      rewrite (map_nth_error zlen _ _ Hj) in E. destruct (nth_error (fr_stripes r) j) as [i|] eqn:Ei.
      - rewrite (map_nth_error _ _ _ Ei) in E. exists i. split; [reflexivity|]. injection E as E. exact E.
      - apply nth_error_None in Ei. rewrite (proj2 (nth_error_None _ _)) in E; [discriminate|]. rewrite map_length. exact Ei. }
    destruct Hem as (j & Hj). rewrite (openStripes_empty _ _ _ _ _ _ _ j Hj); [reflexivity|]. rewrite R2. intros k i Hi.
    destruct (H8 k i Hi) as (m & starts & Hm & Hos & Hfst & _). unfold wire in Hos. cbn [pb_unSF] in Hos. cbn [readerOpts CompressionKind]. rewrite R3, Hos.
    split; [discriminate|]. intros x Ex. assert (x = (map td_enc (flatten schema), starts)) as -> by congruence.
    assert (Hrm : Forall (fun s => st_kind s <> 6 /\ st_column s < Z.of_nat (length cs)) (im_infos m)).
    { destruct (columns_in_range _ _ _ _ (columns_contract deflate F o stride) _ _ _ Hflat H2 Hnumd) as [_ Hrng].
      destruct (columns_contract deflate F o stride) as (_ & Hid & _). pose proof wire_ok as (P1 & _).
      destruct (Images_readable deflate inflate _ _ _ (i_Write I) (i_Size I) (i_Flush I) (i_Index I) (i_WriteOut I)
              (i_Infos I) (i_Stats I) (i_Reset I) (i_of I) cs_hasNull (pb_SF wire) (pb_unSF wire) (pb_unFooter wire) (pb_unPS wire)
              o StripeSize Hid Hflate Hcs P1 _ _ _ _ _ H5 Hrng) as [Hrd _].
      rewrite Forall_forall in Hrd. apply (Hrd m (nth_error_In _ _ Hm)). }
    destruct (mapM_spec _ _ _ H2) as [Hlcs _].
    assert (Hpar : forall a x c, nth_error (fr_nodes r) a = Some x -> In c (n_sub x) -> exists t, nth_error (flatten schema) a = Some t /\ n_sub x = map td_id (td_children t)).
    { intros a x c Hx _. pose proof (Forall2_nth _ _ _ Hnodes a) as Ha. rewrite <- R6, Hx in Ha. destruct (nth_error (flatten schema) a) as [t|]; [|contradiction]. exists t. split; [reflexivity|apply Ha]. }
    apply np_stripe.
    - rewrite (newFileReader_hasNulls _ _ _ _ _ Hopen), map_length, seq_length. reflexivity.
    - intros a x c Hx Hc. destruct (Hpar a x c Hx Hc) as (t & Et & E). rewrite E in Hc. apply in_map_iff in Hc. destruct Hc as (u & <- & Hu).
      rewrite R6. unfold zlen at 1. rewrite <- Hlnodes.
      destruct (nth_id schema Hnum u) as [Hu0 Hu1]; [eapply flatten_child; [eapply nth_error_In; exact Et|exact Hu]|]. exact Hu0.
    - intros a x c Hx Hc Hic. destruct (Hpar a x c Hx Hc) as (t & Et & E). rewrite E in Hc. pose proof (nth_error_In _ _ Et) as Ht.
      destruct (readable_included bopt leaf eq_refl schema false Hread t Ht) as [_ Hp]. destruct Hp as [_ Hp].
      { apply existsb_exists. exists c. auto. }
      destruct (nth_id schema Hnum t Ht) as [Ht0 _]. pose proof (Hcol_of a t Et) as Hca. unfold col in Hca. replace (Z.of_nat a) with (td_id t) by lia. exact Hp.
    - intros a Ha _. cbn [fst]. rewrite map_length. rewrite R6, <- Hlnodes in Ha. exact Ha.
    - right. cbn [snd]. rewrite <- Forall_map with (P := fun s => st_kind s <> 6), Hfst. eapply Forall_impl; [|exact Hrm]. intros s Hs. apply Hs.
    - cbn [snd]. rewrite <- Forall_map with (P := fun s => (Z.to_nat (st_column s) < length (fr_nodes r))%nat), Hfst. eapply Forall_impl; [|exact Hrm]. cbv beta. intros s [_ Hs].
      rewrite R6, <- Hlnodes. assert (0 < length (flatten schema))%nat by (destruct schema; cbn; lia). rewrite <- Hlcs. lia. }
  intros Hnonempty Hst Hsegs. destruct (R8 (RowSize bopt) Hrow) as [Hbr _]. destruct (Hbr Hnonempty) as (xs & Hxs).
  assert (Hlen_ms : forall k m, nth_error ms k = Some m -> (k < length rss)%nat) by (intros k m Hm; rewrite H6; apply nth_error_Some; congruence).
  destruct (mapM_spec _ _ _ H2) as [Hlcs Hcsn].
  (* the columns over all stripes *)
  assert (Hchain : forall t, In t (flatten schema) -> exists kw ys cf,
      writerKind (td_kind t) (td_enc t) = Ok kw /\
      Chain colW value (i_Write I) (i_Flush I) (i_Index I) (i_WriteOut I) (i_Infos I) (i_Reset I) o (newColW o (td_id t) kw (td_hasNulls t)) (map (column_of (col t)) all) ys cf /\
      nth_error csf (col t) = Some cf /\ Forall2 (fun m y => nth_error (im_cols m) (col t) = Some y) ms ys).
  { intros t Ht. destruct (nth_id schema Hnum t Ht) as [_ Hnt]. destruct (Hcsn _ _ Hnt) as (c & Hc & Hnew).
    cbn [i_New columns] in Hnew. unfold NewWriter in Hnew. apply rbind_inv in Hnew. destruct Hnew as (kw & Hkw & Hnew).
    assert (c = newColW o (td_id t) kw (td_hasNulls t)) as -> by congruence.
    destruct (Images_Chain _ _ _ _ _ _ _ _ _ _ _ _ (col t) _ _ _ _ H5 _ Hc) as (ys & cf & E1 & E2 & E3).
    exists kw, ys, cf. auto. }
  assert (Hsup : supported o) by (split; [right; exact Hzl|exact Hcs]).
  assert (Hoo : sameReading o (readerOpts r)) by (split; [rewrite Hzl; symmetry; exact R3|symmetry; exact R4]).
  (* the null flags in the footer *)
  assert (Hflag : fr_hasNulls r = map td_hasNulls (flatten schema)).
  { rewrite (newFileReader_hasNulls _ _ _ _ _ Hopen), R6, R7, <- Hlnodes.
    apply nth_ext with (d := false) (d' := false).
    { rewrite !map_length, seq_length. reflexivity. }
    intros j Hj. rewrite map_length, seq_length in Hj.
    destruct (nth_error (flatten schema) j) as [t|] eqn:Et; [|apply nth_error_None in Et; lia].
    rewrite (nth_error_nth _ _ _ (map_nth_error td_hasNulls _ _ Et)).
    assert (Hseq : nth_error (seq 0 (length (flatten schema))) j = Some j).
    { rewrite (nth_error_nth' _ O) by (rewrite seq_length; exact Hj). rewrite seq_nth by exact Hj. reflexivity. }
    rewrite (nth_error_nth _ _ _ (map_nth_error _ _ _ Hseq)).
    assert (Ht : In t (flatten schema)) by (eapply nth_error_In; exact Et).
    pose proof (Hcol_of j t Et) as Hcj.
    destruct (Hchain t Ht) as (kw & ys & cf & Hkw & Hch & Hcf & _). rewrite Hcj in Hcf.
    rewrite (map_nth_error _ _ _ Hcf). cbn [i_Stats columns]. rewrite (chain_hasNull deflate F o stride _ _ _ _ Hch). destruct kw; reflexivity. }
  unfold wire in Hxs. cbn [pb_unSF] in Hxs. pose proof Hxs as Hfoot. unfold CreateBatchReader in Hxs. destruct (Z.eqb_spec (RowSize bopt) 0); [contradiction|].
  rewrite R2, R3 in Hxs. destruct (initStripes_nth _ _ _ _ _ _ Hxs) as [Hlx Hx].
  assert (Hld : length (directory 3 rss ms) = length rss) by (apply directory_length; exact H6).
  (* SimS for every stripe *)
  destruct (newStripes_all inflate (readerOpts r) (fr_nodes r) (fr_hasNulls r) bopt file
              (fun s rows => SimS inflate (readerOpts r) bopt schema s (newStripeR rows)) (fr_stripes r) xs rss) as (ss & Hss & Hsim).
  - rewrite R2. exact Hlx.
  - rewrite R2. symmetry. exact Hld.
  - rewrite R2. intros j i x q Hi Hxj Hq. destruct (Hx j i Hi) as (x' & Hx' & Hos). assert (x' = x) as -> by congruence.
    destruct (H8 j i Hi) as (m & starts & Hm & Hos' & Hfst & Hcon). unfold wire in Hos'. cbn [pb_unSF] in Hos'.
    assert (x = (map td_enc (flatten schema), starts)) as -> by congruence.
    destruct (directory_nth rss ms Magic (fb ++ psb ++ [zlen psb]) j q m Hq Hm) as (a & b & Ef & Hd).
    change (zlen Magic) with 3 in Hd. rewrite Hd in Hi. assert (i = {| Offset := zlen a; IndexLength := zlen (im_index m); DataLength := zlen (concat (im_streams m)); FooterLength := zlen (im_footer m); NumberOfRows := zlen q |}) as -> by congruence.
    cbn [Offset IndexLength DataLength NumberOfRows] in *. rewrite <- H7 in Ef.
    assert (Hqin : In q rss) by (eapply nth_error_In; exact Hq).
    assert (Hcolim : forall t, In t (flatten schema) -> exists y, nth_error (im_cols m) (col t) = Some y /\
      Forall (fun s => st_column s = td_id t) (ci_infos y) /\
      (forall k p, In (t, p) (columns_read bopt None schema) \/ (td_kind t = STRUCT /\ td_hasNulls t = false) -> IsInclude bopt (td_id t) = true ->
         readerKind (td_kind t) (td_enc t) = Ok k -> opens inflate o k (td_hasNulls t) (column_of (col t) q) y)).
    { intros t Ht. destruct (Hchain t Ht) as (kw & ys & cf & Hkw & Hch & Hcf & Hys).
      pose proof (Forall2_nth _ _ _ Hys j) as Hy. rewrite Hm in Hy. destruct (nth_error ys j) as [y|] eqn:Ey; [|contradiction].
      exists y. split; [exact Hy|]. split.
      - pose proof (chain_id deflate F o stride _ _ _ _ Hch) as Hci. rewrite Forall_forall in Hci. apply (Hci y). eapply nth_error_In. exact Ey.
      - intros k p Hp Hit Hk. rewrite (readerKind_writer _ _ _ Hk) in Hkw. assert (kw = k) as -> by congruence.
        assert (Hlk : leaf k = true \/ k = KStruct).
        { destruct (readable_included bopt leaf eq_refl schema false Hread t Ht) as [Hok _]. destruct (Hok Hit) as (k' & Hk' & Hl). assert (k' = k) as -> by congruence. exact Hl. }
        assert (Hseg : segs_ok k (td_hasNulls t) (map (column_of (col t)) all)).
        { destruct Hp as [Hp|[Hp1 Hp2]].
          - eapply Hsegs; eassumption.
          - rewrite Hp1 in Hk. unfold readerKind in Hk. destruct (td_enc t =? 0); [|discriminate]. assert (k = KStruct) as -> by congruence.
            rewrite Hp2. repeat split; intros; discriminate. }
        pose proof (chain_opens deflate inflate F o stride Hsup Hflate _ _ _ _ _ _ Hch Hlk Hseg) as Hop.
        pose proof (Forall2_nth _ _ _ Hcover j) as Hcj. rewrite Hq in Hcj. destruct (nth_error all j) as [al|] eqn:Eal; [|contradiction].
        destruct (Hcj (col t)) as (e & He).
        pose proof (Forall2_nth _ _ _ Hop j) as Hoj. rewrite (map_nth_error _ _ _ Eal), Ey, He in Hoj. eapply opens_prefix. exact Hoj. }
    assert (Hsimg : colsFrom 0 (im_cols m) /\ length (im_cols m) = length (flatten schema) /\ Forall (fun s => st_kind s <> 6) (im_infos m)).
    { pose proof (Images_images _ _ _ _ _ _ _ _ _ _ _ _ _ _ _ _ H5) as Him. rewrite Forall_forall in Him.
      destruct (Him m (nth_error_In _ _ Hm)) as [Hl Hlen]. rewrite Hlcs in Hl. split; [|split; [exact Hl|]].
      - intros k y Hy. split; [|eapply Hlen; exact Hy]. destruct (nth_error (flatten schema) k) as [t|] eqn:Et.
        2: { apply nth_error_None in Et. assert (k < length (im_cols m))%nat; [apply nth_error_Some; congruence|lia]. }
        pose proof (Hcol_of k t Et) as Hck. destruct (Hcolim t (nth_error_In _ _ Et)) as (y' & Hy' & Hid & _).
        rewrite Hck in Hy'. assert (y' = y) as -> by congruence. rewrite Forall_forall in *. intros s Hs. rewrite (Hid s Hs).
        destruct (nth_id schema Hnum t (nth_error_In _ _ Et)) as [Hb _]. unfold col in Hck. lia.
      - destruct (columns_in_range _ _ _ _ (columns_contract deflate F o stride) _ _ _ Hflat H2 Hnumd) as [_ Hrng].
        destruct (columns_contract deflate F o stride) as (_ & Hid & _). pose proof wire_ok as (P1 & _).
        destruct (Images_readable deflate inflate _ _ _ (i_Write I) (i_Size I) (i_Flush I) (i_Index I) (i_WriteOut I)
                (i_Infos I) (i_Stats I) (i_Reset I) (i_of I) cs_hasNull (pb_SF wire) (pb_unSF wire) (pb_unFooter wire) (pb_unPS wire)
                o StripeSize Hid Hflate Hcs P1 _ _ _ _ _ H5 Hrng) as [Hrd _].
        rewrite Forall_forall in Hrd. destruct (Hrd m (nth_error_In _ _ Hm)) as (_ & Hk6 & _).
        eapply Forall_impl; [|exact Hk6]. intros s [Hs _]. exact Hs. }
    destruct Hsimg as (Hcf0 & Hlim & Hk6).
    destruct (stripe_opens inflate o (readerOpts r) Hoo schema Hnum (fr_nodes r) ltac:(rewrite R6; exact Hnodes) bopt Hinc leaf eq_refl Hread file q m a b (zlen q) starts)
      as (tr & E1 & E2); auto.
    + lia.
    + rewrite <- Hfst. eapply Consecutive_offsets. exact Hcon.
    + intros t k y Ht Hit Hk Hy. destruct (Hcolim t Ht) as (y' & Hy' & _ & Hop). assert (y' = y) as -> by congruence.
      destruct (included_read bopt leaf eq_refl schema false None Hread t Ht Hit) as [(p & Hp)|Hp]; [apply (Hop k p); auto|apply (Hop k None); auto].
    + apply Forall_forall. intros [t p] Hp Hh. cbn [fst snd] in *. rewrite Forall_forall in Hst. destruct (Hst _ Hp) as (_ & _ & S3 & _).
      cbn [fst snd] in S3. specialize (S3 Hh). unfold flags_match. destruct p as [p|].
      * rewrite Forall_forall in S3. apply S3. exact Hqin.
      * rewrite Forall_forall in S3 |- *. intros v Hv. apply S3. clear - Hqin Hv. unfold column_of in *. rewrite in_map_iff in *. destruct Hv as (z & Ez & Hz).
        exists z. split; [exact Ez|]. apply filter_In in Hz. apply filter_In. split; [|apply Hz]. destruct Hz as [Hz _].
        apply in_concat in Hz. destruct Hz as (l & Hl & Hz). apply in_concat. exists l. split; [|exact Hz]. apply in_concat. eauto.
    + rewrite Hflag. rewrite E1. eexists. split; [reflexivity|]. unfold SimS. cbn [newStripeR s_rows s_cursor s_pos sr_rows sr_cursor sr_tree].
      split; [reflexivity|]. split; [reflexivity|]. split; [reflexivity|]. pose proof (zlen_nonneg q). split; [lia|]. split.
      { pose proof (zlen_in_concat _ _ Hqin) as Hle.
        lia. }
      split.
      { apply Forall_forall. intros [t p] Hp. rewrite Forall_forall in Hst. destruct (Hst _ Hp) as (S1 & _). cbn [fst] in *. eapply single_in; eassumption. }
      exists tr. split; [reflexivity|]. exact E2.
  - eexists. split; [apply openBatches_ok; rewrite Hopen; cbn [rbind]; rewrite Hfoot; cbn [rbind]; rewrite Hss; reflexivity|]. split.
    + intros x Hxf. rewrite Hflag. destruct (nth_id schema Hnum x Hxf) as [_ Hnx]. apply map_nth_error. exact Hnx.
    + unfold SimW. cbn [br_stripes br_index br_total br_cursor opened b_stripes b_index b_total b_cursor].
      split; [|split; [reflexivity|split; [|reflexivity]]].
      * clear - Hsim. induction Hsim; cbn [map]; constructor; auto.
      * rewrite R1. reflexivity.
Qed.
End Stored.

Section Main.
Variable deflate : list (list Z) -> list Z -> res (list Z).
Variable inflate : list Z -> res (list Z).
Variable F : floats.
Variable o : opts.
Variables stride StripeSize : Z.
Hypothesis Hflate : flate_ok deflate inflate.
Hypothesis Hcs : 1 <= ChunkSize o < 2 ^ 23.
Variables (t0 schema : td) (vs : list (cvec value)) (rows : list (row value)) (file : list Z).
Hypothesis Hsize : size t0 <= 2 ^ 32.
Hypothesis Hnorm : NormalizeSchema t0 = Ok schema.
Hypothesis Hclosed : closed deflate (columns deflate F o stride) wire o StripeSize schema vs file.
Hypothesis Hfile : zlen file < 2 ^ 62.
Hypothesis Hrows : Rows vs rows.
Hypothesis Hnrows : zlen rows < 2 ^ 62.
Variable r : fileR colstats.
Hypothesis Hopen : newFileReader inflate cs_hasNull unmarshalPS unmarshalFooter file = Ok r.
Variable bopt : batchOption.
Hypothesis Hread : readable_schema bopt false schema = true.
Hypothesis Hinc : IsInclude bopt 0 = true.
Hypothesis Hrow : RowSize bopt <> 0.
Notation I := (columns deflate F o stride).

Lemma file_batches : exists rss, rows = concat rss /\ map NumberOfRows (fr_stripes r) = map zlen rss /\
  (Forall (fun l => l <> []) rss -> Forall (fun q => storable (fst q) (snd q) rss) (columns_read bopt None schema) ->
   exists x, openBatches inflate bopt file = Ok (r, x) /\
     flagged (fr_hasNulls r) schema /\
     SimW inflate (readerOpts r) bopt schema x (opened rss)).
Proof.
  assert (Hs32 : size t0 <= 4294967296) by exact Hsize.
  destruct (normalize_spec _ _ Hs32 Hnorm) as (_ & Hnum & Hun).
  assert (Hrw : forall q, Rows vs q -> zlen q < W64).
  { intros q Hq. rewrite (Rows_fun _ _ Hq _ Hrows). change (2 ^ 62) with 4611686018427387904 in Hnrows. lia. }
  destruct (closed_facts deflate _ _ _ I wire o StripeSize schema vs file (columns_contract deflate F o stride) Hclosed ltac:(change (2 ^ 62) with 4611686018427387904 in Hfile; lia) Hrw)
    as (schemas & cs & rows' & rss & ms & csf & raw & fb & psb & H1 & H2 & H3 & H4 & H5 & H6 & H7 & H8 & H9 & H10 & H11).
  assert (rows' = rows) as -> by (eapply Rows_fun; eassumption). rewrite H4 in Hnrows.
  destruct (stored_batches deflate inflate F o stride StripeSize Hflate Hcs t0 schema file Hsize Hnorm Hfile r Hopen bopt Hread Hinc Hrow
              schemas cs csf rss rss ms raw fb psb H1 H2 (Stripes_Images _ _ _ _ _ _ _ _ _ _ _ _ _ _ _ _ _ _ H5) H6 H7 H8 H9 H10 H11 Hnrows) as (S1 & _ & S2).
  { clear. induction rss; constructor; [|assumption]. intros x. exists []. rewrite app_nil_r. reflexivity. }
  exists rss. split; [exact H4|]. split; [exact S1|]. intros Hne Hst. apply S2; [exact Hne|exact Hst|].
  intros t p k Hp Hk Hl. rewrite Forall_forall in Hst. specialize (Hst _ Hp). eapply storable_segs; eassumption.
Qed.
End Main.
