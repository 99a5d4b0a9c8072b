(** Opening a file does not crash. *)
From Coq Require Import ZifyBool ZifyNat.
From Verif.Model Require Import Go Chunk Stream Schema File Column Wire Tree Assembled.
From Verif.Spec Require Import CrashSpec OpenSpec.
From Verif.Proofs Require Import Base OpenBatchP StripeNpP ChunkP TailP OpenTreeP CrashP.

Lemma np_mapM {A B} (f : A -> res B) l : (forall x, f x <> Panic) -> mapM f l <> Panic.
Proof. intros H. induction l as [|x l IH]; cbn [mapM]; [discriminate|]. apply np_bind; [apply H|]. intros a _. apply np_bind; [exact IH|discriminate]. Qed.
Lemma np_decFields n : forall l, decFields n l <> Panic.
Proof.
  induction n as [|n IH]; intros [|x l]; cbn [decFields]; try discriminate. destruct (decField (x :: l)) as [[y r]|]; [|discriminate].
  apply np_bind; [apply IH|discriminate].
Qed.
Lemma np_decMsg l : decMsg l <> Panic. Proof. apply np_decFields. Qed.
Lemma np_unpackF n : forall l, unpackF n l <> Panic.
Proof.
  induction n as [|n IH]; intros [|x l]; cbn [unpackF]; try discriminate. destruct (unuv (x :: l)) as [[y r]|]; [|discriminate].
  apply np_bind; [apply IH|discriminate].
Qed.
Ltac np := repeat first [discriminate | apply np_decMsg | apply np_unpackF | apply np_mapM; intros ? | apply np_bind; [|intros ? _]].
Ltac zcases := repeat match goal with |- context [match ?x with _ => _ end] => destruct x; try discriminate end.
Lemma np_numKind n : numKind n <> Panic. Proof. unfold numKind. zcases. Qed.
Lemma np_numTkind n : numTkind n <> Panic. Proof. unfold numTkind. zcases. Qed.
Lemma np_PS x : unmarshalPS x <> Panic.
Proof. unfold unmarshalPS. np. apply np_numKind. Qed.
Lemma np_stats x : decStats x <> Panic.
Proof.
  unfold decStats. apply np_bind; [apply np_decMsg|]. intros fs _. apply np_bind; [|discriminate].
  generalize [2; 3; 4; 5; 6; 7; 8; 9]. induction l as [|n r IH]; cbn [firstDetail]; [discriminate|].
  destruct (getB n fs) as [b|]; [|exact IH]. apply np_bind; [|discriminate]. unfold decDetail. apply np_bind; [apply np_decMsg|].
  intros gs _. cbv zeta. destruct n as [|q|q]; try discriminate. do 4 (try (destruct q as [q|q|]; try discriminate)). all: np.
Qed.
Lemma np_footer x : unmarshalFooter x <> Panic.
Proof.
  unfold unmarshalFooter. apply np_bind; [apply np_decMsg|intros fs _]. apply np_bind; [unfold decInfo; np|intros is _].
  apply np_bind; [unfold decType; apply np_mapM; intros y; np; apply np_numTkind|intros ts _]. apply np_bind; [apply np_mapM; exact np_stats|discriminate].
Qed.
Lemma np_SF x : unmarshalSF x <> Panic.
Proof. unfold unmarshalSF, decStream, decEncoding. np. Qed.
Lemma np_index x : unmarshalIndex x <> Panic.
Proof. unfold unmarshalIndex, decPositions. np. Qed.

Section Opening.
Variable inflate : list Z -> res (list Z).
Hypothesis Ht : tame inflate.

Lemma np_loop n : forall src, bytes src -> (length src <= n)%nat -> fine bytes (decompress_loop inflate n src).
Proof.
  induction n as [|n IH]; intros [|x src] Hb Hl; cbn [decompress_loop]; try (cbn in Hl; lia); try (cbn; constructor).
  destruct (DecChunkHeader _ _ _) as [l orig]. eapply fine_bind; [apply copyN_fine, bytes_skipn, Hb|]. intros [p src'] (H1 & H2 & H3 & _). cbn [fst snd] in *.
  eapply (fine_bind bytes).
  - destruct orig; [exact H1|]. destruct (Ht p H1) as [K1 K2]. apply fine_of; assumption.
  - intros d Hd. eapply (fine_bind bytes); [apply IH; [exact H2|rewrite skipn_length in H3; cbn in *; lia]|].
    intros t Htt. cbn. apply bytes_app. auto.
Qed.
Lemma np_unframe k x : bytes x -> fine bytes (unframe inflate k x).
Proof. intros Hx. destruct k; cbn; try exact I; [exact Hx|]. apply np_loop; [exact Hx|lia]. Qed.
Lemma bytes_ztake n l : bytes l -> bytes (ztake n l).
Proof. apply bytes_firstn. Qed.

Variable b : batchOption.
Variable file : list Z.
Hypothesis Hf : bytes file.

(** *** The tail *)
Lemma last_nth (l : list Z) : last l 0 = nth (length l - 1) l 0.
Proof. induction l as [|a [|c l] IH]; [reflexivity..|]. change (last (c :: l) 0 = nth (S (length l)) (a :: c :: l) 0). rewrite IH. cbn [length]. replace (S (length l) - 1)%nat with (length l) by lia. reflexivity. Qed.
Lemma nth_skip k : forall i (l : list Z), nth i (skipn k l) 0 = nth (k + i) l 0.
Proof. induction k as [|k IH]; intros i [|a l]; try reflexivity; [destruct i; reflexivity|exact (IH i l)]. Qed.
Lemma tail_fine : sound inflate b file -> fine (fun t => forall ps f, t = Some (ps, f) -> postscript_of file ps /\ footer_of inflate file ps f)
  (extractFileTail inflate unmarshalPS unmarshalFooter file) /\ extractFileTail inflate unmarshalPS unmarshalFooter file <> Ok None.
Proof.
  intros (Hne & Hps & Hall). unfold extractFileTail. assert (0 < zlen file) by (destruct file; [congruence|rewrite zlen_cons; unfold zlen; lia]).
  destruct (Z.eqb_spec (zlen file) 0); [lia|]. destruct (Z.leb_spec (zlen file) 3) as [|H3]; [split; [exact I|discriminate]|].
  specialize (Hps H3). set (readSize := Z.min (zlen file) 16384) in *.
  assert (Hlen : zlen (zdrop (zlen file - readSize) file) = readSize).
  { rewrite zlen_zdrop by (unfold readSize; lia). lia. }
  assert (Hlast : nth (Z.to_nat (readSize - 1)) (zdrop (zlen file - readSize) file) 0 = ps_length file).
  { unfold zdrop. rewrite nth_skip. unfold ps_length. rewrite last_nth. f_equal. assert (1 <= readSize <= zlen file) by (unfold readSize; lia). clearbody readSize. unfold zlen in *. lia. }
  cbv zeta. rewrite Hlast. assert (Hp0 : 0 <= ps_length file).
  { unfold ps_length. destruct file as [|x l] eqn:E; [cbn; lia|]. rewrite <- E in *. rewrite last_nth.
    assert (Hin : In (nth (length file - 1) file 0) file) by (apply nth_In; unfold zlen in *; lia).
    pose proof (proj1 (Forall_forall _ _) Hf _ Hin) as Hb. unfold is_u8 in Hb. lia. }
  set (psLen := ps_length file) in *. destruct (Z.ltb_spec (readSize - 1 - psLen) 0); [lia|].
  assert (Hcut : forall k n, 0 <= k -> 0 <= n -> ztake n (zdrop k (zdrop (zlen file - readSize) file)) = ztake n (zdrop (zlen file - readSize + k) file)).
  { intros k m Hk Hm. rewrite zdrop_zdrop by (unfold readSize; lia). do 2 f_equal; lia. }
  rewrite Hcut by lia. replace (zlen file - readSize + (readSize - 1 - psLen)) with (zlen file - 1 - psLen) by lia.
  destruct (unmarshalPS _) as [ps| |] eqn:Eps; cbn [rbind]; [|split; [exact I|discriminate]|exfalso; exact (np_PS _ Eps)].
  destruct (Hall ps Eps) as (Hfl0 & Hor & _). unfold lengths_sound in Hor. fold psLen readSize in Hor.
  destruct (Z_lt_dec (p_footerLength ps + psLen) readSize) as [Hfl|Hbig].
  2:{ destruct Hor as [Hor|(Hsz & Hf62 & Hm62)]; [lia|].
    assert (Hrs : readSize = zlen file) by (unfold readSize; lia). assert (psLen < 16384) by (unfold readSize in *; lia). change (2 ^ 62) with 4611686018427387904 in *.
    rewrite (i64_id (p_footerLength ps)) by (unfold is_i64; lia). rewrite (i64_id (p_metadataLength ps)) by (unfold is_i64; lia).
    rewrite (i64_id (psLen + 1 + p_footerLength ps + p_metadataLength ps - readSize)) by (unfold is_i64; lia). rewrite Z.max_r by lia. destruct (Z.ltb_spec 0 (psLen + 1 + p_footerLength ps + p_metadataLength ps - readSize)); [|lia].
    rewrite i64_id by (unfold is_i64; lia).
    destruct (Z.ltb_spec (zlen file - readSize - (psLen + 1 + p_footerLength ps + p_metadataLength ps - readSize)) 0); [|lia]. split; [exact I|discriminate]. }
  assert (E64 : i64 (p_footerLength ps) = p_footerLength ps) by (apply i64_id; unfold is_i64, readSize in *; lia). rewrite E64.
  match goal with |- context [if 0 <? ?e then _ else _] => set (extra := e) end.
  match goal with |- context [rbind (if 0 <? extra then ?x else ?y) _] => assert (Hbuf : exists more, (if 0 <? extra then x else y) = Err \/ (if 0 <? extra then x else y) = Ok (zdrop (zlen file - readSize) file ++ more)) end.
  { destruct (0 <? extra); [|exists []; right; rewrite app_nil_r; reflexivity]. destruct (_ <? 0); [exists []; left; reflexivity|eexists; right; reflexivity]. }
  destruct Hbuf as (more & [-> | ->]); cbn [rbind]; [split; [exact I|discriminate]|].
  assert (Es : i64 (readSize - 1 - psLen - p_footerLength ps) = readSize - 1 - psLen - p_footerLength ps) by (apply i64_id; unfold is_i64, readSize in *; lia). rewrite Es.
  destruct (Z.ltb_spec (readSize - 1 - psLen - p_footerLength ps) 0); [lia|]. destruct (Z.ltb_spec (readSize - 1 - psLen) (readSize - 1 - psLen - p_footerLength ps)); [lia|]. cbn [orb].
  assert (Ef : ztake (p_footerLength ps) (zdrop (readSize - 1 - psLen - p_footerLength ps) (zdrop (zlen file - readSize) file ++ more)) =
               ztake (p_footerLength ps) (zdrop (zlen file - 1 - psLen - p_footerLength ps) file)).
  { replace (zlen file - 1 - psLen - p_footerLength ps) with (zlen file - readSize + (readSize - 1 - psLen - p_footerLength ps)) by lia.
    rewrite <- Hcut by lia. generalize dependent (zdrop (zlen file - readSize) file). intros buf Hb _ _. unfold ztake, zdrop. rewrite skipn_app, firstn_app.
    replace (Z.to_nat (p_footerLength ps) - length (skipn (Z.to_nat (readSize - 1 - psLen - p_footerLength ps)) buf))%nat with 0%nat by (rewrite skipn_length; unfold zlen in *; lia).
    cbn [firstn]. apply app_nil_r. }
  rewrite Ef. match goal with |- context [rbind (match p_compression ps with NONE => ?a | ZLIB => ?z | SNAPPY => ?c | LZO => ?d | LZ4 => ?e | ZSTD => ?g end) _] =>
    replace (match p_compression ps with NONE => a | ZLIB => z | SNAPPY => c | LZO => d | LZ4 => e | ZSTD => g end) with
      (unframe inflate (p_compression ps) (ztake (p_footerLength ps) (zdrop (zlen file - 1 - psLen - p_footerLength ps) file))) by (destruct (p_compression ps); reflexivity) end.
  pose proof (np_unframe (p_compression ps) _ (bytes_ztake (p_footerLength ps) _ (bytes_zdrop (zlen file - 1 - psLen - p_footerLength ps) _ Hf))) as Hun.
  destruct (unframe _ _ _) as [x| |] eqn:Ex; cbn [rbind]; [|split; [exact I|discriminate]|contradiction].
  destruct (unmarshalFooter x) as [f| |] eqn:Eft; cbn [rbind]; [|split; [exact I|discriminate]|exfalso; exact (np_footer _ Eft)].
  split; [|discriminate]. cbn. intros ps' f' E. injection E as <- <-. split; [exact Eps|]. unfold footer_of. fold psLen. rewrite Ex. exact Eft.
Qed.

(** *** The schema *)
Lemma nodes_ok n l : Forall (fun t => Forall (fun s => 0 <= s < n) (t_sub t) /\ (t_kind t = STRUCT -> (length (t_sub t) <= length (t_names t))%nat)) l ->
  exists ns, unmarshallNodes n l = Ok ns /\ Forall2 (fun t x => n_sub x = t_sub t) l ns.
Proof.
  induction 1 as [|t l (H1 & H2) _ IH]; cbn [unmarshallNodes]; [exists []; split; [reflexivity|constructor]|].
  assert (Hn : exists x, unmarshallNode n t = Ok x /\ n_sub x = t_sub t).
  { unfold unmarshallNode. destruct (t_sub t) as [|s sub] eqn:E; [eexists; split; reflexivity|]. rewrite <- E in *.
    assert (isStruct (t_kind t) && (length (t_names t) <? length (t_sub t))%nat = false) as ->.
    { destruct (t_kind t); try reflexivity. specialize (H2 eq_refl). cbn [isStruct andb]. apply Nat.ltb_ge. exact H2. }
    assert (forallb (fun s => s <? n) (t_sub t) = true) as -> by (apply forallb_forall; intros y Hy; rewrite Forall_forall in H1; specialize (H1 _ Hy); lia).
    eexists; split; reflexivity. }
  destruct Hn as (x & -> & Hx). destruct IH as (ns & -> & Hns). cbn [rbind]. exists (x :: ns). split; [reflexivity|]. constructor; assumption.
Qed.

Variable o : opts.
Lemma np_readIndex start len : readIndex inflate o file start len <> Panic.
Proof.
  unfold readIndex. destruct (_ <? 0); [discriminate|]. destruct (_ <? len); [discriminate|].
  apply np_bind; [|intros; apply np_index].
  pose proof (np_unframe (CompressionKind o) _ (bytes_ztake len _ (bytes_zdrop (i64 start) _ Hf))) as Hu.
  destruct (CompressionKind o); cbn in Hu |- *; try discriminate. apply (fine_np _ _ Hu).
Qed.
End Opening.

(** *** All together *)
Lemma starts_columns l : forall a c, map fst (streamStarts a c l) = l.
Proof. induction l as [|s l IH]; intros a c; cbn [streamStarts]; [reflexivity|]. destruct (_ =? 6); cbn [map fst]; rewrite IH; reflexivity. Qed.
Lemma open_sound inflate b file : tame inflate -> bytes file -> sound inflate b file -> openBatches inflate b file <> Panic.
Proof.
  intros Ht Hf Hs. pose proof (tail_fine inflate Ht b file Hf Hs) as [H1 H2]. unfold openBatches, newFileReader.
  destruct (extractFileTail inflate unmarshalPS unmarshalFooter file) as [[[ps f]|]| |]; cbn [rbind]; [|congruence|discriminate|contradiction].
  destruct (H1 ps f eq_refl) as [Hps Hft]. clear H1 H2. destruct Hs as (_ & _ & Hs). destruct (Hs ps Hps) as (_ & _ & Hs'). destruct (Hs' f Hft) as ((Hty & Hst) & Hpar & Hsf). clear Hs Hs'.
  destruct (f_rows f =? 0); [discriminate|]. destruct (nodes_ok (zlen (f_types f)) (f_types f) Hty) as (ns & En & H2n). unfold unmarshallSchema. rewrite En. cbn [rbind].
  assert (Hlen : length ns = length (f_types f)) by (clear - H2n; induction H2n; cbn; congruence).
  destruct (Nat.ltb_spec (length ns) (length (f_stats f))); [lia|]. cbn [rbind].
  assert (Hnth : forall i x, nth_error ns i = Some x -> exists t, nth_error (f_types f) i = Some t /\ n_sub x = t_sub t).
  { clear - H2n. induction H2n as [|t x l l' H _ IH]; intros [|i] y Hy; try discriminate Hy; [injection Hy as <-; exists t; auto|exact (IH i y Hy)]. }
  destruct (RowSize b =? 0); [discriminate|]. cbn [fr_nodes fr_hasNulls fr_stripes]. apply np_bind; [|discriminate].
  match goal with |- openStripes _ ?oo _ ?hs _ _ _ <> Panic => set (o := oo); set (gs := hs) end.
  assert (Hgs : length gs = length ns) by (unfold gs; rewrite map_length, seq_length; reflexivity). clearbody gs.
  assert (Ho : CompressionKind o = p_compression ps) by reflexivity. clearbody o.
  assert (G : forall l, (forall i, In i l -> In i (f_stripes f)) -> openStripes inflate o ns gs b file l <> Panic); [|apply G; auto].
  induction l as [|i l IH]; intros Hin; cbn [openStripes]; [discriminate|]. destruct (NumberOfRows i =? 0); [discriminate|].
  pose proof (np_unframe inflate Ht (p_compression ps) _ (bytes_ztake (FooterLength i) _ (bytes_zdrop (i64 (Offset i + IndexLength i + DataLength i)) _ Hf))) as Hu.
  assert (Hop : fine (fun x => exists sf, stripe_footer_of inflate file ps i sf /\ x = (sf_columns sf, streamStarts (Offset i) (u64 (Offset i + IndexLength i)) (sf_streams sf)))
     (openStripe inflate unmarshalSF (CompressionKind o) file i)).
  { unfold openStripe. destruct (_ <? 0); [exact I|]. destruct (_ <? FooterLength i); [exact I|]. rewrite Ho.
    match goal with |- context [rbind (match p_compression ps with NONE => ?a | ZLIB => ?z | SNAPPY => ?c | LZO => ?d | LZ4 => ?e | ZSTD => ?g end) _] =>
      replace (match p_compression ps with NONE => a | ZLIB => z | SNAPPY => c | LZO => d | LZ4 => e | ZSTD => g end) with
        (unframe inflate (p_compression ps) (ztake (FooterLength i) (zdrop (i64 (Offset i + IndexLength i + DataLength i)) file))) by (destruct (p_compression ps); reflexivity) end.
    destruct (unframe _ _ _) as [x| |] eqn:Ex; cbn [rbind]; [|exact I|contradiction].
    destruct (unmarshalSF x) as [sf| |] eqn:Esf; cbn [rbind]; [|exact I|exact (np_SF _ Esf)].
    cbn. exists sf. split; [|reflexivity]. unfold stripe_footer_of. rewrite Ex. exact Esf. }
  destruct (openStripe _ _ _ _ _) as [x| |]; cbn [rbind]; [|discriminate|contradiction]. destruct Hop as (sf & Hsf' & ->).
  destruct (Hsf i sf (Hin i (or_introl eq_refl)) Hsf') as [Hc Hstr]. rewrite <- Hlen in Hc, Hstr.
  apply np_bind; [|intros ? _; apply np_bind; [apply IH; intros j Hj; apply Hin; right; exact Hj|discriminate]].
  apply np_stripe; try assumption.
  - intros k x c Hx Hcc. destruct (Hnth k x Hx) as (t & Hti & E). rewrite E in Hcc. rewrite Forall_forall in Hty. destruct (Hty t (nth_error_In _ _ Hti)) as [Hty1 _].
    rewrite Forall_forall in Hty1. specialize (Hty1 c Hcc). unfold zlen in *. rewrite Hlen. exact Hty1.
  - intros k x c Hx Hcc. destruct (Hnth k x Hx) as (t & Hti & E). rewrite E in Hcc. exact (Hpar k t c Hti Hcc).
  - left. intros st len. apply np_readIndex; assumption.
  - cbn [snd]. rewrite <- (starts_columns (sf_streams sf) (Offset i) (u64 (Offset i + IndexLength i))) in Hstr. rewrite Forall_map in Hstr.
    eapply Forall_impl; [|exact Hstr]. cbv beta. intros p Hp. lia.
Qed.
