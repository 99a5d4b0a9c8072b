(** Proofs about Model/Stream.v: the writer produces well-formed chunks, the reader is a
    byte pipe, recorded positions. *)
From Verif.Model Require Import Chunk Stream.
From Verif.Spec Require Import Session ChunkSpec StreamSpec.
From Verif.Proofs Require Import Base ChunkP SessionP.

Lemma concat_nil {A} (ds : list (list A)) : Forall (fun d => d <> []) ds -> concat ds = [] -> ds = [].
Proof. destruct ds as [|d t]; [reflexivity|]. intros H. inversion H; subst. destruct d; [congruence|discriminate]. Qed.
Lemma zlen_pos {A} (l : list A) : l <> [] -> 0 < zlen l.
Proof. destruct l; [congruence|]. rewrite zlen_cons. pose proof (zlen_nonneg l). lia. Qed.
Lemma Chunked_nil_inv inflate cs ds : Chunked inflate cs [] ds -> ds = [].
Proof. intros H. inversion H; reflexivity. Qed.
Lemma Chunked_cons_enc inflate cs enc d ds : Chunked inflate cs enc (d :: ds) -> 3 <= zlen enc.
Proof.
  intros H. inversion H; subst; unfold le24; cbn [app]; rewrite !zlen_cons;
    match goal with |- context [zlen ?l] => pose proof (zlen_nonneg l) end; lia.
Qed.

(** ** Writer *)
Section Writer.
Variable deflate : list (list Z) -> list Z -> res (list Z).
Variable inflate : list Z -> res (list Z).
Hypothesis Hok : flate_ok deflate inflate.
Variable E V : Type.
Variable enc : E -> V -> res (E * list Z).
Variable flush : E -> res (E * list Z).
Variable o : opts.
Hypothesis Ho : supported o.

Let cs := ChunkSize o.
Lemma Hcs : 1 <= cs < 2 ^ 23. Proof. apply Ho. Qed.

(** [w] was reached from a state with buffers [cb], [b] by adding the bytes [m]. *)
Definition Ext (cb b : list Z) (w : writer E) (m : list Z) : Prop :=
  match CompressionKind o with
  | NONE => w_buf w = b ++ m
  | _ => exists x ds, w_cbuf w = cb ++ x /\ Chunked inflate cs x ds /\
           concat ds ++ w_buf w = b ++ m /\ Forall (fun d => zlen d = cs) ds /\
           zlen (w_buf w) <= cs /\ zlen b <= cs
  end.
Definition Final (cb b : list Z) (w : writer E) (m : list Z) : Prop :=
  w_length w = zlen (stored o w) /\
  match CompressionKind o with
  | NONE => stored o w = b ++ m
  | _ => exists x ds, stored o w = cb ++ x /\ Chunked inflate cs x ds /\
           concat ds = b ++ m /\ Forall (fun d => d <> []) ds /\
           (forall d t, ds = d :: t -> zlen b <= zlen d)
  end.

Lemma Ext_new e : Ext [] [] (newWriter e) [].
Proof.
  clear enc flush V.
  pose proof Hcs. unfold Ext. destruct Ho as [[Hk|Hk] _]; rewrite Hk; [reflexivity|].
  exists [], []. cbn. repeat split; try constructor; rewrite ?zlen_nil; lia.
Qed.
(** The same state, seen as a new starting point. *)
Lemma Ext_rebase cb b w m : Ext cb b w m -> Ext (w_cbuf w) (w_buf w) w [].
Proof.
  pose proof Hcs. unfold Ext. destruct Ho as [[Hk|Hk] _]; rewrite Hk.
  - intros _. rewrite app_nil_r. reflexivity.
  - intros (x & ds & _ & _ & _ & _ & Hb & _). exists [], []. rewrite !app_nil_r.
    repeat split; try constructor; assumption.
Qed.

Lemma write_ext cb b w m v w' : Ext cb b w m -> w_Write deflate enc o w v = Ok w' ->
  exists e out, enc (w_enc w) v = Ok (e, out) /\ w_enc w' = e /\ Ext cb b w' (m ++ out).
Proof.
  pose proof Hcs as HC. intros Hx H. unfold w_Write in H. apply rbind_inv in H.
  destruct H as ([e out] & He & H). exists e, out. split; [exact He|].
  unfold Ext in *. destruct Ho as [[Hk|Hk] _]; rewrite Hk in *; cbn [isNone negb andb] in H.
  - apply (f_equal (fun r => match r with Ok a => a | _ => w end)) in H. subst w'. cbn.
    split; [reflexivity|]. rewrite Hx, app_assoc. reflexivity.
  - destruct Hx as (x & ds & Hcb & Hch & Hcat & Hall & Hb & Hbb).
    fold cs in H. destruct (Z.ltb_spec cs (zlen (w_buf w ++ out))) as [Hl|Hl].
    + apply rbind_inv in H. destruct H as ([c buf'] & Hc & H).
      apply (f_equal (fun r => match r with Ok a => a | _ => w end)) in H. subst w'. cbn.
      split; [reflexivity|]. cbn [CompressingChunks] in Hc.
      apply (toChunks_spec inflate cs HC deflate Hok) in Hc.
      destruct Hc as (ds2 & Hch2 & Hcat2 & Hle2 & Hall2 & _).
      exists (x ++ c), (ds ++ ds2). split; [rewrite Hcb, app_assoc; reflexivity|].
      split; [apply Chunked_app; assumption|]. split; [|split; [apply Forall_app; auto|auto]].
      rewrite concat_app, <- app_assoc, Hcat2, app_assoc, Hcat, app_assoc. reflexivity.
    + apply (f_equal (fun r => match r with Ok a => a | _ => w end)) in H. subst w'. cbn.
      split; [reflexivity|]. exists x, ds. repeat split; auto.
      rewrite !app_assoc, Hcat. reflexivity.
Qed.

Lemma writes_ext vs : forall cb b w m w', Ext cb b w m -> writeAll deflate enc o w vs = Ok w' ->
  exists e out, feed enc (w_enc w) vs = Ok (e, out) /\ w_enc w' = e /\ Ext cb b w' (m ++ out).
Proof.
  induction vs as [|v t IH]; intros cb b w m w' Hx H; cbn [writeAll feed] in *.
  - assert (w' = w) as -> by congruence. exists (w_enc w), []. rewrite app_nil_r. auto.
  - apply rbind_inv in H. destruct H as (w1 & H1 & H).
    destruct (write_ext _ _ _ _ _ _ Hx H1) as (e1 & o1 & -> & <- & Hx1). cbn [rbind].
    destruct (IH _ _ _ _ _ Hx1 H) as (e2 & o2 & -> & <- & Hx2). cbn [rbind].
    exists (w_enc w'), (o1 ++ o2). rewrite app_assoc. auto.
Qed.

Lemma flush_ext cb b w m w' : Ext cb b w m -> w_Flush deflate flush o w = Ok w' ->
  exists e out, flush (w_enc w) = Ok (e, out) /\ w_enc w' = e /\ Final cb b w' (m ++ out).
Proof.
  pose proof Hcs as HC. intros Hx H. unfold w_Flush in H. apply rbind_inv in H.
  destruct H as ([e out] & He & H). exists e, out. split; [exact He|].
  unfold Ext, Final, stored, w_WriteOut in *.
  destruct Ho as [[Hk|Hk] _]; rewrite Hk in *; cbn [isNone fst] in *.
  - apply (f_equal (fun r => match r with Ok a => a | _ => w end)) in H. subst w'. cbn.
    split; [reflexivity|]. split; [reflexivity|]. rewrite Hx, app_assoc. reflexivity.
  - destruct Hx as (x & ds & Hcb & Hch & Hcat & Hall & Hb & Hbb). fold cs in H.
    apply rbind_inv in H. destruct H as ([c buf'] & Hc & H).
    apply (f_equal (fun r => match r with Ok a => a | _ => w end)) in H. subst w'. cbn.
    split; [reflexivity|]. split; [reflexivity|].
    assert (Hne : Forall (fun d => d <> []) ds).
    { eapply Forall_impl; [|exact Hall]. intros d Hd ->. rewrite zlen_nil in Hd. lia. }
    destruct (Z.ltb_spec 0 (zlen (w_buf w ++ out))) as [Hl|Hl].
    + apply (all_spec inflate cs HC deflate Hok) in Hc.
      destruct Hc as (-> & ds2 & last & Hch2 & Hcat2 & Hall2 & Hlast & Hlne).
      exists (x ++ c), (ds ++ ds2 ++ [last]). split; [rewrite Hcb, app_assoc; reflexivity|].
      split; [apply Chunked_app; assumption|].
      assert (Hc2 : concat (ds2 ++ [last]) = w_buf w ++ out).
      { rewrite concat_app. cbn [concat]. rewrite app_nil_r. exact Hcat2. }
      assert (HC2 : concat (ds ++ ds2 ++ [last]) = b ++ m ++ out).
      { rewrite concat_app, Hc2, app_assoc, Hcat, app_assoc. reflexivity. }
      split; [exact HC2|]. split.
      * apply Forall_app. split; [exact Hne|]. apply Forall_app. split.
        -- eapply Forall_impl; [|exact Hall2]. intros d Hd ->. rewrite zlen_nil in Hd. lia.
        -- apply Forall_cons; [|constructor]. apply Hlne. intros En. rewrite En in Hl. cbn in Hl. lia.
      * intros d t Eq. destruct ds as [|d1 ds1]; [destruct ds2 as [|d2 ds3]|]; cbn [app] in Eq.
        -- injection Eq as <- <-. cbn [concat app] in HC2. rewrite app_nil_r in HC2.
           rewrite HC2, zlen_app. pose proof (zlen_nonneg (m ++ out)). lia.
        -- injection Eq as <- <-. apply Forall_inv in Hall2. lia.
        -- injection Eq as <- <-. apply Forall_inv in Hall. lia.
    + assert (En : w_buf w ++ out = []) by (apply zlen_0; pose proof (zlen_nonneg (w_buf w ++ out)); lia).
      assert (c = []) as -> by congruence.
      exists x, ds. rewrite app_nil_r. split; [exact Hcb|]. split; [exact Hch|].
      assert (Hcd : concat ds = b ++ m ++ out).
      { rewrite app_assoc, <- Hcat, <- app_assoc, En, app_nil_r. reflexivity. }
      split; [exact Hcd|]. split; [exact Hne|].
      intros d t Eq. rewrite Eq in Hall. apply Forall_inv in Hall. lia.
Qed.

Lemma stream_final w vs w' cb b m : Ext cb b w m -> writeStream deflate enc flush o w vs = Ok w' ->
  exists e out, segment enc flush (w_enc w) vs = Ok (e, out) /\ w_enc w' = e /\ Final cb b w' (m ++ out).
Proof.
  intros Hx H. unfold writeStream in H. apply rbind_inv in H. destruct H as (w1 & H1 & H).
  destruct (writes_ext _ _ _ _ _ _ Hx H1) as (e1 & o1 & Hf & <- & Hx1).
  destruct (flush_ext _ _ _ _ _ Hx1 H) as (e2 & o2 & Hfl & <- & Hfin).
  exists (w_enc w'), (o1 ++ o2). unfold segment. rewrite Hf. cbn [rbind]. rewrite Hfl. cbn [rbind].
  rewrite app_assoc. auto.
Qed.

(** Success. *)
Hypothesis Htot : flate_total deflate.
Lemma write_total w v e out : enc (w_enc w) v = Ok (e, out) ->
  exists w', w_Write deflate enc o w v = Ok w' /\ w_enc w' = e.
Proof.
  pose proof Hcs as HC. intros He. unfold w_Write. rewrite He. cbn [rbind].
  destruct Ho as [[Hk|Hk] _]; rewrite Hk; cbn [isNone negb andb]; [eexists; split; reflexivity|].
  fold cs. destruct (Z.ltb_spec cs (zlen (w_buf w ++ out))); [|eexists; split; reflexivity].
  cbn [CompressingChunks].
  destruct (toChunks_total deflate Htot cs ltac:(lia) (length (w_buf w ++ out)) [] (w_buf w ++ out)) as (c & r & -> & _); [lia|].
  eexists; split; reflexivity.
Qed.
Lemma writes_total vs : forall w e out, feed enc (w_enc w) vs = Ok (e, out) ->
  exists w', writeAll deflate enc o w vs = Ok w' /\ w_enc w' = e.
Proof.
  induction vs as [|v t IH]; intros w e out H; cbn [feed writeAll] in *.
  - exists w. split; congruence.
  - apply rbind_inv in H. destruct H as ([e1 o1] & H1 & H). apply rbind_inv in H.
    destruct H as ([e2 o2] & H2 & H). destruct (write_total _ _ _ _ H1) as (w1 & -> & <-). cbn [rbind].
    destruct (IH _ _ _ H2) as (w2 & -> & <-). exists w2. split; congruence.
Qed.
Lemma stream_total vs w e out : segment enc flush (w_enc w) vs = Ok (e, out) ->
  exists w', writeStream deflate enc flush o w vs = Ok w'.
Proof.
  pose proof Hcs as HC. unfold segment. intros H. apply rbind_inv in H. destruct H as ([e1 o1] & H1 & H).
  apply rbind_inv in H. destruct H as ([e2 o2] & H2 & H).
  destruct (writes_total _ _ _ _ H1) as (w1 & Hw & <-). unfold writeStream. rewrite Hw. cbn [rbind].
  unfold w_Flush. rewrite H2. cbn [rbind].
  destruct Ho as [[Hk|Hk] _]; rewrite Hk; cbn [isNone]; [eauto|].
  destruct (0 <? zlen (w_buf w1 ++ o2)); [|cbn [rbind]; eauto].
  fold cs. destruct (all_total deflate Htot cs ltac:(lia) (w_buf w1 ++ o2)) as [c ->]. cbn [rbind]. eauto.
Qed.
End Writer.

(** ** A writer whose encoder never emits more than one chunk at a time *)
Section Fresh.
Variable deflate : list (list Z) -> list Z -> res (list Z).
Variable E V : Type.
Variable enc : E -> V -> res (E * list Z).
Variable flush : E -> res (E * list Z).
Variable o : opts.
Hypothesis Ho : supported o.
Hypothesis Henc : forall e v e' out, enc e v = Ok (e', out) -> zlen out <= ChunkSize o.
Hypothesis Hflush : forall e e' out, flush e = Ok (e', out) -> zlen out <= ChunkSize o.

Lemma write_fresh w v : CompressionKind o = ZLIB -> zlen (w_buf w) <= ChunkSize o ->
  w_Write deflate enc o w v = w_Write (fresh deflate) enc o w v /\
  forall w', w_Write deflate enc o w v = Ok w' -> zlen (w_buf w') <= ChunkSize o.
Proof.
  destruct Ho as [_ Hc]. intros Hk Hb. unfold w_Write. rewrite Hk. cbn [isNone negb andb CompressingChunks].
  destruct (enc (w_enc w) v) as [[e out]| |] eqn:He; cbn [rbind]; [|split; [reflexivity|discriminate]..].
  apply Henc in He. destruct (Z.ltb_spec (ChunkSize o) (zlen (w_buf w ++ out))) as [Hl|Hl].
  - rewrite zlen_app in Hl. split; [rewrite toChunks_fresh by (rewrite ?zlen_app; lia); reflexivity|].
    intros w' H. apply rbind_inv in H. destruct H as ([c buf'] & H1 & H).
    apply (f_equal (fun r => match r with Ok a => a | _ => w end)) in H. subst w'. cbn.
    clear -H1 Hc. revert H1. generalize (length (w_buf w ++ out)) as n. generalize (@nil (list Z)) as h.
    generalize (w_buf w ++ out) as s. intros s h n. revert s h c. 
    induction n as [|n IH]; intros s h c H; cbn [zlibCompressingToChunks] in H;
      destruct (Z.leb_spec (zlen s) (ChunkSize o)); try discriminate; try (assert (buf' = s) by congruence; subst; lia).
    apply rbind_inv in H. destruct H as (d & _ & H). apply rbind_inv in H. destruct H as ([c' b'] & H1 & H).
    assert (buf' = b') by congruence. subst. apply IH in H1. exact H1.
  - split; [reflexivity|]. intros w' H. 
    apply (f_equal (fun r => match r with Ok a => a | _ => w end)) in H. subst w'. exact Hl.
Qed.
Lemma writes_fresh vs : forall w, CompressionKind o = ZLIB -> zlen (w_buf w) <= ChunkSize o ->
  writeAll deflate enc o w vs = writeAll (fresh deflate) enc o w vs /\
  forall w', writeAll deflate enc o w vs = Ok w' -> zlen (w_buf w') <= ChunkSize o.
Proof.
  induction vs as [|v t IH]; intros w Hk Hb; cbn [writeAll].
  - split; [reflexivity|]. intros w' H. assert (w' = w) as -> by congruence. exact Hb.
  - destruct (write_fresh w v Hk Hb) as [<- Hb'].
    destruct (w_Write deflate enc o w v) as [w1| |] eqn:H1; cbn [rbind]; [|split; [reflexivity|discriminate]..].
    apply IH; auto.
Qed.
Lemma stream_fresh w vs : (CompressionKind o = ZLIB -> zlen (w_buf w) <= ChunkSize o) ->
  writeStream deflate enc flush o w vs = writeStream (fresh deflate) enc flush o w vs.
Proof.
  intros Hb. unfold writeStream. destruct Ho as [[Hk|Hk] Hc].
  - assert (E1 : forall l w1, writeAll deflate enc o w1 l = writeAll (fresh deflate) enc o w1 l).
    { induction l as [|v t IH]; intros w1; cbn [writeAll]; [reflexivity|].
      assert (w_Write deflate enc o w1 v = w_Write (fresh deflate) enc o w1 v) as ->.
      { unfold w_Write. rewrite Hk. reflexivity. }
      destruct (w_Write (fresh deflate) enc o w1 v); cbn [rbind]; auto. }
    rewrite E1. destruct (writeAll (fresh deflate) enc o w vs); cbn [rbind]; try reflexivity.
    unfold w_Flush. rewrite Hk. reflexivity.
  - destruct (writes_fresh vs w Hk (Hb Hk)) as [<- Hb'].
    destruct (writeAll deflate enc o w vs) as [w1| |] eqn:H1; cbn [rbind]; try reflexivity.
    specialize (Hb' w1 eq_refl). unfold w_Flush.
    destruct (flush (w_enc w1)) as [[e out]| |] eqn:Hf; cbn [rbind]; try reflexivity.
    apply Hflush in Hf. rewrite Hk. cbn [isNone].
    rewrite all_fresh by (rewrite ?zlen_app; lia). reflexivity.
Qed.
End Fresh.

(** ** Reader *)
Section Reader.
Variable inflate : list Z -> res (list Z).
Variable o : opts.
Hypothesis Ho : supported o.
Variable file : list Z.
Variable start len : Z.
Hypothesis Hlen : 0 <= len < W64.

Let cs := ChunkSize o.

(** What is left to be read from [r] is [bs]. *)
Definition Rep (r : reader) (bs : list Z) : Prop :=
  r_file r = file /\ r_start r = start /\ r_length r = len /\ 0 <= r_readLength r /\
  exists enc post, r_rest r = enc ++ post /\ r_readLength r + zlen enc = len /\
    match CompressionKind o with
    | NONE => bs = r_buf r ++ enc
    | _ => exists ds, Chunked inflate cs enc ds /\ Forall (fun d => d <> []) ds /\
                      bs = r_buf r ++ concat ds
    end.

Lemma readAChunk_spec r bs : Rep r bs -> r_readLength r < len ->
  exists r', readAChunk inflate o r = Ok r' /\ Rep r' bs /\
    (length (r_buf r) < length (r_buf r'))%nat /\ (length (r_rest r') < length (r_rest r))%nat /\
    (length (r_buf r) = O -> CompressionKind o = NONE -> r_buf r' = ztake cs bs).
Proof.
  destruct Ho as [Hk Hc]. fold cs in Hc. change (2 ^ 23) with 8388608 in Hc.
  intros (Hf & Hs & Hl & H0 & enc & post & Hr & Hre & Hb) Hlt. unfold readAChunk.
  destruct Hk as [Hk|Hk]; rewrite Hk in *.
  - rewrite Hl. rewrite u64_id by (unfold is_u64; pose proof (zlen_nonneg enc); lia). fold cs.
    remember (if len - r_readLength r <? cs then len - r_readLength r else cs) as l eqn:Hld.
    assert (Hle : 1 <= l <= zlen enc).
    { rewrite Hld. destruct (Z.ltb_spec (len - r_readLength r) cs); lia. }
    assert (Ee : ztake l enc ++ zdrop l enc = enc) by apply ztake_zdrop.
    assert (El : zlen (ztake l enc) = l) by (apply zlen_ztake; lia).
    assert (Ed : zlen (zdrop l enc) = zlen enc - l) by (apply zlen_zdrop; lia).
    assert (Ec : copyN l (r_rest r) = Ok (ztake l enc, zdrop l enc ++ post)).
    { rewrite Hr, <- Ee at 1. rewrite <- app_assoc, <- El at 1. apply copyN_app. }
    rewrite Ec. cbn [rbind].
    eexists. split; [reflexivity|]. unfold Rep. rewrite Hk. cbn.
    rewrite u64_id by (unfold is_u64; lia). split; [|split; [|split]].
    + repeat split; auto; [lia|]. exists (zdrop l enc), post. repeat split; [lia|].
      rewrite Hb, <- app_assoc, Ee. reflexivity.
    + rewrite app_length. unfold zlen in El. lia.
    + rewrite Hr, !app_length. unfold zlen in *. lia.
    + intros Hnil _. destruct (r_buf r); [|discriminate]. cbn [app] in *. subst bs.
      rewrite Hld. destruct (Z.ltb_spec (len - r_readLength r) cs) as [Hx|Hx]; [|reflexivity].
      unfold ztake. rewrite !firstn_all2; [reflexivity| |]; unfold zlen in *; lia.
  - destruct Hb as (ds & Hch & Hne & Hb).
    assert (Hpos : 0 < zlen enc) by lia.
    inversion Hch as [E1 E2|d enc' ds' Hd Hch' E1 E2|p d enc' ds' Hp Hd Hi Hch' E1 E2].
    { rewrite <- E1 in Hpos. cbn in Hpos. lia. }
    + destruct (dec_orig (zlen d)) as (h0 & h1 & h2 & Eh & D); [pose proof (zlen_nonneg d); change (2 ^ 23) with 8388608; lia|].
      rewrite Hr, <- E1, Eh. cbn [app]. rewrite D. fold cs.
      destruct (Z.ltb_spec cs (zlen d)); [lia|]. rewrite <- app_assoc, copyN_app. cbn [rbind].
      rewrite <- E1, Eh in Hre. cbn [app] in Hre. rewrite !zlen_cons, zlen_app in Hre.
      pose proof (zlen_nonneg d). pose proof (zlen_nonneg enc').
      assert (Hdne : d <> []) by (rewrite <- E2 in Hne; apply (Forall_inv Hne)).
      eexists. split; [reflexivity|]. unfold Rep. rewrite Hk. cbn.
      rewrite u64_id by (unfold is_u64; lia). split; [|split; [|split; [|discriminate]]].
      * repeat split; auto; [lia|]. exists enc', post. repeat split; [lia|].
        exists ds'. rewrite <- E2 in Hne. repeat split; [exact Hch'|exact (Forall_inv_tail Hne)|].
        rewrite Hb, <- E2, <- app_assoc. reflexivity.
      * rewrite app_length. destruct d; [congruence|cbn [length]; lia].
      * rewrite !app_length. lia.
    + destruct (dec_comp (zlen p)) as (h0 & h1 & h2 & Eh & D); [pose proof (zlen_nonneg p); change (2 ^ 23) with 8388608; lia|].
      rewrite Hr, <- E1, Eh. cbn [app]. rewrite D. fold cs.
      destruct (Z.ltb_spec cs (zlen p)); [lia|]. rewrite <- app_assoc, copyN_app. cbn [rbind Decompress].
      rewrite Hi. cbn [rbind].
      rewrite <- E1, Eh in Hre. cbn [app] in Hre. rewrite !zlen_cons, zlen_app in Hre.
      pose proof (zlen_nonneg p). pose proof (zlen_nonneg enc').
      assert (Hdne : d <> []) by (rewrite <- E2 in Hne; apply (Forall_inv Hne)).
      eexists. split; [reflexivity|]. unfold Rep. rewrite Hk. cbn.
      rewrite u64_id by (unfold is_u64; lia). split; [|split; [|split; [|discriminate]]].
      * repeat split; auto; [lia|]. exists enc', post. repeat split; [lia|].
        exists ds'. rewrite <- E2 in Hne. repeat split; [exact Hch'|exact (Forall_inv_tail Hne)|].
        rewrite Hb, <- E2, <- app_assoc. reflexivity.
      * rewrite app_length. destruct d; [congruence|cbn [length]; lia].
      * rewrite !app_length. lia.
Qed.

Lemma Rep_end r bs : Rep r bs -> len <= r_readLength r -> bs = r_buf r.
Proof.
  intros (_ & _ & _ & _ & enc & post & Hr & Hre & Hb) Hle.
  assert (enc = []) as -> by (apply zlen_0; pose proof (zlen_nonneg enc); lia).
  destruct Ho as [[Hk|Hk] _]; rewrite Hk in Hb; [rewrite Hb, app_nil_r; reflexivity|].
  destruct Hb as (ds & Hch & _ & ->). apply Chunked_nil_inv in Hch. subst. cbn. apply app_nil_r.
Qed.
Lemma Rep_buf r bs : Rep r bs -> exists t, bs = r_buf r ++ t.
Proof.
  intros (_ & _ & _ & _ & enc & post & Hr & Hre & Hb).
  destruct Ho as [[Hk|Hk] _]; rewrite Hk in Hb; [eauto|]. destruct Hb as (ds & _ & _ & ->). eauto.
Qed.
Lemma Rep_drop r bs n : (n <= length (r_buf r))%nat -> Rep r bs ->
  Rep {| r_file := r_file r; r_start := r_start r; r_length := r_length r;
         r_rest := r_rest r; r_readLength := r_readLength r; r_buf := skipn n (r_buf r) |} (skipn n bs).
Proof.
  intros Hn (Hf & Hs & Hl & H0 & enc & post & Hr & Hre & Hb). unfold Rep. cbn. repeat split; auto.
  exists enc, post. repeat split; auto.
  destruct Ho as [[Hk|Hk] _]; rewrite Hk in *.
  - rewrite Hb, skipn_app. replace (n - length (r_buf r))%nat with O by lia. reflexivity.
  - destruct Hb as (ds & Hch & Hne & ->). exists ds. repeat split; auto.
    rewrite skipn_app. replace (n - length (r_buf r))%nat with O by lia. reflexivity.
Qed.

Lemma ReadByte_spec r bs : Rep r bs ->
  match bs with
  | [] => r_ReadByte inflate o r = Err
  | b :: t => exists r', r_ReadByte inflate o r = Ok (b, r') /\ Rep r' t
  end.
Proof.
  intros H.
  assert (Pop : forall r1 b t, Rep r1 bs -> r_buf r1 = b :: t ->
     exists bs', bs = b :: bs' /\
       Rep {| r_file := r_file r1; r_start := r_start r1; r_length := r_length r1;
              r_rest := r_rest r1; r_readLength := r_readLength r1; r_buf := t |} bs').
  { intros r1 b t H1 Eb. destruct (Rep_buf _ _ H1) as [x Hx]. rewrite Eb in Hx. exists (t ++ x).
    split; [exact Hx|]. apply (Rep_drop r1 bs 1) in H1; [|rewrite Eb; cbn; lia].
    rewrite Eb, Hx in H1. exact H1. }
  unfold r_ReadByte. destruct (r_buf r) as [|b t] eqn:Eb.
  - assert (Hl : r_length r = len) by apply H. rewrite Hl.
    destruct (Z.leb_spec len (r_readLength r)) as [Hle|Hlt].
    + rewrite (Rep_end r bs H Hle), Eb. reflexivity.
    + destruct (readAChunk_spec r bs H Hlt) as (r' & -> & H' & Hgrow & _). cbn [rbind].
      destruct (r_buf r') as [|b t] eqn:Eb'; [cbn [length] in Hgrow; lia|].
      destruct (Pop r' b t H' Eb') as (bs' & -> & HR). eexists. split; [reflexivity|exact HR].
  - destruct (Pop r b t H Eb) as (bs' & -> & HR). eexists. split; [reflexivity|exact HR].
Qed.

Lemma fill_spec n fuel : forall r bs, Rep r bs -> (length (r_rest r) < fuel)%nat ->
  exists r', fill inflate o fuel n r = Ok r' /\ Rep r' bs /\
    ((n <= length (r_buf r'))%nat \/ bs = r_buf r').
Proof.
  induction fuel as [|f IH]; intros r bs H Hf; [lia|]. cbn [fill].
  assert (Hl : r_length r = len) by apply H. rewrite Hl.
  destruct (Nat.ltb_spec (length (r_buf r)) n) as [Hn|Hn]; cbn [andb].
  - destruct (Z.ltb_spec (r_readLength r) len) as [Hlt|Hle].
    + destruct (readAChunk_spec r bs H Hlt) as (r' & -> & H' & _ & Hsh & _). cbn [rbind].
      apply IH; [exact H'|lia].
    + exists r. split; [reflexivity|split; [exact H|]]. right. apply Rep_end; auto.
  - exists r. split; [reflexivity|split; [exact H|]]. left. exact Hn.
Qed.

Lemma ReadFull_spec n r bs : Rep r bs ->
  match lrf n bs with
  | Ok (l, t) => exists r', r_ReadFull inflate o n r = Ok (l, r') /\ Rep r' t
  | _ => r_ReadFull inflate o n r = Err
  end.
Proof.
  intros H. unfold lrf, r_ReadFull. destruct (Nat.eqb_spec n 0) as [->|Hn0].
  - destruct (Nat.ltb_spec (length bs) 0); [lia|]. cbn [firstn skipn]. eauto.
  - assert (Fin : forall r1, Rep r1 bs -> ((n <= length (r_buf r1))%nat \/ bs = r_buf r1) ->
      match (if (length bs <? n)%nat then Err else Ok (firstn n bs, skipn n bs)) with
      | Ok (l, t) => exists r', (if (n <=? length (r_buf r1))%nat
           then Ok (firstn n (r_buf r1), {| r_file := r_file r1; r_start := r_start r1; r_length := r_length r1;
                     r_rest := r_rest r1; r_readLength := r_readLength r1; r_buf := skipn n (r_buf r1) |})
           else Err) = Ok (l, r') /\ Rep r' t
      | _ => (if (n <=? length (r_buf r1))%nat
           then Ok (firstn n (r_buf r1), {| r_file := r_file r1; r_start := r_start r1; r_length := r_length r1;
                     r_rest := r_rest r1; r_readLength := r_readLength r1; r_buf := skipn n (r_buf r1) |})
           else Err) = Err
      end).
    { intros r1 H1 Hc. destruct (Rep_buf _ _ H1) as [x Hx].
      destruct (Nat.leb_spec n (length (r_buf r1))) as [Hle|Hgt].
      - destruct (Nat.ltb_spec (length bs) n) as [Hb|Hb]; [rewrite Hx, app_length in Hb; lia|].
        eexists. split.
        + rewrite Hx, firstn_app. replace (n - length (r_buf r1))%nat with O by lia.
          rewrite firstn_O, app_nil_r. reflexivity.
        + apply Rep_drop; auto.
      - destruct Hc as [Hc|Hc]; [lia|]. rewrite Hc.
        destruct (Nat.ltb_spec (length (r_buf r1)) n); [reflexivity|lia]. }
    destruct (Nat.leb_spec n (length (r_buf r))) as [Hle|Hgt].
    + cbn [rbind]. apply (Fin r H). left. exact Hle.
    + assert (Hl : r_length r = len) by apply H. rewrite Hl.
      destruct (Z.leb_spec len (r_readLength r)) as [Hle|Hlt].
      * cbn [rbind]. rewrite (Rep_end r bs H Hle).
        destruct (Nat.ltb_spec (length (r_buf r)) n); [reflexivity|lia].
      * destruct (fill_spec n (S (length (r_rest r))) r bs H ltac:(lia)) as (r' & -> & H' & Hc).
        cbn [rbind]. apply (Fin r' H' Hc).
Qed.

Lemma sim {A} (p : prog A) : forall r bs, Rep r bs ->
  match run p bs with
  | Ok (a, t) => exists r', r_run inflate o p r = Ok (a, r') /\ Rep r' t
  | Err => r_run inflate o p r = Err
  | Panic => r_run inflate o p r = Panic
  end.
Proof.
  unfold r_run, run. induction p as [a| | |k IH|n k IH]; intros r bs H; cbn [runS]; eauto.
  - pose proof (ReadByte_spec r bs H) as Hb. destruct bs as [|b t]; cbn [lrb rbind].
    + rewrite Hb. reflexivity.
    + destruct Hb as (r' & -> & H'). cbn [rbind]. apply IH; exact H'.
  - pose proof (ReadFull_spec n r bs H) as Hb. destruct (lrf n bs) as [[l t]| |] eqn:E; cbn [rbind].
    + destruct Hb as (r' & -> & H'). cbn [rbind]. apply IH; exact H'.
    + rewrite Hb. reflexivity.
    + unfold lrf in E. destruct (length bs <? n)%nat; discriminate.
Qed.

Lemma Rep_finished r bs : Rep r bs -> (r_finished r = true <-> bs = []).
Proof.
  intros H. unfold r_finished. assert (Hl : r_length r = len) by apply H. rewrite Hl.
  rewrite andb_true_iff, Z.leb_le, Nat.eqb_eq. split.
  - intros [Hle Hb]. rewrite (Rep_end r bs H Hle). destruct (r_buf r); [reflexivity|discriminate].
  - intros ->. destruct (Rep_buf r [] H) as [x Hx]. symmetry in Hx. apply app_eq_nil in Hx.
    destruct Hx as [Hb _]. rewrite Hb. split; [|reflexivity].
    destruct (Z.le_gt_cases len (r_readLength r)) as [Hle|Hlt]; [exact Hle|].
    destruct (readAChunk_spec r [] H Hlt) as (r' & _ & H' & Hgrow & _).
    destruct (Rep_buf r' [] H') as [y Hy]. symmetry in Hy. apply app_eq_nil in Hy.
    destruct Hy as [Hy _]. rewrite Hy in Hgrow. cbn [length] in Hgrow. lia.
Qed.

Lemma Rep_serves r bs : Rep r bs -> serves inflate o r bs.
Proof.
  intros H A p. pose proof (sim p r bs H) as Hs.
  destruct (run p bs) as [[a t]| |]; [|exact Hs|exact Hs].
  destruct Hs as (r' & Hr & H'). exists r'. split; [exact Hr|]. apply Rep_finished; exact H'.
Qed.
End Reader.

(** ** Opening the reader on what the writer stored *)
Section Open.
Variable inflate : list Z -> res (list Z).
Variable o : opts.
Hypothesis Ho : supported o.
Variable E : Type.
Variable w : writer E.
Variable pre post : list Z.
Let file := pre ++ stored o w ++ post.
Hypothesis Hfile : zlen file < W64.

Lemma stored_small : 0 <= zlen (stored o w) < W64.
Proof.
  clear inflate Ho.
  unfold file in Hfile. rewrite !zlen_app in Hfile.
  pose proof (zlen_nonneg pre). pose proof (zlen_nonneg post). pose proof (zlen_nonneg (stored o w)). lia.
Qed.

Lemma open_rep bs : Final inflate E o [] [] w bs ->
  Rep inflate o file (zlen pre) (w_length w) (newReader file (zlen pre) (w_length w)) bs.
Proof.
  intros [Hl Hf]. pose proof stored_small. unfold Rep, newReader. cbn. rewrite Hl.
  repeat split; [lia|]. exists (stored o w), post. unfold file at 1. rewrite zdrop_app.
  split; [reflexivity|split; [lia|]]. destruct Ho as [[Hk|Hk] _]; rewrite Hk in *; [symmetry; exact Hf|].
  destruct Hf as (x & ds & Hs & Hch & Hcat & Hne & _). cbn [app] in *. exists ds.
  rewrite Hs. repeat split; auto.
Qed.

(** Seeking with compression to recorded buffer lengths. *)
Lemma seek_comp cb b more r : CompressionKind o = ZLIB ->
  Final inflate E o cb b w more -> b ++ more <> [] ->
  r_file r = file -> r_start r = zlen pre -> r_length r = w_length w ->
  exists r', r_seek inflate o (zlen cb) (zlen b) r = Ok r' /\
    Rep inflate o file (zlen pre) (w_length w) r' more.
Proof.
  intros Hk [Hl Hf] Hne Hrf Hrs Hrl. pose proof stored_small as Hsm. rewrite Hk in Hf.
  destruct Hf as (x & ds & Hs & Hch & Hcat & Hdne & Hfirst).
  unfold r_seek. rewrite Hrf, Hrs, Hrl.
  set (r1 := {| r_file := file; r_start := zlen pre; r_length := w_length w;
                r_rest := zdrop (u64 (zlen pre + zlen cb)) file; r_readLength := zlen cb; r_buf := [] |}).
  assert (Hfl : file = (pre ++ cb) ++ x ++ post) by (unfold file; rewrite Hs, <- !app_assoc; reflexivity).
  assert (Hx : zlen (stored o w) = zlen cb + zlen x) by (rewrite Hs, zlen_app; reflexivity).
  pose proof (zlen_nonneg pre). pose proof (zlen_nonneg cb). pose proof (zlen_nonneg x).
  pose proof (zlen_nonneg b). pose proof (zlen_nonneg post).
  assert (HR1 : Rep inflate o file (zlen pre) (w_length w) r1 (b ++ more)).
  { unfold Rep, r1. cbn. rewrite u64_id.
    2: { unfold is_u64. rewrite Hfl, !zlen_app in Hfile. lia. }
    repeat split; [lia|]. exists x, post. rewrite Hfl, <- (zlen_app pre cb), zdrop_app.
    repeat split; [lia|]. rewrite Hk. exists ds. auto. }
  destruct ds as [|d t].
  { cbn [concat] in Hcat. congruence. }
  assert (Hpos : 0 < zlen x).
  { apply Chunked_cons_enc in Hch. lia. }
  destruct (readAChunk_spec inflate o Ho file (zlen pre) (w_length w) ltac:(lia) r1 (b ++ more) HR1)
    as (r' & Hr' & HR & Hgrow & _).
  { cbn. lia. }
  rewrite Hr'. cbn [rbind]. eexists. split; [reflexivity|].
  assert (Hb : zlen b <= zlen (r_buf r')).
  { specialize (Hfirst d t eq_refl).
    enough (r_buf r' = d) as -> by exact Hfirst.
    clear -Hr' Hk Hch Hfl Ho Hsm Hl Hs Hfile. unfold r1, readAChunk in Hr'. rewrite Hk in Hr'.
    cbn [r_file r_start r_length r_rest r_readLength r_buf] in Hr'.
    rewrite u64_id in Hr'.
    2: { unfold is_u64. rewrite Hfl, !zlen_app in Hfile.
         pose proof (zlen_nonneg pre). pose proof (zlen_nonneg cb). pose proof (zlen_nonneg x).
         pose proof (zlen_nonneg post). lia. }
    rewrite Hfl, <- (zlen_app pre cb), zdrop_app in Hr'.
    destruct Ho as [_ Hc]. change (2 ^ 23) with 8388608 in Hc.
    remember (d :: t) as dt eqn:Edt.
    inversion Hch as [E1 E2|d0 enc' ds' Hd Hch' E1 E2|p d0 enc' ds' Hp Hd Hi Hch' E1 E2]; [congruence|..];
      rewrite Edt in E2; injection E2 as -> ->.
    - destruct (dec_orig (zlen d)) as (h0 & h1 & h2 & Eh & D);
        [pose proof (zlen_nonneg d); change (2 ^ 23) with 8388608; lia|].
      rewrite <- E1, Eh in Hr'. cbn [app] in Hr'. rewrite D in Hr'.
      destruct (Z.ltb_spec (ChunkSize o) (zlen d)); [lia|].
      rewrite <- app_assoc, copyN_app in Hr'. cbn [rbind app] in Hr'.
      apply (f_equal (fun q => match q with Ok a => r_buf a | _ => [] end)) in Hr'. cbn in Hr'. congruence.
    - destruct (dec_comp (zlen p)) as (h0 & h1 & h2 & Eh & D);
        [pose proof (zlen_nonneg p); change (2 ^ 23) with 8388608; lia|].
      rewrite <- E1, Eh in Hr'. cbn [app] in Hr'. rewrite D in Hr'.
      destruct (Z.ltb_spec (ChunkSize o) (zlen p)); [lia|].
      rewrite <- app_assoc, copyN_app in Hr'. cbn [rbind app Decompress] in Hr'. rewrite Hi in Hr'. cbn [rbind] in Hr'.
      apply (f_equal (fun q => match q with Ok a => r_buf a | _ => [] end)) in Hr'. cbn in Hr'. congruence. }
  assert (Em : more = skipn (length b) (b ++ more)) by (rewrite skipn_app_exact; reflexivity).
  rewrite Em. unfold zdrop. replace (Z.to_nat (zlen b)) with (length b) by (unfold zlen; lia).
  apply Rep_drop; [exact Ho| |exact HR]. unfold zlen in Hb. lia.
Qed.

(** Seeking without compression: at most one chunk can be skipped. *)
Lemma seek_none bs off r : CompressionKind o = NONE ->
  Final inflate E o [] [] w bs -> 0 <= off -> 
  r_file r = file -> r_start r = zlen pre -> r_length r = w_length w ->
  exists r', r_seek inflate o 0 off r = Ok r' /\
    Rep inflate o file (zlen pre) (w_length w) r' (zdrop (Z.min off (ChunkSize o)) bs).
Proof.
  intros Hk [Hl Hf] Hoff Hrf Hrs Hrl. pose proof stored_small as Hsm. rewrite Hk in Hf. cbn [app] in Hf.
  unfold r_seek. rewrite Hrf, Hrs, Hrl.
  set (r1 := {| r_file := file; r_start := zlen pre; r_length := w_length w;
                r_rest := zdrop (u64 (zlen pre + 0)) file; r_readLength := 0; r_buf := [] |}).
  pose proof (zlen_nonneg pre).
  assert (H1 : Rep inflate o file (zlen pre) (w_length w) r1 bs).
  { unfold Rep, r1. cbn. rewrite u64_id.
    2: { unfold is_u64. unfold file in Hfile. rewrite !zlen_app in Hfile. pose proof (zlen_nonneg post).
         pose proof (zlen_nonneg (stored o w)). lia. }
    repeat split; [lia|]. exists (stored o w), post. rewrite Z.add_0_r. unfold file. rewrite zdrop_app.
    repeat split; [lia|]. rewrite Hk. symmetry; exact Hf. }
  destruct Ho as [_ Hc].
  assert (exists r', readAChunk inflate o r1 = Ok r' /\
            Rep inflate o file (zlen pre) (w_length w) r' bs /\ r_buf r' = ztake (ChunkSize o) bs)
    as (r' & Hr' & HR & Hbuf).
  { destruct (Z.lt_ge_cases 0 (w_length w)) as [Hp|Hp].
    - destruct (readAChunk_spec inflate o Ho file (zlen pre) (w_length w) ltac:(lia) r1 bs H1)
        as (r' & Hr' & HR & _ & _ & Hb); [cbn; lia|].
      exists r'. split; [exact Hr'|split; [exact HR|]]. apply Hb; [reflexivity|exact Hk].
    - assert (Hbs : bs = []) by (apply zlen_0; rewrite <- Hf, <- Hl; pose proof (zlen_nonneg (stored o w)); lia).
      assert (Hw : w_length w = 0) by lia.
      unfold readAChunk. rewrite Hk. unfold r1 at 1 2 3 4 5 6 7 8. cbn.
      rewrite Hw. change (u64 (0 - 0)) with 0. destruct (Z.ltb_spec 0 (ChunkSize o)); [|lia].
      unfold copyN. pose proof (zlen_nonneg (zdrop (u64 (zlen pre + 0)) file)).
      destruct (Z.ltb_spec (zlen (zdrop (u64 (zlen pre + 0)) file)) 0); [lia|]. cbn.
      eexists. split; [reflexivity|]. split; [|rewrite Hbs; unfold ztake; rewrite firstn_nil; reflexivity].
      unfold r1 in H1. unfold Rep in *. cbn in *. change (u64 0) with 0. rewrite Hw in H1.
      exact H1. }
  rewrite Hr'. cbn [rbind]. eexists. split; [reflexivity|].
  assert (Ez : zdrop off (r_buf r') = skipn (Nat.min (Z.to_nat off) (length (r_buf r'))) (r_buf r')).
  { unfold zdrop. destruct (Nat.le_gt_cases (Z.to_nat off) (length (r_buf r'))) as [Hle|Hgt].
    - rewrite Nat.min_l by lia. reflexivity.
    - rewrite Nat.min_r by lia. rewrite skipn_all2 by lia. rewrite skipn_all. reflexivity. }
  rewrite Ez.
  assert (Eb : zdrop (Z.min off (ChunkSize o)) bs = skipn (Nat.min (Z.to_nat off) (length (r_buf r'))) bs).
  { rewrite Hbuf. unfold zdrop, ztake. rewrite firstn_length.
    destruct (Nat.le_gt_cases (length bs) (Z.to_nat (ChunkSize o))) as [Hle|Hgt].
    - destruct (Nat.le_gt_cases (length bs) (Z.to_nat off)).
      + rewrite !skipn_all2 by lia. reflexivity.
      + f_equal. lia.
    - f_equal. lia. }
  rewrite Eb. apply Rep_drop; [exact Ho|lia|exact HR].
Qed.
End Open.
