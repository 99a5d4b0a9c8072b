(** The stream-level claims, from ChunkP and StreamP. *)
From Verif.Model Require Import Codec ByteBool Chunk Stream.
From Verif.Spec Require Import Session ChunkSpec StreamSpec.
From Verif.Proofs Require Import Base ChunkP SessionP StreamP.

Lemma chunk_lossless deflate inflate cs src out rest : flate_ok deflate inflate -> 1 <= cs < 2 ^ 23 ->
  CompressingAllInChunks deflate ZLIB cs src = Ok (out, rest) ->
  rest = [] /\ DecompressChunks inflate ZLIB out = Ok src /\
  exists ds, Chunked inflate cs out ds /\ concat ds = src.
Proof.
  intros Hok Hcs H. apply (all_spec inflate cs Hcs deflate Hok) in H.
  destruct H as (-> & ds & last & Hch & Hcat & _). split; [reflexivity|].
  assert (E : concat (ds ++ [last]) = src).
  { rewrite concat_app. cbn [concat]. rewrite app_nil_r. exact Hcat. }
  split; [|eauto]. rewrite <- E. apply (decompress_spec inflate cs); assumption.
Qed.
Lemma chunk_lossless_fresh deflate inflate cs src out rest : flate_fresh deflate inflate ->
  1 <= cs < 2 ^ 23 -> zlen src <= 2 * cs ->
  CompressingAllInChunks deflate ZLIB cs src = Ok (out, rest) ->
  DecompressChunks inflate ZLIB out = Ok src.
Proof.
  intros Hok Hcs Hs H. rewrite all_fresh in H by lia.
  apply (chunk_lossless (fresh deflate) inflate cs src out rest); auto. apply fresh_ok. exact Hok.
Qed.
(** A library that refuses to go on after Close breaks every source of more than two
    chunks, and no other. *)
Lemma chunk_reuse deflate cs src : 1 <= cs -> (forall x, exists c, deflate [] x = Ok c) ->
  (forall h x, h <> [] -> deflate h x = Panic) ->
  (exists out, CompressingAllInChunks deflate ZLIB cs src = Ok (out, [])) <-> zlen src <= 2 * cs.
Proof.
  intros Hcs Ht Hp. split.
  - intros [out H]. destruct (Z.le_gt_cases (zlen src) (2 * cs)) as [Hl|Hl]; [exact Hl|].
    unfold CompressingAllInChunks in H. apply rbind_inv in H. destruct H as ([o1 s1] & H1 & _).
    cbn [CompressingChunks] in H1. destruct (length src) as [|f] eqn:En.
    { unfold zlen in Hl. lia. }
    cbn [zlibCompressingToChunks] in H1. destruct (Z.leb_spec (zlen src) cs); [lia|].
    apply rbind_inv in H1. destruct H1 as (c & _ & H1). apply rbind_inv in H1.
    destruct H1 as ([o2 s2] & H1 & _). cbn [app] in H1.
    assert (Hd : zlen (zdrop cs src) = zlen src - cs) by (apply zlen_zdrop; lia).
    destruct f as [|g]; cbn [zlibCompressingToChunks] in H1;
      destruct (Z.leb_spec (zlen (zdrop cs src)) cs); try lia; [discriminate|].
    rewrite Hp in H1 by discriminate. discriminate.
  - intros Hl. rewrite all_fresh by lia. apply (all_total (fresh deflate)); [|lia].
    intros h x. apply Ht.
Qed.

Section Pipe.
Variable deflate : list (list Z) -> list Z -> res (list Z).
Variable inflate : list Z -> res (list Z).
Variable E V : Type.
Variable enc : E -> V -> res (E * list Z).
Variable flush : E -> res (E * list Z).
Variable o : opts.
Hypothesis Ho : supported o.

Lemma pipe e vs w : flate_ok deflate inflate ->
  writeStream deflate enc flush o (newWriter e) vs = Ok w ->
  exists e' bs, segment enc flush e vs = Ok (e', bs) /\ w_length w = zlen (stored o w) /\
    forall pre post, zlen (pre ++ stored o w ++ post) < W64 ->
      serves inflate o (newReader (pre ++ stored o w ++ post) (zlen pre) (w_length w)) bs.
Proof.
  intros Hok H.
  destruct (stream_final deflate inflate Hok E V enc flush o Ho _ _ _ [] [] [] (Ext_new inflate E o Ho e) H)
    as (e' & bs & Hseg & _ & Hfin). cbn [app w_enc newWriter] in *.
  exists e', bs. split; [exact Hseg|]. split; [apply Hfin|].
  intros pre post Hf.
  apply (Rep_serves inflate o Ho (pre ++ stored o w ++ post) (zlen pre) (w_length w)).
  - rewrite (proj1 Hfin). apply (stored_small o E w pre post Hf).
  - apply open_rep; assumption.
Qed.

Lemma pipe_fresh e vs w : flate_fresh deflate inflate ->
  (forall e v e' out, enc e v = Ok (e', out) -> zlen out <= ChunkSize o) ->
  (forall e e' out, flush e = Ok (e', out) -> zlen out <= ChunkSize o) ->
  writeStream deflate enc flush o (newWriter e) vs = Ok w ->
  exists e' bs, segment enc flush e vs = Ok (e', bs) /\ w_length w = zlen (stored o w) /\
    forall pre post, zlen (pre ++ stored o w ++ post) < W64 ->
      serves inflate o (newReader (pre ++ stored o w ++ post) (zlen pre) (w_length w)) bs.
Proof.
  intros Hok He Hf H. rewrite (stream_fresh deflate E V enc flush o Ho He Hf) in H.
  2: { intros _. cbn. destruct Ho as [_ Hc]. lia. }
  revert H. clear He Hf. pose proof (fresh_ok deflate inflate Hok) as Hok'.
  intros H.
  destruct (stream_final (fresh deflate) inflate Hok' E V enc flush o Ho _ _ _ [] [] [] (Ext_new inflate E o Ho e) H)
    as (e' & bs & Hseg & _ & Hfin). cbn [app w_enc newWriter] in *.
  exists e', bs. split; [exact Hseg|]. split; [apply Hfin|].
  intros pre post Hf.
  apply (Rep_serves inflate o Ho (pre ++ stored o w ++ post) (zlen pre) (w_length w)).
  - rewrite (proj1 Hfin). apply (stored_small o E w pre post Hf).
  - apply open_rep; assumption.
Qed.

Lemma pipe_total e vs e' bs : flate_total deflate -> segment enc flush e vs = Ok (e', bs) ->
  exists w, writeStream deflate enc flush o (newWriter e) vs = Ok w.
Proof. intros Ht H. apply (stream_total deflate E V enc flush o Ho Ht vs (newWriter e) _ _ H). Qed.

(** ** Positions *)
Lemma position_ext e vs1 w1 : flate_ok deflate inflate ->
  writeAll deflate enc o (newWriter e) vs1 = Ok w1 ->
  exists out, feed enc e vs1 = Ok (w_enc w1, out) /\ Ext inflate E o (w_cbuf w1) (w_buf w1) w1 [] /\
     (CompressionKind o = NONE -> w_buf w1 = out).
Proof.
  intros Hok H.
  destruct (writes_ext deflate inflate Hok E V enc o Ho vs1 _ _ _ _ _ (Ext_new inflate E o Ho e) H)
    as (e' & out & Hf & <- & Hx). cbn [app w_enc newWriter] in *.
  exists out. split; [exact Hf|]. split; [exact (Ext_rebase inflate E o Ho _ _ _ _ Hx)|].
  intros Hk. unfold Ext in Hx. rewrite Hk in Hx. exact Hx.
Qed.

Lemma seek_compressed e vs1 vs2 w1 w2 : flate_ok deflate inflate -> CompressionKind o = ZLIB ->
  writeAll deflate enc o (newWriter e) vs1 = Ok w1 ->
  writeStream deflate enc flush o w1 vs2 = Ok w2 ->
  exists o1 e2 o2, feed enc e vs1 = Ok (w_enc w1, o1) /\
    segment enc flush (w_enc w1) vs2 = Ok (e2, o2) /\
    (o1 ++ o2 <> [] ->
     forall pre post r, zlen (pre ++ stored o w2 ++ post) < W64 ->
      r_file r = pre ++ stored o w2 ++ post -> r_start r = zlen pre -> r_length r = w_length w2 ->
      exists r', r_seek inflate o (zlen (w_cbuf w1)) (zlen (w_buf w1)) r = Ok r' /\
                 serves inflate o r' o2).
Proof.
  intros Hok Hk H1 H2. 
  destruct (writes_ext deflate inflate Hok E V enc o Ho vs1 _ _ _ _ _ (Ext_new inflate E o Ho e) H1)
    as (e1 & o1 & Hf & <- & Hx0). cbn [app w_enc newWriter] in *.
  pose proof (Ext_rebase inflate E o Ho _ _ _ _ Hx0) as Hx.
  destruct (stream_final deflate inflate Hok E V enc flush o Ho _ _ _ _ _ _ Hx H2)
    as (e2 & o2 & Hseg & _ & Hfin). cbn [app] in Hfin.
  exists o1, e2, o2. split; [exact Hf|]. split; [exact Hseg|].
  intros Hne pre post r Hfile Hrf Hrs Hrl.
  destruct (Z.eq_dec (zlen (w_cbuf w1)) 0) as [Hz|Hz].
  - (* nothing compressed yet: the buffer holds everything written so far *)
    assert (Hb : w_buf w1 ++ o2 <> []).
    { unfold Ext in Hx0. rewrite Hk in Hx0. destruct Hx0 as (x & ds & Hcb & Hch & Hcat & _).
      apply zlen_0 in Hz. rewrite Hz in Hcb. cbn [app] in Hcb. subst x.
      apply Chunked_nil_inv in Hch. subst ds. cbn [concat app] in Hcat. rewrite Hcat. exact Hne. }
    destruct (seek_comp inflate o Ho E w2 pre post Hfile _ _ _ r Hk Hfin Hb Hrf Hrs Hrl) as (r' & Hs & HR).
    exists r'. split; [exact Hs|]. eapply Rep_serves; [exact Ho| |exact HR].
    rewrite (proj1 Hfin). apply (stored_small o E w2 pre post Hfile).
  - assert (Hb : w_buf w1 ++ o2 <> []).
    { enough (w_buf w1 <> []) as Hn by (destruct (w_buf w1); [congruence|discriminate]).
      clear -H1 Hok Ho Hk Hz. 
      assert (P : forall vs w w', writeAll deflate enc o w vs = Ok w' ->
                (zlen (w_cbuf w) <> 0 -> w_buf w <> []) -> zlen (w_cbuf w') <> 0 -> w_buf w' <> []).
      { induction vs as [|v t IH]; intros w w' H Hi; cbn [writeAll] in H.
        - assert (w' = w) as -> by congruence. exact Hi.
        - apply rbind_inv in H. destruct H as (w1' & Hw & H). apply (IH _ _ H). clear IH H.
          unfold w_Write in Hw. apply rbind_inv in Hw. destruct Hw as ([e1 out] & _ & Hw).
          rewrite Hk in Hw. cbn [isNone negb andb CompressingChunks] in Hw.
          destruct (Z.ltb_spec (ChunkSize o) (zlen (w_buf w ++ out))) as [Hl|Hl].
          + apply rbind_inv in Hw. destruct Hw as ([c b] & Hc & Hw).
            apply (f_equal (fun q => match q with Ok a => a | _ => w end)) in Hw. subst w1'. cbn. intros _.
            destruct Ho as [_ HC]. apply (toChunks_spec inflate _ HC deflate Hok) in Hc.
            destruct Hc as (ds & _ & _ & _ & _ & Hbig & _). apply Hbig. exact Hl.
          + apply (f_equal (fun q => match q with Ok a => a | _ => w end)) in Hw. subst w1'. cbn.
            intros Hnz. specialize (Hi Hnz). destruct (w_buf w); [congruence|discriminate]. }
      apply (P vs1 (newWriter e) w1 H1); [|exact Hz]. cbn. congruence. }
    destruct (seek_comp inflate o Ho E w2 pre post Hfile _ _ _ r Hk Hfin Hb Hrf Hrs Hrl) as (r' & Hs & HR).
    exists r'. split; [exact Hs|]. eapply Rep_serves; [exact Ho| |exact HR].
    rewrite (proj1 Hfin). apply (stored_small o E w2 pre post Hfile).
Qed.

Lemma serves_length r bs : serves inflate o r bs -> exists r',
  r_run inflate o (RdFull (length bs) (fun l => Ret l)) r = Ok (bs, r') /\
  r_run inflate o (RdFull (S (length bs)) (fun l => Ret l)) r = Err.
Proof.
  intros H.
  pose proof (H _ (RdFull (length bs) (fun l => Ret l))) as H1.
  pose proof (H _ (RdFull (S (length bs)) (fun l => Ret l))) as H2.
  unfold run in H1, H2. cbn [runS] in H1, H2. unfold lrf in H1, H2.
  rewrite Nat.ltb_irrefl in H1. cbn [rbind] in H1. rewrite firstn_all in H1.
  destruct (Nat.ltb_spec (length bs) (S (length bs))); [|lia]. cbn [rbind] in H2.
  destruct H1 as (r' & H1 & _). eauto.
Qed.
Lemma serves_inj r a b : serves inflate o r a -> serves inflate o r b -> a = b.
Proof.
  intros Ha Hb. destruct (Nat.lt_trichotomy (length a) (length b)) as [Hl|[Hl|Hl]].
  - exfalso. pose proof (Hb _ (RdFull (S (length a)) (fun l => Ret l))) as H2.
    destruct (serves_length _ _ Ha) as (r' & _ & H3).
    unfold run in H2. cbn [runS] in H2. unfold lrf in H2.
    destruct (Nat.ltb_spec (length b) (S (length a))); [lia|]. cbn [rbind] in H2.
    destruct H2 as (r2 & H2 & _). congruence.
  - destruct (serves_length _ _ Ha) as (r1 & H1 & _). destruct (serves_length _ _ Hb) as (r2 & H2 & _).
    rewrite Hl in H1. congruence.
  - exfalso. pose proof (Ha _ (RdFull (S (length b)) (fun l => Ret l))) as H2.
    destruct (serves_length _ _ Hb) as (r' & _ & H3).
    unfold run in H2. cbn [runS] in H2. unfold lrf in H2.
    destruct (Nat.ltb_spec (length a) (S (length b))); [lia|]. cbn [rbind] in H2.
    destruct H2 as (r2 & H2 & _). congruence.
Qed.

(** Without compression the columns pass the recorded offset as the offset inside the
    first chunk (chunk 0). *)
Lemma seek_uncompressed e vs1 vs2 w1 w2 : CompressionKind o = NONE ->
  writeAll deflate enc o (newWriter e) vs1 = Ok w1 ->
  writeStream deflate enc flush o w1 vs2 = Ok w2 ->
  exists o1 e2 o2, feed enc e vs1 = Ok (w_enc w1, o1) /\
    segment enc flush (w_enc w1) vs2 = Ok (e2, o2) /\
    zlen (w_buf w1) = zlen o1 /\
    forall pre post r, zlen (pre ++ stored o w2 ++ post) < W64 ->
      r_file r = pre ++ stored o w2 ++ post -> r_start r = zlen pre -> r_length r = w_length w2 ->
      exists r', r_seek inflate o 0 (zlen (w_buf w1)) r = Ok r' /\
        serves inflate o r' (zdrop (Z.min (zlen o1) (ChunkSize o)) (o1 ++ o2)) /\
        (serves inflate o r' o2 <-> zlen o1 <= ChunkSize o).
Proof.
  intros Hk H1 H2.
  (* the compressor is never called *)
  assert (W : forall vs w, writeAll deflate enc o w vs = writeAll (fun _ _ => Err) enc o w vs).
  { induction vs as [|v t IH]; intros w; cbn [writeAll]; [reflexivity|].
    assert (w_Write deflate enc o w v = w_Write (fun _ _ => Err) enc o w v) as ->.
    { unfold w_Write. rewrite Hk. reflexivity. }
    destruct (w_Write (fun _ _ => Err) enc o w v); cbn [rbind]; auto. }
  assert (Hok : flate_ok (fun _ _ => Err) inflate) by (intros h x c; discriminate).
  rewrite W in H1. unfold writeStream in H2. rewrite W in H2.
  assert (H2' : writeStream (fun _ _ => Err) enc flush o w1 vs2 = Ok w2).
  { unfold writeStream. destruct (writeAll (fun _ _ => Err) enc o w1 vs2) as [w| |]; cbn [rbind] in *; try discriminate.
    unfold w_Flush in *. rewrite Hk in *. exact H2. }
  destruct (writes_ext _ inflate Hok E V enc o Ho vs1 _ _ _ _ _ (Ext_new inflate E o Ho e) H1)
    as (e1 & o1 & Hf & <- & Hx0). cbn [app w_enc newWriter] in *.
  destruct (stream_final _ inflate Hok E V enc flush o Ho _ _ _ _ _ _ Hx0 H2')
    as (e2 & o2 & Hseg & _ & Hfin).
  assert (Hb : w_buf w1 = o1) by (unfold Ext in Hx0; rewrite Hk in Hx0; exact Hx0).
  exists o1, e2, o2. split; [exact Hf|]. split; [exact Hseg|]. split; [congruence|].
  intros pre post r Hfile Hrf Hrs Hrl. rewrite Hb.
  destruct (seek_none inflate o Ho E w2 pre post Hfile (o1 ++ o2) (zlen o1) r Hk Hfin (zlen_nonneg o1) Hrf Hrs Hrl)
    as (r' & Hs & HR).
  exists r'. split; [exact Hs|].
  assert (HS : serves inflate o r' (zdrop (Z.min (zlen o1) (ChunkSize o)) (o1 ++ o2))).
  { eapply Rep_serves; [exact Ho| |exact HR]. rewrite (proj1 Hfin). apply (stored_small o E w2 pre post Hfile). }
  split; [exact HS|]. destruct Ho as [_ HC]. pose proof (zlen_nonneg o1). split.
  - intros H3. destruct (Z.le_gt_cases (zlen o1) (ChunkSize o)) as [Hle|Hgt]; [exact Hle|].
    pose proof (serves_inj _ _ _ HS H3) as He. apply (f_equal zlen) in He.
    rewrite Z.min_r in He by lia. rewrite zlen_zdrop in He; rewrite zlen_app in *; pose proof (zlen_nonneg o2); lia.
  - intros Hle. rewrite Z.min_l, zdrop_app in HS by lia. exact HS.
Qed.

Variable encPos : E -> list Z.
Lemma seek_compressed_pos e vs1 vs2 w1 w2 : flate_ok deflate inflate -> CompressionKind o = ZLIB ->
  WriteIndex o = true ->
  writeAll deflate enc o (newWriter e) vs1 = Ok w1 ->
  writeStream deflate enc flush o w1 vs2 = Ok w2 ->
  exists o1 e1 e2 o2 chunk offset,
    w_GetPosition encPos o w1 = chunk :: offset :: encPos e1 /\
    feed enc e vs1 = Ok (e1, o1) /\ segment enc flush e1 vs2 = Ok (e2, o2) /\
    (o1 ++ o2 <> [] ->
     forall pre post r, zlen (pre ++ stored o w2 ++ post) < W64 ->
      r_file r = pre ++ stored o w2 ++ post -> r_start r = zlen pre -> r_length r = w_length w2 ->
      exists r', r_seek inflate o chunk offset r = Ok r' /\ serves inflate o r' o2).
Proof.
  intros Hok Hk Hi H1 H2. destruct (seek_compressed e vs1 vs2 w1 w2 Hok Hk H1 H2) as (o1 & e2 & o2 & Hf & Hs & Hr).
  exists o1, (w_enc w1), e2, o2, (zlen (w_cbuf w1)), (zlen (w_buf w1)).
  split; [unfold w_GetPosition; rewrite Hi, Hk; reflexivity|]. auto.
Qed.
Lemma seek_uncompressed_pos e vs1 vs2 w1 w2 : CompressionKind o = NONE -> WriteIndex o = true ->
  writeAll deflate enc o (newWriter e) vs1 = Ok w1 ->
  writeStream deflate enc flush o w1 vs2 = Ok w2 ->
  exists o1 e1 e2 o2 offset,
    w_GetPosition encPos o w1 = offset :: encPos e1 /\
    feed enc e vs1 = Ok (e1, o1) /\ segment enc flush e1 vs2 = Ok (e2, o2) /\
    forall pre post r, zlen (pre ++ stored o w2 ++ post) < W64 ->
      r_file r = pre ++ stored o w2 ++ post -> r_start r = zlen pre -> r_length r = w_length w2 ->
      exists r', r_seek inflate o 0 offset r = Ok r' /\
        serves inflate o r' (zdrop (Z.min (zlen o1) (ChunkSize o)) (o1 ++ o2)) /\
        (serves inflate o r' o2 <-> zlen o1 <= ChunkSize o).
Proof.
  intros Hk Hi H1 H2. destruct (seek_uncompressed e vs1 vs2 w1 w2 Hk H1 H2) as (o1 & e2 & o2 & Hf & Hs & Hb & Hr).
  exists o1, (w_enc w1), e2, o2, (zlen (w_buf w1)).
  split; [unfold w_GetPosition; rewrite Hi, Hk; reflexivity|]. auto.
Qed.
End Pipe.
