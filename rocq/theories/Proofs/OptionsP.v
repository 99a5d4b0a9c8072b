(** Proofs for C77. *)
From Coq Require Import ZifyBool ZifyNat.
From Verif.Model Require Import Go Chunk Stream Schema File Wire Column Options.
From Verif.Spec Require Import ChunkSpec FileSpec AssemblySpec.
From Verif.Proofs Require Import Base ChunkP FileP OpenP FileClaimsP.

(** ** Chunks of no size *)
Lemma toChunks_stuck deflate cs : cs <= 0 -> forall fuel hist src, src <> [] ->
  forall x, zlibCompressingToChunks deflate fuel cs hist src <> Ok x.
Proof.
  intros Hcs. induction fuel as [|f IH]; intros hist src Hne x H; cbn [zlibCompressingToChunks] in H;
    (assert (Hlt : (zlen src <=? cs) = false) by (destruct src; [contradiction|]; rewrite zlen_cons; pose proof (zlen_nonneg src); lia)); rewrite Hlt in H.
  - discriminate H.
  - apply rbind_inv in H. destruct H as (c & _ & H). apply rbind_inv in H. destruct H as ([a b] & H & _).
    eapply IH; [|exact H]. unfold zdrop. replace (Z.to_nat cs) with O by lia. exact Hne.
Qed.
Lemma all_size deflate k cs src x : src <> [] -> CompressingAllInChunks deflate k cs src = Ok x -> 1 <= cs.
Proof.
  intros Hne H. assert (k = ZLIB) as -> by (destruct x as [a b]; eapply all_zlib; exact H).
  destruct (Z.le_gt_cases 1 cs) as [Hl|Hl]; [exact Hl|]. exfalso. unfold CompressingAllInChunks in H. apply rbind_inv in H.
  destruct H as (y & H & _). cbn [CompressingChunks] in H. eapply toChunks_stuck; [|exact Hne|exact H]. lia.
Qed.
Lemma varint_cons n x : varint (S n) x <> [].
Proof. cbn [varint]. destruct (_ <? _); discriminate. Qed.
Lemma encMsg_cons f l b : encMsg (f :: l) = Ok b -> b <> [].
Proof.
  unfold encMsg. destruct (forallb _ _); [|discriminate]. cbn [map concat]. intros H E.
  assert (H' : encField f ++ concat (map encField l) = []) by congruence. apply app_eq_nil in H'. destruct H' as [H' _].
  destruct f; cbn [encField] in H'; apply app_eq_nil in H'; destruct H' as [H' _]; exact (varint_cons _ _ H').
Qed.
Lemma footer_bytes f b : marshalFooter f = Ok b -> b <> [].
Proof.
  unfold marshalFooter. destruct (existsb _ _); [discriminate|]. intros H. apply rbind_inv in H. destruct H as (? & _ & H).
  apply rbind_inv in H. destruct H as (? & _ & H). apply rbind_inv in H. destruct H as (? & _ & H). eapply encMsg_cons. exact H.
Qed.
Lemma close_options {C V} deflate (I : iface C V colstats) P o w file : pb_Footer P = marshalFooter ->
  closeFile deflate I P o w = Ok file -> CompressionKind o = ZLIB /\ 1 <= ChunkSize o.
Proof.
  intros HP H.
  assert (Hz : CompressionKind o = ZLIB).
  { destruct (CompressionKind o) eqn:E; [exfalso|reflexivity|exfalso|exfalso|exfalso|exfalso];
      (eapply (only_zlib deflate); [|exact H]; rewrite E; discriminate). }
  split; [exact Hz|]. unfold closeFile, Close in H. apply rbind_inv in H. destruct H as (w' & _ & H).
  unfold writeFileTail in H. rewrite HP, Hz in H. apply rbind_inv in H. destruct H as (fb & Hf & H). apply footer_bytes in Hf.
  apply rbind_inv in H. destruct H as (c & H & _). apply rbind_inv in H. destruct H as (x & H & _). eapply all_size; [exact Hf|exact H].
Qed.

(** ** Chunks too long for their header *)
Lemma header_over : encChunkHeader (2 ^ 23) true = [1; 0; 0].
Proof. vm_compute. reflexivity. Qed.
Lemma chunk_over t : zlen t = 2 ^ 23 - 3 ->
  CompressingAllInChunks toy_deflate ZLIB (2 ^ 23) (0 :: 0 :: 0 :: t) = Ok ([1; 0; 0; 0; 0; 0] ++ t, []) /\
  DecompressChunks toy_inflate ZLIB ([1; 0; 0; 0; 0; 0] ++ t) = Err.
Proof.
  intros Ht. assert (Hz : zlen (0 :: 0 :: 0 :: t) = 2 ^ 23) by (rewrite !zlen_cons; lia). split.
  - unfold CompressingAllInChunks. cbn [CompressingChunks CompressingLeft].
    assert (E : zlibCompressingToChunks toy_deflate (length (0 :: 0 :: 0 :: t)) (2 ^ 23) [] (0 :: 0 :: 0 :: t) = Ok ([], 0 :: 0 :: 0 :: t)).
    { cbn [length zlibCompressingToChunks]. rewrite Hz, Z.leb_refl. reflexivity. }
    rewrite E. cbn [rbind]. unfold zlibCompressingLeft. rewrite Hz, Z.ltb_irrefl.
    assert (E' : toy_deflate [] (0 :: 0 :: 0 :: t) = Ok (0 :: 0 :: 0 :: 0 :: t)).
    { unfold toy_deflate. assert (Hb : (length (0 :: 0 :: 0 :: t)%Z <? 200)%nat = false).
      { apply Nat.ltb_ge. unfold zlen in Hz. change (2 ^ 23) with 8388608 in Hz. lia. }
      rewrite Hb, Bool.andb_false_r. reflexivity. }
    rewrite E'. cbn [rbind]. rewrite (zlen_cons 0 (0 :: 0 :: 0 :: t)), Hz. destruct (Z.ltb_spec (2 ^ 23) (2 ^ 23 + 1)); [|lia].
    rewrite header_over. reflexivity.
  - assert (Hc : forall l : list Z, copyN 0 l = Ok ([], l)).
    { intros l. unfold copyN. pose proof (zlen_nonneg l). destruct (Z.ltb_spec (zlen l) 0); [lia|]. reflexivity. }
    cbn [DecompressChunks app length decompress_loop nth skipn]. change (DecChunkHeader 1 0 0) with (0, true). cbv beta iota. rewrite Hc. cbn [rbind].
    cbn [nth skipn]. change (DecChunkHeader 0 0 0) with (0, false). cbv beta iota. rewrite Hc. reflexivity.
Qed.

(** ** Creating *)
Lemma newO_negative w t c : NewWriter (stream_opts w) t = Ok c -> td_kind t <> STRUCT \/ td_hasNulls t = true ->
  wo_ChunkSize w < 0 -> NewWriterO w t = Panic.
Proof.
  intros H Ht Hn. unfold NewWriterO. rewrite H. cbn [rbind]. destruct (Z.ltb_spec (wo_ChunkSize w) 0); [|lia].
  unfold NewWriter in H. apply rbind_inv in H. destruct H as (k & Hk & H). assert (c = newColW (stream_opts w) (td_id t) k (td_hasNulls t)) as -> by congruence.
  unfold newColW. cbn [cw_present cw_data]. destruct Ht as [Ht| ->]; [|reflexivity].
  destruct (td_hasNulls t); [reflexivity|].
  assert (Hd : dataStreams k (stream_opts w) <> []).
  { unfold writerKind in Hk. destruct (td_kind t); try contradiction; repeat match type of Hk with context[if ?b then _ else _] => destruct b end;
      try discriminate Hk; (assert (Ek := Hk); injection Ek as <-; discriminate). }
  destruct (dataStreams k (stream_opts w)); [contradiction|]. reflexivity.
Qed.
Lemma newO_same w t : 0 <= wo_ChunkSize w -> NewWriterO w t = NewWriter (stream_opts w) t.
Proof.
  intros Hn. unfold NewWriterO. destruct (NewWriter (stream_opts w) t) as [c| |]; [|reflexivity..]. cbn [rbind].
  destruct (Z.ltb_spec (wo_ChunkSize w) 0); [lia|]. destruct (cw_present c), (cw_data c); reflexivity.
Qed.
