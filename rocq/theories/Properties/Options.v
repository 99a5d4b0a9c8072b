(** C77: the options of a writer. *)
From Coq Require Import ZifyBool ZifyNat.
From Verif.Model Require Import Go Chunk Stream Schema Rows File Column Wire Assembled Options.
From Verif.Spec Require Import ChunkSpec StreamSpec FileSpec AssemblySpec EndSpec.
From Verif.Proofs Require Import Base ChunkP OptionsP.
From Verif.Properties Require Import Columns File End.

(** A file is only ever closed with ZLIB and chunks of at least one byte. *)
Theorem C77_closed_partial : forall deflate F o stride StripeSize schema vs file,
  closed deflate (columns deflate F o stride) wire o StripeSize schema vs file ->
  CompressionKind o = ZLIB /\ 1 <= ChunkSize o.
Proof.
  intros deflate F o stride StripeSize schema vs file (w0 & w & _ & _ & H). exact (close_options deflate _ wire o w file eq_refl H).
Qed.
Print Assumptions C77_closed_partial.
Example C77_closed_ex : exists file, closed toy_deflate (columns toy_deflate fl zl64 10) wire zl64 1000 sample_schema [sample_batch sample_rows] file.
Proof. exists file1. exact file1_closed. Qed.

(** Chunks of size 0 pass the check, the writer is created and takes rows (those
    without a string; a string is never done with), but no file can be closed. *)
Definition no_chunk : woptions :=
  {| wo_ChunkSize := 0; wo_CompressionKind := ZLIB; wo_StripeSize := 1000; wo_BufferSize := 0; wo_EncoderBufferSize := 0;
     wo_WriteIndex := false; wo_IndexStride := 10 |}.
Theorem C77_zero_refuted : exists w, CheckWriteOpts w = Ok tt /\
  (exists w0 w1, newFileWriter (NewWriterO w) sample_schema = Ok w0 /\
     write1 toy_deflate (columns toy_deflate fl (stream_opts w) 10) wire (stream_opts w) (wo_StripeSize w) w0 (sample_batch [half_row]) = Ok w1) /\
  forall deflate F schema vs file,
    ~ closed deflate (columns deflate F (stream_opts w) (wo_IndexStride w)) wire (stream_opts w) (wo_StripeSize w) schema vs file.
Proof.
  exists no_chunk. split; [reflexivity|]. split.
  - destruct (newFileWriter (NewWriterO no_chunk) sample_schema) as [w0| |] eqn:E0; [|exfalso; vm_compute in E0; discriminate E0..].
    exists w0. destruct (write1 toy_deflate (columns toy_deflate fl (stream_opts no_chunk) 10) wire (stream_opts no_chunk) (wo_StripeSize no_chunk) w0 (sample_batch [half_row])) as [w1| |] eqn:E1;
      [exists w1; auto| |]; exfalso; vm_compute in E0; injection E0 as <-; vm_compute in E1; discriminate E1.
  - intros deflate F schema vs file H. apply C77_closed_partial in H. cbn in H. lia.
Qed.
Print Assumptions C77_zero_refuted.

(** A negative size is not refused with an error: the first column with a stream panics.
    With any other size creating a column is what C26-C30 assume. *)
Theorem C77_negative_refuted : forall w t c, wo_ChunkSize w < 0 ->
  NewWriter (stream_opts w) t = Ok c -> td_kind t <> STRUCT \/ td_hasNulls t = true ->
  NewWriterO w t = Panic.
Proof. intros w t c H1 H2 H3. exact (newO_negative w t c H2 H3 H1). Qed.
Print Assumptions C77_negative_refuted.
Theorem C77_created : forall w t, 0 <= wo_ChunkSize w -> NewWriterO w t = NewWriter (stream_opts w) t.
Proof. intros w t H. exact (newO_same w t H). Qed.
Print Assumptions C77_created.
Example C77_negative_ex : CheckWriteOpts {| wo_ChunkSize := -1; wo_CompressionKind := ZLIB; wo_StripeSize := 1000; wo_BufferSize := 0;
    wo_EncoderBufferSize := 0; wo_WriteIndex := false; wo_IndexStride := 10 |} = Ok tt /\
  newFileWriter (NewWriterO {| wo_ChunkSize := -1; wo_CompressionKind := ZLIB; wo_StripeSize := 1000; wo_BufferSize := 0;
    wo_EncoderBufferSize := 0; wo_WriteIndex := false; wo_IndexStride := 10 |}) sample_schema = Panic.
Proof. vm_compute. split; reflexivity. Qed.

(** Chunks of 2^23 bytes pass the check and can be written, but their headers do not hold
    their lengths (C15): what was written does not decompress, with a library that keeps
    its promises.  C16 and C17 are for all smaller sizes. *)
Definition big_chunk : woptions :=
  {| wo_ChunkSize := 2 ^ 23; wo_CompressionKind := ZLIB; wo_StripeSize := 268435456; wo_BufferSize := 0; wo_EncoderBufferSize := 0;
     wo_WriteIndex := false; wo_IndexStride := 10 |}.
Theorem C77_limit_refuted : exists w deflate inflate src out, CheckWriteOpts w = Ok tt /\ flate_ok deflate inflate /\
  CompressingAllInChunks deflate (wo_CompressionKind w) (wo_ChunkSize w) src = Ok (out, []) /\
  DecompressChunks inflate (wo_CompressionKind w) out = Err.
Proof.
  exists big_chunk, toy_deflate, toy_inflate.
  assert (Ht : exists t : list Z, zlen t = 2 ^ 23 - 3).
  { exists (repeat 0 (Z.to_nat (2 ^ 23 - 3))). unfold zlen. rewrite repeat_length. apply Z2Nat.id. lia. }
  destruct Ht as (t & Ht). destruct (chunk_over t Ht) as [H1 H2]. exists (0 :: 0 :: 0 :: t), ([1; 0; 0; 0; 0; 0] ++ t).
  split; [reflexivity|]. split; [exact toy_ok|]. split; [exact H1|exact H2].
Qed.
Print Assumptions C77_limit_refuted.

(** The check refuses options that are fine: chunks longer than a stripe. *)
Definition long_chunk : woptions :=
  {| wo_ChunkSize := 64; wo_CompressionKind := ZLIB; wo_StripeSize := 60; wo_BufferSize := 0; wo_EncoderBufferSize := 0;
     wo_WriteIndex := false; wo_IndexStride := 10 |}.
Theorem C77_check_refuted : exists w file, CheckWriteOpts w = Err /\
  closed toy_deflate (columns toy_deflate fl (stream_opts w) (wo_IndexStride w)) wire (stream_opts w) (wo_StripeSize w)
    sample_schema [sample_batch sample_rows] file /\
  (let! (r, x) := openBatches toy_inflate three file in
   let! (x1, v1, e1) := batchNext toy_inflate r x empty3 in
   Ok (held 1 v1, held 2 v1, e1)) = Ok (map fst sample_rows, map snd sample_rows, true).
Proof.
  exists long_chunk, (the (make (stream_opts long_chunk) 60 sample_schema [sample_batch sample_rows])).
  split; [reflexivity|]. split; [apply make_closed; vm_compute; reflexivity|]. vm_compute. reflexivity.
Qed.
Print Assumptions C77_check_refuted.

(** Chunks as long as a stripe pass. *)
Example C77_check_ex : CheckWriteOpts {| wo_ChunkSize := 64; wo_CompressionKind := ZLIB; wo_StripeSize := 64; wo_BufferSize := 0; wo_EncoderBufferSize := 0;
     wo_WriteIndex := false; wo_IndexStride := 10 |} = Ok tt.
Proof. reflexivity. Qed.

(** The default options pass and are within what the streams need, so that C17, C50 and
    the others apply to them. *)
Theorem C77_default : CheckWriteOpts DefaultWriterOptions = Ok tt /\ supported (stream_opts DefaultWriterOptions) /\
  CompressionKind (stream_opts DefaultWriterOptions) = ZLIB /\
  forall t, NewWriterO DefaultWriterOptions t = NewWriter (stream_opts DefaultWriterOptions) t.
Proof.
  split; [reflexivity|]. split; [split; [right; reflexivity|cbn; lia]|]. split; [reflexivity|]. intros t. apply C77_created. cbn. lia.
Qed.
Print Assumptions C77_default.
