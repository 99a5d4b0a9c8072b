(** C15-C19: chunk headers, chunked compression, the stream byte pipe, positions.

    [deflate] and [inflate] stand for the DEFLATE library, which is not part of the
    repository; the assumptions made about it are the definitions flate_ok,
    flate_fresh and flate_total of Spec/ChunkSpec.v. *)
From Verif.Model Require Import Codec ByteBool Chunk Stream.
From Verif.Spec Require Import Session ChunkSpec StreamSpec.
From Verif.Proofs Require Import Base ChunkP StreamP StreamClaimsP.

(** ** C15 *)
Theorem C15_header_lossless : forall l orig, 0 <= l < 2 ^ 23 -> exists h0 h1 h2,
  encChunkHeader l orig = [h0; h1; h2] /\ is_u8 h0 /\ is_u8 h1 /\ is_u8 h2 /\
  DecChunkHeader h0 h1 h2 = (l, orig).
Proof. exact header_roundtrip. Qed.
Print Assumptions C15_header_lossless.

(** The header is the one of the ORC specification: 2 * length + isOriginal, little
    endian, three bytes. *)
Theorem C15_header_format : forall l orig, 0 <= l < 2 ^ 23 ->
  encChunkHeader l orig = le24 (2 * l + (if orig then 1 else 0)).
Proof. exact enc_le24. Qed.
Print Assumptions C15_header_format.

(** The reader's view of any three bytes. *)
Theorem C15_header_decode : forall h0 h1 h2, is_u8 h0 -> is_u8 h1 -> is_u8 h2 ->
  DecChunkHeader h0 h1 h2 =
  ((h0 + 256 * h1 + 65536 * h2) / 2, (h0 + 256 * h1 + 65536 * h2) mod 2 =? 1).
Proof. exact dec_header. Qed.
Print Assumptions C15_header_decode.

Example C15_case : encChunkHeader 100000 false = [64; 13; 3] /\ DecChunkHeader 64 13 3 = (100000, false).
Proof. vm_compute. auto. Qed.
(** The bound is sharp: one more and the header of an empty chunk comes out. *)
Example C15_limit : encChunkHeader (2 ^ 23) true = encChunkHeader 0 true.
Proof. vm_compute. reflexivity. Qed.

(** ** C16 *)
Theorem C16_chunks_lossless : forall deflate inflate cs src out rest,
  flate_ok deflate inflate -> 1 <= cs < 2 ^ 23 ->
  CompressingAllInChunks deflate ZLIB cs src = Ok (out, rest) ->
  rest = [] /\ DecompressChunks inflate ZLIB out = Ok src /\
  exists ds, Chunked inflate cs out ds /\ concat ds = src.
Proof. exact chunk_lossless. Qed.
Print Assumptions C16_chunks_lossless.

Theorem C16_chunks_total : forall deflate, flate_total deflate -> forall cs, 1 <= cs ->
  forall src, exists out, CompressingAllInChunks deflate ZLIB cs src = Ok (out, []).
Proof. exact all_total. Qed.
Print Assumptions C16_chunks_total.

(** Up to two chunks the code never uses a compressor object again after Close. *)
Theorem C16_chunks_lossless_fresh : forall deflate inflate cs src out rest,
  flate_fresh deflate inflate -> 1 <= cs < 2 ^ 23 -> zlen src <= 2 * cs ->
  CompressingAllInChunks deflate ZLIB cs src = Ok (out, rest) ->
  DecompressChunks inflate ZLIB out = Ok src.
Proof. exact chunk_lossless_fresh. Qed.
Print Assumptions C16_chunks_lossless_fresh.

(** With a library whose compressor cannot be used after Close, exactly the sources of
    at most two chunks can be compressed. *)
Theorem C16_compressor_reuse : forall deflate cs src, 1 <= cs ->
  (forall x, exists c, deflate [] x = Ok c) ->
  (forall h x, h <> [] -> deflate h x = Panic) ->
  (exists out, CompressingAllInChunks deflate ZLIB cs src = Ok (out, [])) <-> zlen src <= 2 * cs.
Proof. exact chunk_reuse. Qed.
Print Assumptions C16_compressor_reuse.

Example C16_toy_flate : flate_ok toy_deflate toy_inflate /\ flate_total toy_deflate.
Proof. exact (conj toy_ok toy_total). Qed.
(** One compressed, one original and one short chunk. *)
Example C16_case : CompressingAllInChunks toy_deflate ZLIB 4 [7; 7; 7; 7; 1; 2; 3; 4; 9] =
    Ok ([6; 0; 0; 1; 4; 7] ++ [9; 0; 0; 1; 2; 3; 4] ++ [3; 0; 0; 9], []) /\
  DecompressChunks toy_inflate ZLIB ([6; 0; 0; 1; 4; 7] ++ [9; 0; 0; 1; 2; 3; 4] ++ [3; 0; 0; 9]) =
    Ok [7; 7; 7; 7; 1; 2; 3; 4; 9].
Proof. vm_compute. auto. Qed.

(** ** C17 *)
Theorem C17_byte_pipe : forall deflate inflate E V (enc : E -> V -> res (E * list Z))
    (flush : E -> res (E * list Z)) o, supported o ->
  forall e vs w, flate_ok deflate inflate ->
  writeStream deflate enc flush o (newWriter e) vs = Ok w ->
  exists e' bs, segment enc flush e vs = Ok (e', bs) /\ w_length w = zlen (stored o w) /\
    forall pre post, zlen (pre ++ stored o w ++ post) < W64 ->
      serves inflate o (newReader (pre ++ stored o w ++ post) (zlen pre) (w_length w)) bs.
Proof. exact pipe. Qed.
Print Assumptions C17_byte_pipe.

Theorem C17_write_total : forall deflate E V (enc : E -> V -> res (E * list Z))
    (flush : E -> res (E * list Z)) o, supported o ->
  forall e vs e' bs, flate_total deflate -> segment enc flush e vs = Ok (e', bs) ->
  exists w, writeStream deflate enc flush o (newWriter e) vs = Ok w.
Proof. exact pipe_total. Qed.
Print Assumptions C17_write_total.

(** The same with the weaker assumption on the library, for encoders that never emit
    more than a chunk at once. *)
Theorem C17_byte_pipe_fresh : forall deflate inflate E V (enc : E -> V -> res (E * list Z))
    (flush : E -> res (E * list Z)) o, supported o ->
  forall e vs w, flate_fresh deflate inflate ->
  (forall e v e' out, enc e v = Ok (e', out) -> zlen out <= ChunkSize o) ->
  (forall e e' out, flush e = Ok (e', out) -> zlen out <= ChunkSize o) ->
  writeStream deflate enc flush o (newWriter e) vs = Ok w ->
  exists e' bs, segment enc flush e vs = Ok (e', bs) /\ w_length w = zlen (stored o w) /\
    forall pre post, zlen (pre ++ stored o w ++ post) < W64 ->
      serves inflate o (newReader (pre ++ stored o w ++ post) (zlen pre) (w_length w)) bs.
Proof. exact pipe_fresh. Qed.
Print Assumptions C17_byte_pipe_fresh.

(** [serves] determines the bytes. *)
Theorem C17_serves_unique : forall inflate o r a b,
  serves inflate o r a -> serves inflate o r b -> a = b.
Proof. exact (serves_inj (fun _ _ => Err)). Qed.
Print Assumptions C17_serves_unique.

Definition raw_enc (_ : unit) (bs : list Z) : res (unit * list Z) := Ok (tt, string_Encode bs).
Definition raw_flush (_ : unit) : res (unit * list Z) := Ok (tt, []).
Definition zl4 : opts := {| CompressionKind := ZLIB; ChunkSize := 4; WriteIndex := true |}.
Definition no4 : opts := {| CompressionKind := NONE; ChunkSize := 4; WriteIndex := true |}.
(** A string stream of three values over several chunks, read back between foreign
    bytes by a mix of reads. *)
Example C17_case : exists w, supported zl4 /\
  writeStream toy_deflate raw_enc raw_flush zl4 (newWriter tt) [[7; 7; 7]; [7; 1; 2; 3; 4; 5]; [6]] = Ok w /\
  stored zl4 w = [6; 0; 0; 1; 4; 7] ++ [9; 0; 0; 1; 2; 3; 4] ++ [5; 0; 0; 5; 6] /\
  exists r', r_run toy_inflate zl4 (RdByte (fun a => RdFull 8 (fun b => RdByte (fun c => Ret (a, b, c)))))
     (newReader ([9; 9] ++ stored zl4 w ++ [8; 8]) 2 (w_length w)) =
     Ok ((7, [7; 7; 7; 1; 2; 3; 4; 5], 6), r') /\ r_finished r' = true.
Proof.
  eexists. split; [split; [right; reflexivity|vm_compute; split; [discriminate|reflexivity]]|].
  split; [vm_compute; reflexivity|]. split; [vm_compute; reflexivity|].
  eexists. split; vm_compute; reflexivity.
Qed.

(** ** C18 *)
(** Holds for every stream that is not empty. *)
Theorem C18_compressed_positions_partial : forall deflate inflate E V (enc : E -> V -> res (E * list Z))
    (flush : E -> res (E * list Z)) o, supported o ->
  forall (encPos : E -> list Z) e vs1 vs2 w1 w2, flate_ok deflate inflate -> CompressionKind o = ZLIB -> WriteIndex o = true ->
  writeAll deflate enc o (newWriter e) vs1 = Ok w1 ->
  writeStream deflate enc flush o w1 vs2 = Ok w2 ->
  exists o1 e1 e2 o2 chunk offset,
    w_GetPosition encPos o w1 = chunk :: offset :: encPos e1 /\
    feed enc e vs1 = Ok (e1, o1) /\ segment enc flush e1 vs2 = Ok (e2, o2) /\
    (o1 ++ o2 <> [] ->
     forall pre post r, zlen (pre ++ stored o w2 ++ post) < W64 ->
      r_file r = pre ++ stored o w2 ++ post -> r_start r = zlen pre -> r_length r = w_length w2 ->
      exists r', r_seek inflate o chunk offset r = Ok r' /\ serves inflate o r' o2).
Proof. exact seek_compressed_pos. Qed.
Print Assumptions C18_compressed_positions_partial.

(** An empty stream (a column whose values in the stripe are all null): the seek reads
    the header of whatever follows the stream and returns its bytes. *)
Theorem C18_empty_stream_refuted : exists w post r' r'',
  writeStream toy_deflate byte_Encode byte_Flush zl4 (newWriter (NewByteEncoder true)) [] = Ok w /\
  w_length w = 0 /\
  r_seek toy_inflate zl4 0 0 (newReader (stored zl4 w ++ post) 0 (w_length w)) = Ok r' /\
  r_ReadByte toy_inflate zl4 r' = Ok (42, r'') /\ post = [3; 0; 0; 42].
Proof.
  eexists. exists [3; 0; 0; 42]. do 2 eexists. split; [vm_compute; reflexivity|].
  split; [vm_compute; reflexivity|]. split; [vm_compute; reflexivity|].
  split; [vm_compute; reflexivity|reflexivity].
Qed.
Print Assumptions C18_empty_stream_refuted.

Example C18_case : exists w1 w2 r',
  writeAll toy_deflate raw_enc zl4 (newWriter tt) [[7; 7; 7]; [7; 1; 2; 3; 4; 5]] = Ok w1 /\
  w_GetPosition (fun _ => []) zl4 w1 = [13; 1] /\
  writeStream toy_deflate raw_enc raw_flush zl4 w1 [[6]; [8]] = Ok w2 /\
  r_seek toy_inflate zl4 13 1 (newReader ([9; 9] ++ stored zl4 w2) 2 (w_length w2)) = Ok r' /\
  r_buf r' = [6; 8].
Proof.
  do 3 eexists. repeat (split; [vm_compute; reflexivity|]). vm_compute; reflexivity.
Qed.

(** ** C19 *)
(** What the seek delivers, and exactly when that is what it should: as long as the
    recorded offset does not exceed the chunk size. *)
Theorem C19_uncompressed_positions_iff_partial : forall deflate inflate E V
    (enc : E -> V -> res (E * list Z)) (flush : E -> res (E * list Z)) o, supported o ->
  forall (encPos : E -> list Z) e vs1 vs2 w1 w2, CompressionKind o = NONE -> WriteIndex o = true ->
  writeAll deflate enc o (newWriter e) vs1 = Ok w1 ->
  writeStream deflate enc flush o w1 vs2 = Ok w2 ->
  exists o1 e1 e2 o2 offset,
    w_GetPosition encPos o w1 = offset :: encPos e1 /\
    feed enc e vs1 = Ok (e1, o1) /\ segment enc flush e1 vs2 = Ok (e2, o2) /\
    forall pre post r, zlen (pre ++ stored o w2 ++ post) < W64 ->
      r_file r = pre ++ stored o w2 ++ post -> r_start r = zlen pre -> r_length r = w_length w2 ->
      exists r', r_seek inflate o 0 offset r = Ok r' /\
        serves inflate o r' (zdrop (Z.min (zlen o1) (ChunkSize o)) (o1 ++ o2)) /\
        (serves inflate o r' o2 <-> zlen o1 <= ChunkSize o).
Proof. exact seek_uncompressed_pos. Qed.
Print Assumptions C19_uncompressed_positions_iff_partial.

Theorem C19_uncompressed_positions_refuted : exists w1 w2 r' r'',
  writeAll toy_deflate raw_enc no4 (newWriter tt) [[1; 2; 3; 4; 5; 6]] = Ok w1 /\
  w_GetPosition (fun _ => []) no4 w1 = [6] /\
  writeStream toy_deflate raw_enc raw_flush no4 w1 [[7]; [8]] = Ok w2 /\
  r_seek toy_inflate no4 0 6 (newReader (stored no4 w2) 0 (w_length w2)) = Ok r' /\
  r_ReadByte toy_inflate no4 r' = Ok (5, r'').
Proof.
  do 4 eexists. repeat (split; [vm_compute; reflexivity|]). vm_compute; reflexivity.
Qed.
Print Assumptions C19_uncompressed_positions_refuted.

Example C19_case : exists w1 w2 r',
  supported no4 /\ writeAll toy_deflate raw_enc no4 (newWriter tt) [[1; 2; 3; 4]] = Ok w1 /\
  writeStream toy_deflate raw_enc raw_flush no4 w1 [[7]; [8]] = Ok w2 /\
  r_seek toy_inflate no4 0 4 (newReader ([9] ++ stored no4 w2) 1 (w_length w2)) = Ok r' /\
  exists r'', r_ReadByte toy_inflate no4 r' = Ok (7, r'').
Proof.
  do 3 eexists. split; [split; [left; reflexivity|vm_compute; split; [discriminate|reflexivity]]|].
  repeat (split; [vm_compute; reflexivity|]). eexists. vm_compute; reflexivity.
Qed.
