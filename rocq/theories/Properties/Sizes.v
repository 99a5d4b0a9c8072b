(** C62: how much larger than its input encoded data can get.  Nothing is assumed of the
    DEFLATE library: a chunk that it would enlarge is stored as it is. *)
From Verif.Model Require Import Codec ByteBool IntRle Chunk Stream.
From Verif.Spec Require Import Session ChunkSpec StreamSpec.
From Verif.Proofs Require Import Base SizeP.

(** Footers and indexes: three bytes for every chunk begun. *)
Theorem C62_chunks : forall deflate k cs src out rest, 1 <= cs -> src <> [] ->
  CompressingAllInChunks deflate k cs src = Ok (out, rest) ->
  zlen out <= zlen src + 3 * ((zlen src + cs - 1) / cs).
Proof. intros deflate k cs src out rest Hc Hs H. exact (chunks_all deflate k cs src out rest Hc H Hs). Qed.
Print Assumptions C62_chunks.

(** Streams: the same, whatever the calls of Write were. *)
Theorem C62_stream : forall deflate E V (enc : E -> V -> res (E * list Z)) (flush : E -> res (E * list Z)) o e vs w,
  1 <= ChunkSize o -> writeStream deflate enc flush o (newWriter e) vs = Ok w ->
  exists e' bs, segment enc flush e vs = Ok (e', bs) /\
    if isNone (CompressionKind o) then zlen (stored o w) = zlen bs
    else zlen (stored o w) <= zlen bs + 3 * ((zlen bs + ChunkSize o - 1) / ChunkSize o).
Proof. intros deflate E V enc flush o e vs w Hc. exact (stream_size deflate E V enc flush o Hc e vs w). Qed.
Print Assumptions C62_stream.

(** Bytes: one byte for every 128, and one more. *)
Theorem C62_bytes : forall p vs e out, segment byte_Encode byte_Flush (NewByteEncoder p) vs = Ok (e, out) ->
  zlen out <= zlen vs + zlen vs / 128 + 1.
Proof. exact byte_segment_size. Qed.
Print Assumptions C62_bytes.

(** Booleans, PRESENT streams: eight to a byte, then as bytes. *)
Theorem C62_bools : forall p vs e out, segment bool_Encode bool_Flush (NewBoolEncoder p) vs = Ok (e, out) ->
  zlen out <= (zlen vs + 7) / 8 + (zlen vs + 7) / 1024 + 1.
Proof. exact bool_segment_size. Qed.
Print Assumptions C62_bools.

(** Integers: 16 bytes a value. *)
Theorem C62_ints : forall signed p vs e out, segment int_Encode int_Flush (NewIntRLV2 signed p) vs = Ok (e, out) ->
  zlen out <= 16 * zlen vs.
Proof. exact int_segment_size. Qed.
Print Assumptions C62_ints.

(** Together: what a compressed integer stream takes in the file. *)
Theorem C62_int_stream : forall deflate o signed p vs w, CompressionKind o = ZLIB -> 1 <= ChunkSize o ->
  writeStream deflate int_Encode int_Flush o (newWriter (NewIntRLV2 signed p)) vs = Ok w ->
  zlen (stored o w) <= 16 * zlen vs + 3 * ((16 * zlen vs + ChunkSize o - 1) / ChunkSize o).
Proof.
  intros deflate o signed p vs w Hk Hc H. destruct (C62_stream _ _ _ _ _ _ _ _ _ Hc H) as (e' & bs & Hs & Hz).
  rewrite Hk in Hz. cbn [isNone] in Hz. apply C62_ints in Hs.
  assert ((zlen bs + ChunkSize o - 1) / ChunkSize o <= (16 * zlen vs + ChunkSize o - 1) / ChunkSize o) by (apply Z.div_le_mono; lia).
  lia.
Qed.
Print Assumptions C62_int_stream.

(** The bounds for chunks and bytes are reached. *)
Example C62_case_chunks : exists out, CompressingAllInChunks toy_deflate ZLIB 4 [1; 2; 3; 4; 5; 6; 7; 8; 9] = Ok (out, []) /\ zlen out = 9 + 3 * 3.
Proof. eexists. split; vm_compute; reflexivity. Qed.
Example C62_case_bytes : exists e out, segment byte_Encode byte_Flush (NewByteEncoder true) [7] = Ok (e, out) /\ zlen out = 2.
Proof. do 2 eexists. split; vm_compute; reflexivity. Qed.
Example C62_case_bytes_many : exists e out, segment byte_Encode byte_Flush (NewByteEncoder true) (map Z.of_nat (seq 0 200)) = Ok (e, out) /\ zlen out = 202.
Proof. do 2 eexists. split; vm_compute; reflexivity. Qed.
Example C62_case_bools : exists e out, segment bool_Encode bool_Flush (NewBoolEncoder true) [true; false; true] = Ok (e, out) /\ zlen out = 2.
Proof. do 2 eexists. split; vm_compute; reflexivity. Qed.
(** Values far apart: a run with patches, nearly five bytes a value. *)
Example C62_case_ints : exists e out,
  segment int_Encode int_Flush (NewIntRLV2 true true) [- 2 ^ 20; 2 ^ 20; 5; 6] = Ok (e, out) /\ zlen out = 19.
Proof. do 2 eexists. split; vm_compute; reflexivity. Qed.
Example C62_case_stream : exists w, writeStream toy_deflate int_Encode int_Flush {| CompressionKind := ZLIB; ChunkSize := 8; WriteIndex := false |}
    (newWriter (NewIntRLV2 false true)) [1; 100; 3; 70000; 5] = Ok w /\ 10 <= zlen (stored {| CompressionKind := ZLIB; ChunkSize := 8; WriteIndex := false |} w).
Proof. eexists. split; [vm_compute; reflexivity|]. vm_compute. discriminate. Qed.
