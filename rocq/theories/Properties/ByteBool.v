(** Byte and boolean run-length streams. *)
From Verif.Model Require Import Go ByteBool.
From Verif.Spec Require Import Session BoolSpec.
From Verif.Proofs Require Import CodecClaimsP.

(** C04.  Any number of byte sequences written one after the other with the same
    encoder, flushed after each: each output decodes to its own sequence.  An empty
    sequence (a second flush) gives an output that decodes to nothing. *)
Theorem C04_byte_lossless : forall p vss, Forall bytes vss ->
  exists os, segments byte_Encode byte_Flush (NewByteEncoder p) vss = Ok os /\
    Forall2 (fun o vs => decode_all DecodeByteRL o = Ok vs) os vss.
Proof. exact byte_lossless. Qed.
Print Assumptions C04_byte_lossless.

Example C04_case :
  segments byte_Encode byte_Flush (NewByteEncoder true) [[5; 5; 5; 5; 1; 2]; []; [9]]
    = Ok [[1; 5; 254; 1; 2]; []; [255; 9]] /\
  decode_all DecodeByteRL [1; 5; 254; 1; 2] = Ok [5; 5; 5; 5; 1; 2].
Proof. split; reflexivity. Qed.

(** C05. *)
Theorem C05_bool_lossless : forall p vs, exists e o,
  segment bool_Encode bool_Flush (NewBoolEncoder p) vs = Ok (e, o) /\
  exists pad, decode_all DecodeBools o = Ok (vs ++ repeat false pad) /\ (pad < 8)%nat.
Proof. exact bool_lossless. Qed.
Print Assumptions C05_bool_lossless.

Example C05_case :
  exists e, segment bool_Encode bool_Flush (NewBoolEncoder true) [true; false; true] = Ok (e, [255; 160]).
Proof. eexists. vm_compute. reflexivity. Qed.

(** C06, refuted: [true] then [false] reads back as [true] in the second stream. *)
Theorem C06_bool_reuse_refuted : exists a b e1 o1 e2 o2 r,
  segment bool_Encode bool_Flush (NewBoolEncoder true) a = Ok (e1, o1) /\
  segment bool_Encode bool_Flush e1 b = Ok (e2, o2) /\
  decode_all DecodeBools o2 = Ok r /\ firstn (length b) r <> b.
Proof. exact bool_reuse_refuted. Qed.
Print Assumptions C06_bool_reuse_refuted.

(** C06, exact condition: the second stream is intact iff each bit that is set in the
    incomplete last byte of the first stream is also set, at the same place, in
    the second one (or the second one is empty). *)
Theorem C06_bool_reuse_iff_partial : forall p a b, exists e1 o1 e2 o2,
  segment bool_Encode bool_Flush (NewBoolEncoder p) a = Ok (e1, o1) /\
  segment bool_Encode bool_Flush e1 b = Ok (e2, o2) /\
  ((exists pad, decode_all DecodeBools o2 = Ok (b ++ repeat false pad) /\ (pad < 8)%nat) <->
   forall i, nth (8 * Nat.div (length a) 8 + i) a false = true ->
     (i < length b \/ b <> [] /\ i < 8)%nat -> nth i b false = true).
Proof. exact bool_reuse_iff. Qed.
Print Assumptions C06_bool_reuse_iff_partial.

(** C06, what any number of streams written with one encoder really contain
    ([stored_all], Spec/BoolSpec.v). *)
Theorem C06_bool_reuse_contents_partial : forall p segs,
  exists os, segments bool_Encode bool_Flush (NewBoolEncoder p) segs = Ok os /\
    Forall2 (fun o r => decode_all DecodeBools o = Ok r) os (stored_all [] segs).
Proof. exact bool_reuse_exact. Qed.
Print Assumptions C06_bool_reuse_contents_partial.

Example C06_case : stored_all [] [[true; false]; [false; false; true]; []; [false]] =
  [[true; false; false; false; false; false; false; false];
   [true; false; true; false; false; false; false; false]; [];
   [true; false; true; false; false; false; false; false]].
Proof. reflexivity. Qed.

(** C20, bytes: [o1] is what was written when the position was taken, [o2] the rest of
    the stream. *)
Theorem C20_byte_position : forall pre post, bytes pre -> bytes post ->
  exists e1 o1 e2 o2 pos ws,
    feed byte_Encode (NewByteEncoder true) pre = Ok (e1, o1) /\
    segment byte_Encode byte_Flush e1 post = Ok (e2, o2) /\
    segment byte_Encode byte_Flush (NewByteEncoder true) (pre ++ post) = Ok (e2, o1 ++ o2) /\
    byte_GetPosition e1 = [pos] /\ 0 <= pos < 128 /\
    decode_all DecodeByteRL o2 = Ok ws /\ pos <= zlen ws /\ zdrop pos ws = post.
Proof. exact byte_position. Qed.
Print Assumptions C20_byte_position.

(** C20, booleans. *)
Theorem C20_bool_position : forall pre post,
  exists e1 o1 e2 o2 bytesPos bitsPos ws pad,
    feed bool_Encode (NewBoolEncoder true) pre = Ok (e1, o1) /\
    segment bool_Encode bool_Flush e1 post = Ok (e2, o2) /\
    segment bool_Encode bool_Flush (NewBoolEncoder true) (pre ++ post) = Ok (e2, o1 ++ o2) /\
    bool_GetPosition e1 = [bytesPos; bitsPos] /\ 0 <= bytesPos < 128 /\ 0 <= bitsPos < 8 /\
    decode_all DecodeByteRL o2 = Ok ws /\ bytesPos <= zlen ws /\
    bitsPos <= zlen (flat_map DecodeBoolsFromByte (zdrop bytesPos ws)) /\
    zdrop bitsPos (flat_map DecodeBoolsFromByte (zdrop bytesPos ws)) = post ++ repeat false pad /\
    (pad < 8)%nat.
Proof. exact bool_position. Qed.
Print Assumptions C20_bool_position.

(** C20, after a flush: with nothing written yet the recorded count is still the one of
    the previous stream. *)
Theorem C20_byte_position_after_flush_refuted : exists vs e o,
  bytes vs /\ segment byte_Encode byte_Flush (NewByteEncoder true) vs = Ok (e, o) /\
  b_values e = [] /\ byte_GetPosition e <> [0].
Proof. exact byte_position_stale. Qed.
Print Assumptions C20_byte_position_after_flush_refuted.

Example C20_case : exists e o,
  feed bool_Encode (NewBoolEncoder true) (repeat true 11) = Ok (e, o) /\
  bool_GetPosition e = [1; 3].
Proof. eexists. eexists. split; [vm_compute; reflexivity|vm_compute; reflexivity]. Qed.
