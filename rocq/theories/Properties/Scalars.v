(** Scalar codecs: zigzag, base-128 integers, nanoseconds, floating point bit
    patterns, width codes. *)
From Verif.Model Require Import Go Codec.
From Verif.Spec Require Import Session.
From Verif.Proofs Require Import CodecP CodecClaimsP.

(** C01.  Zigzag is a bijection between int64 and uint64 ... *)
Theorem C01_zigzag_bijection :
  (forall x, is_i64 x -> is_u64 (Zigzag x) /\ UnZigzag (Zigzag x) = x) /\
  (forall u, is_u64 u -> is_i64 (UnZigzag u) /\ Zigzag (UnZigzag u) = u).
Proof. exact zigzag_bijection. Qed.
Print Assumptions C01_zigzag_bijection.

(** ... keeping small magnitudes small ... *)
Theorem C01_zigzag_magnitude : forall x, is_i64 x -> 2 * Z.abs x - 1 <= Zigzag x <= 2 * Z.abs x.
Proof. exact zigzag_magnitude. Qed.
Print Assumptions C01_zigzag_magnitude.

(** ... and the second decoder of the package is the same function. *)
Theorem C01_convert_is_unzigzag : forall u, is_u64 u -> Convert u = UnZigzag u.
Proof. exact Convert_UnZigzag. Qed.
Print Assumptions C01_convert_is_unzigzag.

Example C01_cases : is_i64 (-9223372036854775808) /\
  map Zigzag [0; -1; 1; -2; 9223372036854775807; -9223372036854775808]
  = [0; 1; 2; 3; 18446744073709551614; 18446744073709551615].
Proof. split; [unfold is_i64; split; [discriminate|reflexivity]|reflexivity]. Qed.

(** C02.  Unsigned values, with both readers of the package; whatever follows; every
    proper prefix is an error. *)
Theorem C02_uvarint_lossless : forall v, is_u64 v ->
  exists o, PutUvarint 10 v = Ok o /\ (1 <= length o <= 10)%nat /\
    (forall rest, run ReadUvarint (o ++ rest) = Ok (v, rest)) /\
    (forall rest, ReadVUint (o ++ rest) = Ok (v, rest)) /\
    (forall p q, o = p ++ q -> q <> [] -> run ReadUvarint p = Err).
Proof. exact uvarint_lossless. Qed.
Print Assumptions C02_uvarint_lossless.

Theorem C02_varint_lossless : forall v, is_i64 v ->
  exists o, varint64_Encode v = Ok o /\ bytes o /\ (1 <= length o <= 10)%nat /\
    (forall rest, run DecodeVarInt64 (o ++ rest) = Ok (v, rest)) /\
    (forall p q, o = p ++ q -> q <> [] -> run DecodeVarInt64 p = Err).
Proof. exact varint_lossless. Qed.
Print Assumptions C02_varint_lossless.

Example C02_case : varint64_Encode (-300) = Ok [215; 4] /\ run DecodeVarInt64 [215; 4; 9] = Ok (-300, [9])
  /\ run DecodeVarInt64 [215] = Err.
Proof. repeat split; reflexivity. Qed.

(** C03. *)
Theorem C03_nanos_lossless : forall n, 0 <= n < 2 ^ 61 ->
  DecodingNano (EncodingNano n) = n /\ DecodingTimestampNanos (EncodingTimestampNanos n) = n /\
  is_u64 (EncodingNano n) /\ is_u64 (EncodingTimestampNanos n).
Proof. exact nano_copies. Qed.
Print Assumptions C03_nanos_lossless.

Example C03_case : 0 <= 999999900 < 2 ^ 61 /\ EncodingNano 999999900 = 9999999 * 8 + 1 /\
  EncodingNano 1000000000 = 10 * 8 + 7.
Proof. repeat split; reflexivity || discriminate. Qed.

(** C07. *)
Theorem C07_float_stream : forall vs, Forall is_u32 vs ->
  decode_all (do! v := DecodeFloat in Ret [v]) (flat_map float_Encode vs) = Ok vs.
Proof. exact float_stream. Qed.
Print Assumptions C07_float_stream.

Theorem C07_double_stream : forall vs, Forall is_u64 vs ->
  decode_all (do! v := DecodeDouble in Ret [v]) (flat_map double_Encode vs) = Ok vs.
Proof. exact double_stream. Qed.
Print Assumptions C07_double_stream.

(** A float32 NaN with payload, -0.0; a float64 signalling NaN. *)
Example C07_case :
  decode_all (do! v := DecodeFloat in Ret [v]) (flat_map float_Encode [2143289345; 2147483648])
    = Ok [2143289345; 2147483648] /\
  flat_map double_Encode [9218868437227405313] = [1; 0; 0; 0; 0; 0; 240; 127].
Proof. split; reflexivity. Qed.

(** C42. *)
Theorem C42_varint_stream : forall vs, Forall is_i64 vs ->
  exists o, feed (fun (_ : unit) v => let! o := varint64_Encode v in Ok (tt, o)) tt vs = Ok (tt, o) /\
    decode_all (do! v := DecodeVarInt64 in Ret [v]) o = Ok vs.
Proof. exact varint_stream. Qed.
Print Assumptions C42_varint_stream.

Example C42_case :
  decode_all (do! v := DecodeVarInt64 in Ret [v]) [1; 128; 1; 255; 255; 255; 255; 255; 255; 255; 255; 255; 1]
  = Ok [-1; 64; -9223372036854775808].
Proof. reflexivity. Qed.

(** C44.  The common width of any list of values that are not all zero. *)
Theorem C44_width_code : forall vs, Forall is_u64 vs -> ~ Forall (fun v => v = 0) vs ->
  let w := fold_left Z.max (map getAlignedWidth vs) 0 in
  exists e, widthEncoding w = Ok e /\ 0 <= e < 32 /\ widthDecoding e false = Ok w /\
    Forall (fun v => 0 <= v < 2 ^ w) vs.
Proof. exact width_code_roundtrip. Qed.
Print Assumptions C44_width_code.

(** Every width that has a code, apart from zero, comes back. *)
Theorem C44_width_table : forall w e, widthEncoding w = Ok e -> 1 <= w ->
  widthDecoding e false = Ok w.
Proof. exact width_roundtrip. Qed.
Print Assumptions C44_width_table.

(** The width the direct form computes for all-zero values comes back as 1. *)
Theorem C44_zero_width_refuted : exists w e,
  w = fold_left Z.max (map getAlignedWidth [0; 0; 0]) 0 /\
  widthEncoding w = Ok e /\ widthDecoding e false <> Ok w.
Proof. exact zero_width_refuted. Qed.
Print Assumptions C44_zero_width_refuted.

Example C44_case : fold_left Z.max (map getAlignedWidth [3; 70000; 12]) 0 = 24 /\
  widthEncoding 24 = Ok 23 /\ widthDecoding 23 false = Ok 24.
Proof. repeat split; reflexivity. Qed.
