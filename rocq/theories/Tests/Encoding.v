(** The tests of orc/encoding/encoding_test.go, orc/common/misc_test.go and
    orc/api/vector_test.go, evaluated on the model.  They are tests of the model, not
    claims. *)
From Verif.Model Require Import Go Codec ByteBool IntRle Chunk Time.
From Verif.Spec Require Import Session.

Definition enc_bytes (e : byteEnc) (vs : list Z) := segment byte_Encode byte_Flush e vs.
Definition enc_ints (e : intEnc) (vs : list Z) := segment int_Encode int_Flush e vs.
Definition enc_bools (e : boolEnc) (vs : list bool) := segment bool_Encode bool_Flush e vs.
Definition same (l m : list Z) : bool := if list_eq_dec Z.eq_dec l m then true else false.
(** Write the segments with one encoder and decode each. *)
Fixpoint trips {E V} (enc : E -> V -> res (E * list Z)) flush (dec : prog (list V)) (e : E) (vss : list (list V)) : res (list (list V)) :=
  match vss with
  | [] => Ok []
  | vs :: t => let! (e1, b) := segment enc flush e vs in let! xs := decode_all dec b in
               let! r := trips enc flush dec e1 t in Ok (xs :: r)
  end.
Fixpoint upto (n : nat) : list Z := match n with O => [] | S m => upto m ++ [Z.of_nat m] end.

(** TestByteRunLength *)
Example byte_decode : decode_all DecodeByteRL [0x61; 0] = Ok (repeat 0 100) /\ decode_all DecodeByteRL [0xfe; 0x44; 0x45] = Ok [0x44; 0x45].
Proof. vm_compute. split; reflexivity. Qed.
Definition byte_segments : list (list Z) :=
  [[5; 5; 5; 5]; [1; 5; 5; 5; 5]; [1; 5; 5; 5; 5; 1]; [1; 2; 3; 4; 5; 5; 5; 5; 6; 7; 8; 8; 8; 9; 16];
   [1; 2; 3; 4; 5; 5; 5; 5; 6; 7; 8; 8; 8; 9; 16]; repeat 1 131 ++ [2; 3]; upto 151].
Example byte_trips : trips byte_Encode byte_Flush DecodeByteRL (NewByteEncoder true) byte_segments = Ok byte_segments.
Proof. vm_compute. reflexivity. Qed.
Definition position_after (e : byteEnc) (vs : list Z) : res (list Z) := let! (e1, _) := feed byte_Encode e vs in Ok (byte_GetPosition e1).
Example byte_positions :
  position_after (NewByteEncoder true) [5; 5; 5] = Ok [3] /\
  position_after (NewByteEncoder true) [1; 2; 3; 4; 5] = Ok [5] /\
  position_after (NewByteEncoder true) [1; 2; 3; 4; 5; 5; 5; 5; 6; 7; 8; 8] = Ok [12] /\
  position_after (NewByteEncoder true) (upto 125) = Ok [125] /\ position_after (NewByteEncoder true) (upto 131) = Ok [3].
Proof. vm_compute. repeat split. Qed.
(** TestFindRepeats *)
Example find_repeats : findRepeats [5; 5; 5; 5] 3 = 0%nat /\ findRepeats [1; 5; 5; 5; 5] 3 = 1%nat /\ findRepeats [1; 2; 3; 4; 5] 3 = 5%nat.
Proof. repeat split. Qed.

(** TestIntRunLengthV2_Delta: the encoder is used again with [signed] changed. *)
Definition primes := [2; 3; 5; 7; 11; 13; 17; 19; 23; 29].
Example delta_decode : decode_all DecodeUInt [0xc6; 0x09; 0x02; 0x02; 0x22; 0x42; 0x42; 0x46] = Ok primes.
Proof. vm_compute. reflexivity. Qed.
Example delta_encode : (let! (_, b) := enc_ints (NewIntRLV2 false true) primes in Ok b) = Ok [0xc6; 0x09; 0x02; 0x02; 0x22; 0x42; 0x42; 0x46].
Proof. vm_compute. reflexivity. Qed.
Example delta_position : (let! (e, _) := feed int_Encode (NewIntRLV2 false true) (firstn 8 primes) in Ok (int_GetPosition e)) = Ok [8].
Proof. vm_compute. reflexivity. Qed.
Example delta_signed : trips int_Encode int_Flush DecodeInt (NewIntRLV2 true true) [map Z.opp primes; repeat (-2) 13] = Ok [map Z.opp primes; repeat (-2) 13].
Proof. vm_compute. reflexivity. Qed.
Definition trip_same (signed : bool) (vs : list Z) : bool :=
  match (let! (_, b) := enc_ints (NewIntRLV2 signed true) vs in decode_all (if signed then DecodeInt else DecodeUInt) b) with
  | Ok xs => same xs vs | _ => false
  end.
Example delta_long : trip_same false (upto 1000) = true /\ trip_same true (map (fun i => 1000 - i) (upto 1500)) = true.
Proof. vm_compute. split; reflexivity. Qed.

(** TestIntRunLengthV2Direct *)
Definition four := [23713; 57005; 43806; 48879].
Example direct_encode : (let! (_, b) := enc_ints (NewIntRLV2 false false) four in Ok b) = Ok [0x5e; 0x03; 0x5c; 0xa1; 0xde; 0xad; 0xab; 0x1e; 0xbe; 0xef].
Proof. vm_compute. reflexivity. Qed.
Example direct_trips : trips int_Encode int_Flush DecodeUInt (NewIntRLV2 false false) [four; [999; 900203003; 688888888; 857340643]] = Ok [four; [999; 900203003; 688888888; 857340643]].
Proof. vm_compute. reflexivity. Qed.
Example direct_widths :
  (let! b := writeDirect [6; 7; 8] false in decode_all DecodeUInt b) = Ok [6; 7; 8] /\
  (let! b := writeDirect (map Zigzag [1; 1; 2; 2; 2; 2; 2]) true in decode_all DecodeInt b) = Ok [1; 1; 2; 2; 2; 2; 2] /\
  (let! b := writeDirect (map Zigzag [6; 7; 8]) false in decode_all DecodeInt b) = Ok [6; 7; 8] /\
  (let! b := writeDirect [1025; 1027] false in decode_all DecodeUInt b) = Ok [1025; 1027] /\
  trip_same false [0x5ff] = true.
Proof. vm_compute. repeat split. Qed.

(** TestIntRunLengthV2Patch *)
Definition patch_values := [2030; 2000; 2020; 1000000; 2040; 2050; 2060; 2070; 2080; 2090; 2100; 2110; 2120; 2130;
  2140; 2150; 2160; 2170; 2180; 2190].
Definition patch_bytes := [0x8e; 0x13; 0x2b; 0x21; 0x07; 0xd0; 0x1e; 0x00; 0x14; 0x70; 0x28; 0x32; 0x3c; 0x46; 0x50; 0x5a;
  0x64; 0x6e; 0x78; 0x82; 0x8c; 0x96; 0xa0; 0xaa; 0xb4; 0xbe; 0xfc; 0xe8].
Example patch_decode : decode_all DecodeInt patch_bytes = Ok patch_values.
Proof. vm_compute. reflexivity. Qed.
Example patch_encode : (let! (_, b) := enc_ints (NewIntRLV2 true false) patch_values in Ok b) = Ok patch_bytes.
Proof. vm_compute. reflexivity. Qed.
Example patch_trip : trip_same true [-2030; -2000; -2020; 1000000; 2040; -2050; -2060; -2070; -2080; -2090; -2100; -2110; -2120; -2130;
  -2140; -2150; -2160; -2170; -2180; -2190] = true.
Proof. vm_compute. reflexivity. Qed.

(** TestIntRunLengthV2 *)
Example short_repeat : decode_all DecodeUInt [0x0a; 0x27; 0x10] = Ok (repeat 10000 5) /\ trip_same true (repeat (-1) 10) = true /\
  decode_all DecodeUInt [0x5e; 0x03; 0x5c; 0xa1; 0xab; 0x1e; 0xde; 0xad; 0xbe; 0xef] = Ok [23713; 43806; 57005; 48879].
Proof. vm_compute. repeat split. Qed.

(** TestZigzag, TestTimestampTrailing, TestNanoEncoding, TestEncHeader *)
Example scalars : Zigzag (-1) = 1 /\ UnZigzag 1 = -1 /\ Zigzag 2147483647 = 4294967294 /\ UnZigzag (Zigzag 2147483647) = 2147483647 /\
  Zigzag (-2147483648) = 4294967295 /\ UnZigzag (Zigzag (-2147483648)) = -2147483648 /\ UnZigzag (Zigzag 1) = 1 /\
  EncodingNano 1000 = 0x0a /\ EncodingNano 100000 = 0x0c /\ EncodingTimestampNanos 1000 = 0x0a /\ EncodingTimestampNanos 100000 = 0x0c /\
  encChunkHeader 100000 false = [0x40; 0x0d; 0x03].
Proof. vm_compute. repeat split. Qed.

(** TestBoolRunLength: one encoder for all; the encoder's positions. *)
Definition only (n : nat) (l : list nat) (b : bool) : list bool :=
  map (fun i => if existsb (Nat.eqb i) l then b else negb b) (seq 0 n).
Example bool_bytes : (let! (_, b) := enc_bools (NewBoolEncoder true) (only 8 [0] true)%nat in Ok b) = Ok [0xff; 0x80].
Proof. vm_compute. reflexivity. Qed.
Definition bool_segments : list (list bool) := [only 8 [0] true; only 100 [0] true; only 100 [0; 44; 99] true; only 100 [0; 45; 98] false]%nat.
Example bool_trips : (let! r := trips bool_Encode bool_Flush DecodeBools (NewBoolEncoder true) bool_segments in Ok (map (firstn 100) r)) = Ok bool_segments.
Proof. vm_compute. reflexivity. Qed.
Example bool_positions :
  (let! (e, _) := feed bool_Encode (NewBoolEncoder true) (only 4 [0] true)%nat in Ok (bool_GetPosition e)) = Ok [0; 4] /\
  (let! (e, _) := feed bool_Encode (NewBoolEncoder true) (only 100 [0; 44; 99] true)%nat in Ok (bool_GetPosition e)) = Ok [12; 4].
Proof. vm_compute. split; reflexivity. Qed.

(** TestTimestampEncoding, for UTC: 2037-01-01 00:00:00.000999, 2003-01-01
    00:00:00.000000222, 1995-01-01 00:00:00.688888888. *)
Example timestamps : Forall (fun t => GetTimestamp 0 (Time (GetTimestamp 0 t)) = GetTimestamp 0 t)
  [2114380800000999000; 1041379200000000222; 788918400688888888].
Proof. repeat constructor. Qed.
(** Ties go to even (IEEE 754): 2^53 + 1 and 2^53 + 3. *)
Example ties : num (ofInt 9007199254740993) = 9007199254740992 /\ num (ofInt 9007199254740995) = 9007199254740996.
Proof. vm_compute. split; reflexivity. Qed.
