(** Scalar codecs of orc/encoding: zigzag, base-128 varints, nanoseconds, bit
    widths, floats. *)
From Verif.Model Require Import Go.

(** orc/encoding/package.go 267-269
    [return uint64(x<<1) ^ uint64(x>>63)]; x is an int64, [>>] is arithmetic. *)
Definition Zigzag (x : Z) : Z :=
  Z.lxor (u64 (i64 (Z.shiftl x 1))) (u64 (Z.shiftr x 63)).

(** orc/encoding/package.go 263-265
    [return int64(x>>1) ^ -int64(x&1)]. *)
Definition UnZigzag (x : Z) : Z :=
  Z.lxor (i64 (Z.shiftr x 1)) (- i64 (Z.land x 1)).

(** orc/encoding/package.go 289-295 [Convert]; [^x] is -x-1. *)
Definition Convert (u : Z) : Z :=
  let x := i64 (Z.shiftr u 1) in
  if negb (Z.land u 1 =? 0) then Z.lnot x else x.

(** Go's binary.PutUvarint (encoding/binary) into a buffer with [room] bytes:
    an index past the end of the buffer panics.  Used by orc/encoding/int.go
    445-451, 463-469, 913-914, 1142-1143. *)
Fixpoint PutUvarint (room : nat) (x : Z) : res (list Z) :=
  match room with
  | O => Panic
  | S r =>
      if x <? 128 then Ok [u8 x]
      else let! t := PutUvarint r (Z.shiftr x 7) in Ok (Z.lor (u8 x) 128 :: t)
  end.

(** Go's binary.PutVarint: [ux := uint64(x) << 1; if x < 0 { ux = ^ux }]. *)
Definition PutVarint (room : nat) (x : Z) : res (list Z) :=
  let ux := u64 (Z.shiftl (u64 x) 1) in
  PutUvarint room (if x <? 0 then u64 (Z.lnot ux) else ux).

(** Go's binary.ReadUvarint: at most 10 bytes, overflow is an error.
    [left] counts the remaining iterations of the loop (10 - i). *)
Fixpoint read_uvarint (left : nat) (x s : Z) : prog Z :=
  match left with
  | O => Fail                                      (* errOverflow *)
  | S l =>
      RdByte (fun b =>
        if b <? 128 then
          if (Nat.eqb l 0) && (1 <? b) then Fail   (* errOverflow *)
          else Ret (Z.lor x (u64 (Z.shiftl b s)))
        else read_uvarint l (Z.lor x (u64 (Z.shiftl (Z.land b 127) s))) (s + 7))
  end.
Definition ReadUvarint : prog Z := read_uvarint 10 0 0.

(** Go's binary.ReadVarint. *)
Definition ReadVarint : prog Z :=
  do! ux := ReadUvarint in
  let x := i64 (Z.shiftr ux 1) in
  Ret (if negb (Z.land ux 1 =? 0) then Z.lnot x else x).

(** orc/encoding/int.go 1140-1148 varint64Encoder.Encode: 10 byte buffer. *)
Definition varint64_Encode (v : Z) : res (list Z) := PutVarint 10 v.

(** orc/encoding/int.go 1159-1162. *)
Definition DecodeVarInt64 : prog Z := ReadVarint.

(** orc/encoding/package.go 297-311.  The loop runs while nanos%10==0 and
    trailingZeros<7, so at most 6 times: [fuel] 6 never runs out before the
    second condition stops it. *)
Fixpoint nano_loop (fuel : nat) (nanos tz : Z) : Z * Z :=
  match fuel with
  | O => (nanos, tz)
  | S f => if (nanos mod 10 =? 0) && (tz <? 7) then nano_loop f (nanos / 10) (tz + 1)
           else (nanos, tz)
  end.
Definition EncodingNano (nanos : Z) : Z :=
  if nanos =? 0 then 0
  else if negb (nanos mod 100 =? 0) then u64 (Z.shiftl nanos 3)
  else let '(n, tz) := nano_loop 6 (nanos / 100) 1 in
       Z.lor (u64 (Z.shiftl n 3)) (u64 tz).

(** orc/encoding/package.go 313-322: multiplies by ten zeros+1 times, in uint
    (64-bit) arithmetic. *)
Fixpoint mul10 (k : nat) (n : Z) : Z :=
  match k with O => n | S k' => mul10 k' (u64 (n * 10)) end.
Definition DecodingNano (encoded : Z) : Z :=
  let zeros := Z.land 7 encoded in
  let nano := Z.shiftr encoded 3 in
  if negb (zeros =? 0) then mul10 (Z.to_nat (zeros + 1)) nano else nano.

(** orc/encoding/package.go 163-214 (the log.Warnf calls are dropped). *)
Definition widthEncoding (width : Z) : res Z :=
  if (2 <=? width) && (width <=? 21) then Ok (u8 (width - 1))
  else if width =? 26 then Ok 24
  else if width =? 28 then Ok 25
  else if width =? 30 then Ok 26
  else if width =? 0 then Ok 0
  else if width =? 1 then Ok 0
  else if width =? 24 then Ok 23
  else if width =? 32 then Ok 27
  else if width =? 40 then Ok 28
  else if width =? 48 then Ok 29
  else if width =? 56 then Ok 30
  else if width =? 64 then Ok 31
  else Err.

(** orc/encoding/package.go 216-261. *)
Definition widthDecoding (w : Z) (delta : bool) : res Z :=
  if (2 <=? w) && (w <=? 23) then Ok (w + 1)
  else if w =? 24 then Ok 26
  else if w =? 25 then Ok 28
  else if w =? 26 then Ok 30
  else if w =? 0 then Ok (if delta then 0 else 1)
  else if w =? 1 then Ok 2
  else if w =? 27 then Ok 32
  else if w =? 28 then Ok 40
  else if w =? 29 then Ok 48
  else if w =? 30 then Ok 56
  else if w =? 31 then Ok 64
  else Err.

(** orc/encoding/int.go 1011-1017.  A uint64 is zero after at most 64 shifts. *)
Fixpoint bits_loop (fuel : nat) (x w : Z) : Z :=
  match fuel with
  | O => w
  | S f => if x =? 0 then w else bits_loop f (Z.shiftr x 1) (w + 1)
  end.
Definition getBitsWidth (x : Z) : Z := bits_loop 64 x 0.

(** orc/encoding/int.go 1020-1051. *)
Definition getAlignedWidth (x : Z) : Z :=
  let n := bits_loop 64 x 0 in
  if (2 <? n) && (n <=? 4) then 4
  else if (4 <? n) && (n <=? 8) then 8
  else if (8 <? n) && (n <=? 16) then (if n =? 12 then n else 16)
  else if (16 <? n) && (n <=? 24) then 24
  else if (24 <? n) && (n <=? 32) then 32
  else if (32 <? n) && (n <=? 40) then 40
  else if (40 <? n) && (n <=? 48) then 48
  else if (48 <? n) && (n <=? 56) then 56
  else if (56 <? n) && (n <=? 64) then 64
  else n.

(** binary.BigEndian.PutUint32 / Uint32 and binary.LittleEndian.PutUint64 /
    Uint64 (encoding/binary), on bit patterns: a float is identified with its IEEE
    bit pattern (math.Float32bits / Float32frombits are taken to be the identity
    on patterns). *)
Definition be32 (v : Z) : list Z :=
  [u8 (Z.shiftr v 24); u8 (Z.shiftr v 16); u8 (Z.shiftr v 8); u8 v].
Definition un_be32 (b : list Z) : Z :=
  match b with
  | [b0; b1; b2; b3] =>
      Z.lor (Z.lor (Z.lor b3 (Z.shiftl b2 8)) (Z.shiftl b1 16)) (Z.shiftl b0 24)
  | _ => 0
  end.
Definition le64 (v : Z) : list Z :=
  [u8 v; u8 (Z.shiftr v 8); u8 (Z.shiftr v 16); u8 (Z.shiftr v 24);
   u8 (Z.shiftr v 32); u8 (Z.shiftr v 40); u8 (Z.shiftr v 48); u8 (Z.shiftr v 56)].
Definition un_le64 (b : list Z) : Z :=
  match b with
  | [b0; b1; b2; b3; b4; b5; b6; b7] =>
      Z.lor (Z.lor (Z.lor (Z.lor (Z.lor (Z.lor (Z.lor b0 (Z.shiftl b1 8))
        (Z.shiftl b2 16)) (Z.shiftl b3 24)) (Z.shiftl b4 32)) (Z.shiftl b5 40))
        (Z.shiftl b6 48)) (Z.shiftl b7 56)
  | _ => 0
  end.

(** orc/encoding/float.go 21-33 (float32, big endian) and 70-83 (float64,
    little endian). *)
Definition float_Encode (bits : Z) : list Z := be32 bits.
Definition double_Encode (bits : Z) : list Z := le64 bits.

(** orc/encoding/float.go 44-51 and 53-62. *)
Definition DecodeFloat : prog Z := RdFull 4 (fun bb => Ret (un_be32 bb)).
Definition DecodeDouble : prog Z := RdFull 8 (fun bb => Ret (un_le64 bb)).

(** orc/encoding/string.go 17-26 and 37-43.  [make([]byte, length)] panics for a
    negative length; a length the machine cannot allocate is not modelled. *)
Definition string_Encode (bs : list Z) : list Z := bs.
Definition DecodeBytes (len : Z) : prog (list Z) :=
  if len <? 0 then Crash else RdFull (Z.to_nat len) (fun bb => Ret bb).

(** orc/encoding/package.go 272-287 ReadVUint: unlike ReadUvarint there is no limit
    on the number of bytes; bits shifted beyond 64 are lost.  After a failed
    ReadByte the byte is 0, so the loop ends and the error is returned.  (The
    function is not called in the repository.) *)
Fixpoint ReadVUint_loop (i : list Z) (r shift : Z) : res (Z * list Z) :=
  match i with
  | [] => Err
  | b :: t =>
      let r' := Z.lor r (u64 (Z.shiftl (Z.land 127 b) shift)) in
      if b <? 128 then Ok (r', t) else ReadVUint_loop t r' (shift + 7)
  end.
Definition ReadVUint (i : list Z) : res (Z * list Z) := ReadVUint_loop i 0 0.

(** orc/api/vector.go 169-183 and 185-194: the copies of the nanosecond packing used
    by the timestamp column. *)
Definition EncodingTimestampNanos (nanos : Z) : Z :=
  if nanos =? 0 then 0
  else if negb (nanos mod 100 =? 0) then u64 (Z.shiftl nanos 3)
  else let '(n, tz) := nano_loop 6 (nanos / 100) 1 in
       Z.lor (u64 (Z.shiftl n 3)) (u64 tz).
Definition DecodingTimestampNanos (encoded : Z) : Z :=
  let zeros := Z.land 7 encoded in
  let nano := Z.shiftr encoded 3 in
  if negb (zeros =? 0) then mul10 (Z.to_nat (zeros + 1)) nano else nano.
