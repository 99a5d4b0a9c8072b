(** Streams: orc/stream/writer.go, reader.go, byte.go, bool.go, int.go, float.go,
    string.go.  Logging and the unused fields [positions] and [count] are omitted.
    bytes.Buffer never fails to grow. *)
From Verif.Model Require Import Go ByteBool Chunk.

(** The options a stream looks at: config.WriterOptions / config.ReaderOptions. *)
Record opts := { CompressionKind : kind; ChunkSize : Z; WriteIndex : bool }.

Definition isNone (k : kind) : bool := match k with NONE => true | _ => false end.

(** ** Writer *)
Section Writer.
Variable deflate : list (list Z) -> list Z -> res (list Z).
(** encoding.Encoder (encoding/package.go): Encode, Flush, GetPosition. *)
Variable E V : Type.
Variable enc : E -> V -> res (E * list Z).
Variable flush : E -> res (E * list Z).
Variable encPosition : E -> list Z.
Variable o : opts.

(** writer.go 14-27.  [w_cbuf] is meaningful only with compression: without it the
    Go pointer is nil. *)
Record writer := { w_enc : E; w_buf : list Z; w_cbuf : list Z; w_length : Z }.

(** writer.go 124-215 (all constructors, up to the encoder). *)
Definition newWriter (e : E) : writer := {| w_enc := e; w_buf := []; w_cbuf := []; w_length := 0 |}.

(** writer.go 29-41. *)
Definition w_GetPosition (w : writer) : list Z :=
  if negb (WriteIndex o) then [] else
  (if isNone (CompressionKind o) then [] else [zlen (w_cbuf w)])
    ++ [zlen (w_buf w)] ++ encPosition (w_enc w).

(** writer.go 48-63. *)
Definition w_Write (w : writer) (v : V) : res writer :=
  let! (e, out) := enc (w_enc w) v in
  let buf := w_buf w ++ out in
  if negb (isNone (CompressionKind o)) && (ChunkSize o <? zlen buf) then
    let! (c, buf') := CompressingChunks deflate (CompressionKind o) (ChunkSize o) buf in
    Ok {| w_enc := e; w_buf := buf'; w_cbuf := w_cbuf w ++ c; w_length := w_length w |}
  else Ok {| w_enc := e; w_buf := buf; w_cbuf := w_cbuf w; w_length := w_length w |}.

(** writer.go 66-74. *)
Definition w_Size (w : writer) : Z :=
  if isNone (CompressionKind o) then zlen (w_buf w) else zlen (w_cbuf w) + zlen (w_buf w).

(** writer.go 79-96. *)
Definition w_Flush (w : writer) : res writer :=
  let! (e, out) := flush (w_enc w) in
  let buf := w_buf w ++ out in
  if isNone (CompressionKind o) then
    Ok {| w_enc := e; w_buf := buf; w_cbuf := w_cbuf w; w_length := zlen buf |}
  else
    let! (c, buf') :=
       (if 0 <? zlen buf then CompressingAllInChunks deflate (CompressionKind o) (ChunkSize o) buf
        else Ok ([], buf)) in
    let cbuf := w_cbuf w ++ c in
    Ok {| w_enc := e; w_buf := buf'; w_cbuf := cbuf; w_length := zlen cbuf |}.

(** writer.go 98-105.  Without compression compressedBuf is nil and its Reset
    dereferences it.  The encoder is not reset. *)
Definition w_Reset (w : writer) : res writer :=
  if isNone (CompressionKind o) then Panic
  else Ok {| w_enc := w_enc w; w_buf := []; w_cbuf := []; w_length := 0 |}.

(** writer.go 108-122: the bytes written out (the buffer is drained). *)
Definition w_WriteOut (w : writer) : list Z * writer :=
  if isNone (CompressionKind o) then
    (w_buf w, {| w_enc := w_enc w; w_buf := []; w_cbuf := w_cbuf w; w_length := w_length w |})
  else
    (w_cbuf w, {| w_enc := w_enc w; w_buf := w_buf w; w_cbuf := []; w_length := w_length w |}).
End Writer.
Arguments w_enc {E}.
Arguments w_buf {E}.
Arguments w_cbuf {E}.
Arguments w_length {E}.
Arguments newWriter {E}.
Arguments w_GetPosition {E}.
Arguments w_Write deflate {E V}.
Arguments w_Size {E}.
Arguments w_Flush deflate {E}.
Arguments w_Reset {E}.
Arguments w_WriteOut {E}.

(** ** Reader *)
Section Reader.
Variable inflate : list Z -> res (list Z).
Variable o : opts.

(** reader.go 20-32.  [r_file] is the whole file, [r_rest] the bytes at and after the
    file cursor (the columns give every stream its own file handle, e.g. column/int.go
    InitStream).  The file is an ideal random-access byte sequence. *)
Record reader := { r_file : list Z; r_start : Z; r_length : Z;
                   r_rest : list Z; r_readLength : Z; r_buf : list Z }.

(** reader.go 34-41 preceded by the Seek(startOffset) of the columns' InitStream
    (column/int.go 171-193 and the like).  Not modelled: Seek refuses a start of 2^63 or
    more, so that InitStream fails; here the stream is one without bytes, which fails when
    it is read. *)
Definition newReader (file : list Z) (start length : Z) : reader :=
  {| r_file := file; r_start := start; r_length := length;
     r_rest := zdrop start file; r_readLength := 0; r_buf := [] |}.

(** reader.go 110-158.  Without compression the chunk size is 262144 (reader.go 65), so the
    conversion to int64 changes nothing. *)
Definition readAChunk (r : reader) : res reader :=
  match CompressionKind o with
  | NONE =>
      let l := (if u64 (r_length r - r_readLength r) <? ChunkSize o
                then u64 (r_length r - r_readLength r) else ChunkSize o) in
      let! (p, rest) := copyN l (r_rest r) in
      Ok {| r_file := r_file r; r_start := r_start r; r_length := r_length r;
            r_rest := rest; r_readLength := u64 (r_readLength r + l); r_buf := r_buf r ++ p |}
  | k =>
      match r_rest r with
      | h0 :: h1 :: h2 :: rest =>
          let (chunkLength, original) := DecChunkHeader h0 h1 h2 in
          if ChunkSize o <? chunkLength then Err else
          let! (p, rest') := copyN chunkLength rest in
          let! d := (if original then Ok p else Decompress inflate k p) in
          Ok {| r_file := r_file r; r_start := r_start r; r_length := r_length r;
                r_rest := rest'; r_readLength := u64 (r_readLength r + 3 + chunkLength);
                r_buf := r_buf r ++ d |}
      | _ => Err
      end
  end.

(** reader.go 43-65. *)
Definition r_ReadByte (r : reader) : res (Z * reader) :=
  let pop r' :=
    match r_buf r' with
    | [] => Err
    | b :: t => Ok (b, {| r_file := r_file r'; r_start := r_start r'; r_length := r_length r';
                          r_rest := r_rest r'; r_readLength := r_readLength r'; r_buf := t |})
    end in
  match r_buf r with
  | _ :: _ => pop r
  | [] => if r_length r <=? r_readLength r then Err
          else let! r' := readAChunk r in pop r'
  end.

(** reader.go 78-82: read chunks until [n] bytes are buffered or the stream is used
    up.  [fuel]: every chunk consumes at least one byte of the file when the chunk
    size is not 0. *)
Fixpoint fill (fuel : nat) (n : nat) (r : reader) : res reader :=
  if (length (r_buf r) <? n)%nat && (r_readLength r <? r_length r) then
    match fuel with
    | O => Panic
    | S f => let! r' := readAChunk r in fill f n r'
    end
  else Ok r.

(** reader.go 67-90 under io.ReadFull, the only way the decoders call Read: a Read
    that returns fewer bytes than wanted is followed by another Read, which fails at
    line 74 because the stream is used up; ReadFull of 0 bytes does not call Read. *)
Definition r_ReadFull (n : nat) (r : reader) : res (list Z * reader) :=
  if Nat.eqb n 0 then Ok ([], r) else
  let! r' := (if (n <=? length (r_buf r))%nat then Ok r
              else if r_length r <=? r_readLength r then Err
              else fill (S (length (r_rest r))) n r) in
  if (n <=? length (r_buf r'))%nat then
    Ok (firstn n (r_buf r'),
        {| r_file := r_file r'; r_start := r_start r'; r_length := r_length r';
           r_rest := r_rest r'; r_readLength := r_readLength r'; r_buf := skipn n (r_buf r') |})
  else Err.

(** Running a decoder over the stream reader. *)
Definition r_run {A} (p : prog A) (r : reader) : res (A * reader) := runS r_ReadByte r_ReadFull p r.

(** reader.go 94-107. *)
Definition r_seek (chunk chunkOffset : Z) (r : reader) : res reader :=
  let! r' := readAChunk
     {| r_file := r_file r; r_start := r_start r; r_length := r_length r;
        r_rest := zdrop (u64 (r_start r + chunk)) (r_file r); r_readLength := chunk; r_buf := [] |} in
  Ok {| r_file := r_file r'; r_start := r_start r'; r_length := r_length r';
        r_rest := r_rest r'; r_readLength := r_readLength r';
        r_buf := zdrop chunkOffset (r_buf r') |}.

(** reader.go 160-162. *)
Definition r_finished (r : reader) : bool :=
  (r_length r <=? r_readLength r) && Nat.eqb (length (r_buf r)) 0.

(** ** Readers of run-length encoded values: byte.go 10-53, int.go 11-109
    (time.go's dateV2Reader has the same shape).  [v_vals] is values[consumed:]. *)
Section Values.
Variable A : Type.
Variable dec : prog (list A).
Record vreader := { v_s : reader; v_vals : list A }.
Definition newVreader (r : reader) : vreader := {| v_s := r; v_vals := [] |}.

(** byte.go 21-35, int.go 27-62.  An empty decoded run makes values[consumed] panic
    (NextUInt64, int.go 54-56, returns an error instead). *)
Definition v_Next (v : vreader) : res (A * vreader) :=
  match v_vals v with
  | x :: t => Ok (x, {| v_s := v_s v; v_vals := t |})
  | [] =>
      let! (xs, s) := r_run dec (v_s v) in
      match xs with
      | [] => Panic
      | x :: t => Ok (x, {| v_s := s; v_vals := t |})
      end
  end.

(** The loops calling Next [n] times. *)
Fixpoint v_skip (n : nat) (v : vreader) : res vreader :=
  match n with
  | O => Ok v
  | S m => let! (_, v') := v_Next v in v_skip m v'
  end.

(** byte.go 37-49, int.go 88-111. *)
Definition v_Seek (chunk chunkOffset valueOffset : Z) (v : vreader) : res vreader :=
  let! s := r_seek chunk chunkOffset (v_s v) in
  v_skip (Z.to_nat (i64 valueOffset)) {| v_s := s; v_vals := [] |}.

(** byte.go 51-53, int.go 80-86. *)
Definition v_Finished (v : vreader) : bool :=
  r_finished (v_s v) && Nat.eqb (length (v_vals v)) 0.
End Values.
End Reader.
Arguments v_s {A}.
Arguments v_vals {A}.
Arguments newVreader {A}.
Arguments v_Next inflate o {A}.
Arguments v_skip inflate o {A}.
Arguments v_Seek inflate o {A}.
Arguments v_Finished {A}.

(** ** BoolReader: bool.go 10-55, over the byte reader. *)
Section Bools.
Variable inflate : list Z -> res (list Z).
Variable o : opts.
Record boolReader := { bl_r : vreader Z; bl_vals : list bool }.
Definition newBoolReader (r : reader) : boolReader := {| bl_r := newVreader r; bl_vals := [] |}.

(** bool.go 20-33. *)
Definition bool_Next (b : boolReader) : res (bool * boolReader) :=
  match bl_vals b with
  | x :: t => Ok (x, {| bl_r := bl_r b; bl_vals := t |})
  | [] =>
      let! (v, r) := v_Next inflate o DecodeByteRL (bl_r b) in
      match DecodeBoolsFromByte v with
      | [] => Panic
      | x :: t => Ok (x, {| bl_r := r; bl_vals := t |})
      end
  end.
Fixpoint bool_skip (n : nat) (b : boolReader) : res boolReader :=
  match n with
  | O => Ok b
  | S m => let! (_, b') := bool_Next b in bool_skip m b'
  end.

(** bool.go 35-47. *)
Definition bool_Seek (chunk chunkOffset byteOffset valueOffset : Z) (b : boolReader) : res boolReader :=
  let! r := v_Seek inflate o DecodeByteRL chunk chunkOffset byteOffset (bl_r b) in
  bool_skip (Z.to_nat (i64 valueOffset)) {| bl_r := r; bl_vals := [] |}.

(** bool.go 49-51. *)
Definition bool_Finished (b : boolReader) : bool :=
  v_Finished (bl_r b) && Nat.eqb (length (bl_vals b)) 0.
End Bools.
