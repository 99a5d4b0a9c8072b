(** The file system below the streams: orc/io/file.go, and the parts of Go's io and
    bytes packages through which the library reads and writes files (io.ReadFull,
    io.LimitReader, io.CopyN, bytes.Buffer.ReadFrom, bytes.Buffer.WriteTo), with reads
    that return fewer bytes than wanted and writes that fail.

    The other model files read a file as an ideal byte sequence.  Here the same code
    (stream/reader.go, reader.go 254-343, stripe.go 221-246, column/reader.go 33-60,
    stripe.go 84-153, writer.go) is written against a file handle that is only known
    through its calls. *)
From Verif.Model Require Import Go Chunk Stream Schema Rows File Column.

(** The errors that the code tells apart: io.EOF by comparison; errors.WithStack
    makes a new value. *)
Inductive ioerr := EOF | UnexpectedEOF | OtherErr | WithStack (e : ioerr).
Definition isEOF (e : ioerr) : bool := match e with EOF => true | _ => false end.

(** ** Go's io and bytes packages over any io.Reader *)
Section Readers.
Variable R : Type.
(** Read(p) with len(p) = k: the bytes, the error, the new state. *)
Variable read : Z -> R -> res (list Z * option ioerr * R).

(** io.ReadAtLeast(r, buf, len(buf)): [n] = len(buf),
    [got] the bytes so far.  [fuel]: one step per byte suffices for a reader that
    always delivers a byte or an error; a reader that keeps returning nothing makes Go
    loop forever, here [Panic]. *)
Fixpoint readFullLoop (fuel : nat) (n : Z) (got : list Z) (s : R) : res (list Z * option ioerr * R) :=
  if n <=? zlen got then Ok (got, None, s) else
  match fuel with
  | O => Panic
  | S f =>
      let! (d, e, s') := read (n - zlen got) s in
      let got' := got ++ d in
      match e with
      | None => readFullLoop f n got' s'
      | Some e =>
          if n <=? zlen got' then Ok (got', None, s')
          else Ok (got', Some (if (0 <? zlen got') && isEOF e then UnexpectedEOF else e), s')
      end
  end.
(** io.ReadFull, with the error check that follows every call in the library. *)
Definition ReadFull (n : Z) (s : R) : res (list Z * R) :=
  let! (d, e, s') := readFullLoop (Z.to_nat n) n [] s in
  match e with None => Ok (d, s') | Some _ => Err end.

(** io.LimitedReader.Read. *)
Definition limitedRead (k : Z) (s : R * Z) : res (list Z * option ioerr * (R * Z)) :=
  if snd s <=? 0 then Ok ([], Some EOF, s) else
  let! (d, e, s') := read (Z.min k (snd s)) (fst s) in
  Ok (d, e, (s', snd s - zlen d)).

(** bytes.Buffer.ReadFrom over the limited reader: the
    buffer, the count, the error.  [room f]: the free capacity of the buffer after
    grow(MinRead) in that step, any number of at least 512. *)
Variable room : nat -> Z.
Fixpoint readFrom (fuel : nat) (buf : list Z) (n : Z) (s : R * Z)
  : res (list Z * Z * option ioerr * R) :=
  match fuel with
  | O => Panic
  | S f =>
      let! (d, e, s') := limitedRead (room f) s in
      match e with
      | None => readFrom f (buf ++ d) (n + zlen d) s'
      | Some e => Ok (buf ++ d, n + zlen d, (if isEOF e then None else Some e), fst s')
      end
  end.
(** io.CopyN into a bytes.Buffer, with the error check that follows
    every call. *)
Definition CopyN (n : Z) (buf : list Z) (s : R) : res (list Z * R) :=
  let! (buf', written, e, s') := readFrom (Z.to_nat n + 1) buf 0 (s, n) in
  if written =? n then Ok (buf', s')
  else match e with
       | Some _ => Err
       | None => if written <? n then Err else Ok (buf', s')
       end.
End Readers.
Arguments readFullLoop {R}. Arguments ReadFull {R}. Arguments limitedRead {R}.
Arguments readFrom {R}. Arguments CopyN {R}.

(** ** orc/io/file.go *)

(** orcio.File (16-22) as far as reading goes. *)
Record handle (H : Type) := { h_Read : Z -> H -> res (list Z * option ioerr * H);
                              h_Seek : Z -> H -> res H; h_Size : H -> res Z }.
Arguments h_Read {H}. Arguments h_Seek {H}. Arguments h_Size {H}.

(** 24-83: osFile over os.File. *)
Definition osFile {H} (os : handle H) : handle H :=
  {| h_Read := fun k h => let! (d, e, h') := h_Read os k h in
                          Ok (d, match e with Some e => Some (WithStack e) | None => None end, h');
     h_Seek := h_Seek os; h_Size := h_Size os |}.

(** 85-93: MockFile. *)
Record mock := { m_buf : list Z; m_offset : Z; m_waterMark : Z }.
Definition NewMockFile (bb : list Z) : mock := {| m_buf := bb; m_offset := 0; m_waterMark := 0 |}.
(** 108-118; int(offset) may be negative: the next slice expression panics. *)
Definition mock_Seek (off : Z) (m : mock) : res mock :=
  if zlen (m_buf m) <=? off then Err
  else Ok {| m_buf := m_buf m; m_offset := off; m_waterMark := m_waterMark m |}.
(** 120-128. *)
Definition mock_Read (k : Z) (m : mock) : res (list Z * option ioerr * mock) :=
  if (m_offset m <? 0) || (m_waterMark m <? m_offset m) then Panic else
  let d := ztake k (ztake (m_waterMark m - m_offset m) (zdrop (m_offset m) (m_buf m))) in
  let off := m_offset m + zlen d in
  Ok (d, (if (off =? zlen (m_buf m) - 1) || (zlen d =? 0) then Some EOF else None),
      {| m_buf := m_buf m; m_offset := off; m_waterMark := m_waterMark m |}).
(** 130-140: the count, whether the error is nil, the new state. *)
Definition mock_Write (p : list Z) (m : mock) : Z * bool * mock :=
  let n := Z.min (zlen p) (zlen (m_buf m) - m_waterMark m) in
  (n, negb (n <? zlen p),
   {| m_buf := ztake (m_waterMark m) (m_buf m) ++ ztake n p ++ zdrop (m_waterMark m + n) (m_buf m);
      m_offset := m_offset m; m_waterMark := m_waterMark m + n |}).
(** 94-96; 104-106. *)
Definition mock_Clone (m : mock) : mock := m.
Definition mockFile : handle mock :=
  {| h_Read := mock_Read; h_Seek := mock_Seek; h_Size := fun m => Ok (m_waterMark m) |}.

(** ** Streams over a handle: stream/reader.go *)
Section Streams.
Variable H : Type.
Variable file : handle H.
Variable room : nat -> Z.
Variable inflate : list Z -> res (list Z).
Variable o : opts.
(** Bound of the loop of lines 78-82. *)
Variable bound : nat.

Record ioReader := { ir_start : Z; ir_length : Z; ir_h : H; ir_readLength : Z; ir_buf : list Z }.

(** 34-41, after the Clone and Seek of the columns' InitStream; [h] is the clone. *)
Definition io_newReader (h : H) (start length : Z) : res ioReader :=
  let! h' := h_Seek file (i64 start) h in
  Ok {| ir_start := start; ir_length := length; ir_h := h'; ir_readLength := 0; ir_buf := [] |}.

(** 110-158. *)
Definition io_readAChunk (r : ioReader) : res ioReader :=
  match CompressionKind o with
  | NONE =>
      let l := (if u64 (ir_length r - ir_readLength r) <? ChunkSize o
                then u64 (ir_length r - ir_readLength r) else ChunkSize o) in
      let! (buf, h) := CopyN (h_Read file) room (i64 l) (ir_buf r) (ir_h r) in
      Ok {| ir_start := ir_start r; ir_length := ir_length r; ir_h := h;
            ir_readLength := u64 (ir_readLength r + l); ir_buf := buf |}
  | k =>
      let! (head, h) := ReadFull (h_Read file) 3 (ir_h r) in
      let (chunkLength, original) := DecChunkHeader (nth 0 head 0) (nth 1 head 0) (nth 2 head 0) in
      if ChunkSize o <? chunkLength then Err else
      let! (buf, h) :=
        (if original then CopyN (h_Read file) room chunkLength (ir_buf r) h
         else let! (cmp, h) := CopyN (h_Read file) room chunkLength [] h in
              let! d := Decompress inflate k cmp in Ok (ir_buf r ++ d, h)) in
      Ok {| ir_start := ir_start r; ir_length := ir_length r; ir_h := h;
            ir_readLength := u64 (ir_readLength r + 3 + chunkLength); ir_buf := buf |}
  end.

(** 43-65. *)
Definition io_ReadByte (r : ioReader) : res (Z * ioReader) :=
  let pop r' :=
    match ir_buf r' with
    | [] => Err
    | b :: t => Ok (b, {| ir_start := ir_start r'; ir_length := ir_length r'; ir_h := ir_h r';
                          ir_readLength := ir_readLength r'; ir_buf := t |})
    end in
  match ir_buf r with
  | _ :: _ => pop r
  | [] => if ir_length r <=? ir_readLength r then Err
          else let! r' := io_readAChunk r in pop r'
  end.

(** 78-82. *)
Fixpoint io_fill (fuel : nat) (n : Z) (r : ioReader) : res ioReader :=
  if (zlen (ir_buf r) <? n) && (ir_readLength r <? ir_length r) then
    match fuel with
    | O => Panic
    | S f => let! r' := io_readAChunk r in io_fill f n r'
    end
  else Ok r.

(** 67-90, one call of Read.  Every error comes without bytes and makes the caller's
    ReadFull fail, so it is [Err] at once. *)
Definition io_Read (n : Z) (r : ioReader) : res (list Z * option ioerr * ioReader) :=
  let take r' :=
    if (zlen (ir_buf r') =? 0) && (0 <? n) then Err else
    Ok (ztake n (ir_buf r'), None,
        {| ir_start := ir_start r'; ir_length := ir_length r'; ir_h := ir_h r';
           ir_readLength := ir_readLength r'; ir_buf := zdrop n (ir_buf r') |}) in
  if n <=? zlen (ir_buf r) then take r
  else if ir_length r <=? ir_readLength r then Err
  else let! r' := io_fill bound n r in take r'.

(** The decoders read with ReadByte and io.ReadFull. *)
Definition io_run {A} (p : prog A) (r : ioReader) : res (A * ioReader) :=
  runS io_ReadByte (fun n => ReadFull io_Read (Z.of_nat n)) p r.

(** 94-107. *)
Definition io_seek (chunk chunkOffset : Z) (r : ioReader) : res ioReader :=
  let! h := h_Seek file (i64 (u64 (ir_start r + chunk))) (ir_h r) in
  let! r' := io_readAChunk
     {| ir_start := ir_start r; ir_length := ir_length r; ir_h := h;
        ir_readLength := chunk; ir_buf := [] |} in
  Ok {| ir_start := ir_start r'; ir_length := ir_length r'; ir_h := ir_h r';
        ir_readLength := ir_readLength r'; ir_buf := zdrop chunkOffset (ir_buf r') |}.

(** ** After an error *)
(** 110-158 again, with the state that a failed call leaves behind (the flag: no
    error).  What a failed decompression leaves in the buffer is not modelled: nothing. *)
Definition io_copy (n : Z) (buf : list Z) (h : H) : res (bool * list Z * H) :=
  let! (buf', written, e, h') := readFrom (h_Read file) room (Z.to_nat n + 1) buf 0 (h, n) in
  Ok ((written =? n) || (match e with Some _ => false | None => negb (written <? n) end), buf', h').
Definition io_tryChunk (r : ioReader) : res (bool * ioReader) :=
  match CompressionKind o with
  | NONE =>
      let l := (if u64 (ir_length r - ir_readLength r) <? ChunkSize o
                then u64 (ir_length r - ir_readLength r) else ChunkSize o) in
      let! (ok, buf, h) := io_copy (i64 l) (ir_buf r) (ir_h r) in
      Ok (ok, {| ir_start := ir_start r; ir_length := ir_length r; ir_h := h;
                 ir_readLength := (if ok : bool then u64 (ir_readLength r + l) else ir_readLength r);
                 ir_buf := buf |})
  | k =>
      let! (head, e, h) := readFullLoop (h_Read file) 3 3 [] (ir_h r) in
      let left h n buf := {| ir_start := ir_start r; ir_length := ir_length r; ir_h := h;
                             ir_readLength := n; ir_buf := buf |} in
      match e with
      | Some _ => Ok (false, left h (ir_readLength r) (ir_buf r))
      | None =>
          let (chunkLength, original) := DecChunkHeader (nth 0 head 0) (nth 1 head 0) (nth 2 head 0) in
          let n := u64 (ir_readLength r + 3) in
          if ChunkSize o <? chunkLength then Ok (false, left h n (ir_buf r)) else
          let! (ok, buf, h) :=
            (if original then io_copy chunkLength (ir_buf r) h
             else let! (ok, cmp, h) := io_copy chunkLength [] h in
                  if ok : bool then
                    match Decompress inflate k cmp with
                    | Ok d => Ok (true, ir_buf r ++ d, h) | Err => Ok (false, ir_buf r, h) | Panic => Panic
                    end
                  else Ok (false, ir_buf r, h)) in
          Ok (ok, left h (if ok : bool then u64 (n + chunkLength) else n) buf)
      end
  end.
(** 43-65: the byte, or None for an error. *)
Definition io_tryByte (r : ioReader) : res (option Z * ioReader) :=
  let pop r' :=
    match ir_buf r' with
    | [] => (None, r')
    | b :: t => (Some b, {| ir_start := ir_start r'; ir_length := ir_length r'; ir_h := ir_h r';
                            ir_readLength := ir_readLength r'; ir_buf := t |})
    end in
  match ir_buf r with
  | _ :: _ => Ok (pop r)
  | [] => if ir_length r <=? ir_readLength r then Ok (None, r)
          else let! (ok, r') := io_tryChunk r in Ok (if ok : bool then pop r' else (None, r'))
  end.

(** ** Opening over a handle *)
Definition readAt (from n : Z) (h : H) : res (list Z * H) :=
  let! h' := h_Seek file from h in ReadFull (h_Read file) n h'.

Section Open.
Variable ST : Type.
Variable unmarshalPS : list Z -> res postscript.
Variable unmarshalFooter : list Z -> res (footer ST).
Variable unmarshalSF : list Z -> res stripeFooter.

(** reader.go 254-343. *)
Definition io_extractFileTail (h : H) : res (option (postscript * footer ST)) :=
  let! size := h_Size file h in
  if size =? 0 then Ok None
  else if size <=? 3 then Err
  else
    let readSize := Z.min size 16384 in
    let! (buf, h) := readAt (size - readSize) readSize h in
    let psLen := nth (Z.to_nat (readSize - 1)) buf 0 in
    let psOffset := readSize - 1 - psLen in
    if psOffset <? 0 then Panic else
    let! ps := unmarshalPS (ztake psLen (zdrop psOffset buf)) in
    let footerSize := i64 (p_footerLength ps) in
    let metaSize := i64 (p_metadataLength ps) in
    let extra := Z.max 0 (i64 (psLen + 1 + footerSize + metaSize - readSize)) in
    let! buf := (if 0 <? extra then
                   let! (ebuf, _) := readAt (i64 (size - readSize - extra)) extra h in
                   Ok (buf ++ ebuf)
                 else Ok buf) in
    let footerStart := i64 (psOffset - footerSize) in
    if (footerStart <? 0) || (psOffset <? footerStart) then Panic else
    let footerBuf := ztake footerSize (zdrop footerStart buf) in
    let! footerBuf := (match p_compression ps with
                       | NONE => Ok footerBuf
                       | k => DecompressChunks inflate k footerBuf
                       end) in
    let! f := unmarshalFooter footerBuf in
    Ok (Some (ps, f)).

(** stripe.go 221-246. *)
Definition io_readFooter (k : kind) (i : stripeInfo) (h : H) : res (stripeFooter * H) :=
  let! (fb, h') := readAt (i64 (Offset i + IndexLength i + DataLength i)) (FooterLength i) h in
  let! fb := (match k with NONE => Ok fb | k => DecompressChunks inflate k fb end) in
  let! sf := unmarshalSF fb in Ok (sf, h').
End Open.

(** column/reader.go 33-52: the bytes of the row index. *)
Definition io_indexBytes (start length : Z) (h : H) : res (list Z * H) :=
  let! (buf, h') := readAt (i64 start) length h in
  let! buf := (match CompressionKind o with NONE => Ok buf | k => DecompressChunks inflate k buf end) in
  Ok (buf, h').
End Streams.
Arguments ir_start {H}. Arguments ir_length {H}. Arguments ir_h {H}. Arguments ir_readLength {H}.
Arguments ir_buf {H}.
Arguments io_newReader {H}. Arguments io_readAChunk {H}. Arguments io_ReadByte {H}. Arguments io_fill {H}.
Arguments io_Read {H}. Arguments io_run {H} file room inflate o bound {A}. Arguments io_seek {H}. Arguments io_copy {H}. Arguments io_tryChunk {H}. Arguments io_tryByte {H}. Arguments readAt {H}.
Arguments io_extractFileTail {H} file inflate {ST}. Arguments io_readFooter {H}. Arguments io_indexBytes {H}.

(** ** Writing: stripe.go 84-153, writer.go 41-65, 85-94, 114-200 over a file whose
    writes can fail.  The bytes go to the file; [sw_out] of Model/File.v stays as it
    is. *)
Section Out.
Variable W : Type.
(** Write(p): the count, whether the error is nil, the new state. *)
Variable osWrite : list Z -> W -> Z * bool * W.
(** Close(): whether the error is nil. *)
Variable osClose : W -> bool * W.

(** Write followed by the error check. *)
Definition put (p : list Z) (f : W) : res (Z * W) :=
  let '(n, ok, f') := osWrite p f in if ok then Ok (n, f') else Err.
(** bytes.Buffer.WriteTo followed by the error check. *)
Definition WriteTo (b : list Z) (f : W) : res (Z * W) :=
  if zlen b =? 0 then Ok (0, f) else
  let '(n, ok, f') := osWrite b f in
  if zlen b <? n then Panic else
  if ok && (n =? zlen b) then Ok (n, f') else Err.

Variable deflate : list (list Z) -> list Z -> res (list Z).
Variables C V ST : Type.
Variable cw_Write : C -> V -> res C.
Variable cw_Size : C -> Z.
Variable cw_Flush : C -> res C.
Variable cw_Index : C -> res (list Z).
(** The column's WriteOut (e.g. column/int.go 140-157) as in Model/File.v, and the
    contents of its streams, each of which it writes with WriteTo. *)
Variable cw_WriteOut : C -> res (list Z * Z * C).
Variable cw_Streams : C -> list (list Z).
Variable cw_Infos : C -> list strm.
Variable cw_Stats : C -> ST.
Variable cw_Reset : C -> res C.
Variable newColumn : td -> res C.
Variable marshalSF : stripeFooter -> res (list Z).
Variable marshalFooter : footer ST -> res (list Z).
Variable marshalPS : postscript -> res (list Z).
Variable o : opts.
Variable StripeSize : Z.

Fixpoint writeStreams (l : list (list Z)) (f : W) : res W :=
  match l with
  | [] => Ok f
  | b :: r => let! (_, f1) := WriteTo b f in writeStreams r f1
  end.

(** stripe.go 91-106: [n] is IndexLength. *)
Fixpoint io_writeIndexes (cs : list C) (n : Z) (f : W) : res (Z * W) :=
  match cs with
  | [] => Ok (n, f)
  | c :: r =>
      let! d := cw_Index c in
      let! (nd, f1) := put d f in
      io_writeIndexes r (u64 (n + u64 nd)) f1
  end.

(** stripe.go 108-114: [n] is DataLength. *)
Fixpoint io_writeOutAll (cs : list C) (n : Z) (f : W) : res (Z * list C * W) :=
  match cs with
  | [] => Ok (n, [], f)
  | c :: r =>
      let! (_, ns, c') := cw_WriteOut c in
      let! f1 := writeStreams (cw_Streams c) f in
      let! (n', r', f2) := io_writeOutAll r (u64 (n + u64 ns)) f1 in
      Ok (n', c' :: r', f2)
  end.

(** stripe.go 84-153. *)
Definition io_flushOut (w : stripeW C) (f : W) : res (stripeW C * W) :=
  let! cs := mapM cw_Flush (sw_cols w) in
  let i := sw_info w in
  let! (il, f) := (if WriteIndex o then io_writeIndexes cs (IndexLength i) f
                   else Ok (IndexLength i, f)) in
  let! (dl, cs', f) := io_writeOutAll cs (DataLength i) f in
  let! fb := marshalSF {| sf_streams := flat_map cw_Infos cs'; sf_columns := map td_enc (sw_schemas w) |} in
  let! (cb, _) := CompressingAllInChunks deflate (CompressionKind o) (ChunkSize o) fb in
  let! (n, f) := WriteTo cb f in
  Ok ({| sw_schemas := sw_schemas w; sw_cols := cs';
         sw_info := {| Offset := Offset i; IndexLength := il; DataLength := dl; FooterLength := u64 n;
                       NumberOfRows := NumberOfRows i |};
         sw_infos := sw_infos w; sw_out := sw_out w |}, f).

(** stripe.go 37-59. *)
Fixpoint io_writeLoop (n i : nat) (count : Z) (v : cvec V) (w : stripeW C) (f : W) : res (stripeW C * W) :=
  match n with
  | O => Ok (addRows count w, f)
  | S m =>
      let! cs := writeValue cw_Write i v (sw_cols w) in
      let w := setCols cs w in
      let count := u64 (count + 1) in
      if StripeSize <=? sw_size cw_Size cs then
        let! (w1, f1) := io_flushOut (addRows count w) f in
        let! w2 := forward cw_Reset w1 in
        io_writeLoop m (S i) 0 v w2 f1
      else io_writeLoop m (S i) count v w f
  end.
Definition io_Write (v : cvec V) (w : stripeW C) (f : W) : res (stripeW C * W) :=
  io_writeLoop (vlen v) 0 0 v w f.

(** writer.go 41-65, 129-135. *)
Definition io_newFileWriter (schema : td) (f : W) : res (stripeW C * W) :=
  let! schemas := Flat schema in
  let! (_, f) := put Magic f in
  let! cs := mapM newColumn schemas in
  Ok ({| sw_schemas := schemas; sw_cols := cs; sw_info := newInfo 3; sw_infos := []; sw_out := [] |}, f).

(** writer.go 140-200. *)
Definition io_writeFileTail (w : stripeW C) (f : W) : res W :=
  let! footBytes := marshalFooter (fileFooter cw_Stats w) in
  let! (fl, f) := (match CompressionKind o with
                   | NONE => let! (_, f) := put footBytes f in Ok (zlen footBytes, f)
                   | k => let! (c, _) := CompressingAllInChunks deflate k (ChunkSize o) footBytes in
                          let! (_, f) := WriteTo c f in Ok (zlen c, f)
                   end) in
  let! psb := marshalPS {| p_footerLength := u64 fl; p_compression := CompressionKind o;
                           p_blockSize := u64 (ChunkSize o); p_metadataLength := 0 |} in
  let! (n, f) := put psb f in
  let! (_, f) := put [u8 n] f in
  Ok f.

(** writer.go 114-127: an error of closing the file is only logged. *)
Definition io_Close (w : stripeW C) (f : W) : res W :=
  let! (w', f) := io_flushOut w f in
  let! f := io_writeFileTail {| sw_schemas := sw_schemas w'; sw_cols := sw_cols w'; sw_info := sw_info w';
                                sw_infos := sw_infos w' ++ [sw_info w']; sw_out := sw_out w' |} f in
  let (_, f') := osClose f in Ok f'.

(** A client: create, write the batches, close; the first error ends it. *)
Fixpoint io_writeAll (vs : list (cvec V)) (w : stripeW C) (f : W) : res (stripeW C * W) :=
  match vs with
  | [] => Ok (w, f)
  | v :: r => let! (w1, f1) := io_Write v w f in io_writeAll r w1 f1
  end.
Definition io_writeFile (schema : td) (vs : list (cvec V)) (f : W) : res W :=
  let! (w, f) := io_newFileWriter schema f in
  let! (w, f) := io_writeAll vs w f in
  io_Close w f.
End Out.

(** The streams of a column in the order of WriteOut: column/int.go 140-157 and the
    like with stream/writer.go 108-122. *)
Definition c_Streams (o : opts) (c : colW) : list (list Z) :=
  (match cw_present c with Some p => [fst (w_WriteOut o p)] | None => [] end)
    ++ map (fun q => fst (w_WriteOut o (snd q))) (cw_data c).
