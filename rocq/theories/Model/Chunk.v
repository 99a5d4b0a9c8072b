(** Chunked compression: orc/common/misc.go 21-290.

    The DEFLATE implementation (github.com/klauspost/compress/flate) is not part of
    the repository.  It enters as two parameters:
    - [deflate hist x]: the bytes a flate.Writer emits for Write(x); Close() after it
      has already been used for the inputs [hist] (zlibCompressingToChunks reuses one
      writer after Close without Reset, misc.go 52-70);
    - [inflate c]: the bytes a flate.Reader delivers from a buffer holding exactly [c].
    Nothing is assumed about them here; the theorems state what they need. *)
From Verif.Model Require Import Go.

(** pb.CompressionKind. *)
Inductive kind := NONE | ZLIB | SNAPPY | LZO | LZ4 | ZSTD.

(** misc.go 212-222. *)
Definition encChunkHeader (l : Z) (orig : bool) : list Z :=
  [ (if orig then Z.lor 1 (u8 (Z.shiftl l 1)) else u8 (Z.shiftl l 1));
    u8 (Z.shiftr l 7);
    u8 (Z.shiftr l 15) ].

(** misc.go 224-227. *)
Definition DecChunkHeader (h0 h1 h2 : Z) : Z * bool :=
  (Z.lor (Z.lor (Z.shiftl h2 15) (Z.shiftl h1 7)) (Z.shiftr h0 1), Z.land h0 1 =? 1).

(** io.CopyN(dst, src, n) from a source with unread bytes [src]: copied bytes and the
    bytes still unread; fewer than [n] available is an error.  A negative [n] copies
    nothing. *)
Definition copyN (n : Z) (src : list Z) : res (list Z * list Z) :=
  if zlen src <? n then Err else Ok (ztake n src, zdrop n src).

Section Codec.
Variable deflate : list (list Z) -> list Z -> res (list Z).
Variable inflate : list Z -> res (list Z).

(** misc.go 48-94: the bytes appended to dst and the bytes left in src.  [fuel] bounds
    the loop of lines 59-92; each iteration consumes chunkSize bytes, so for
    chunkSize >= 1 [length src] iterations suffice; a chunk size of 0 loops forever in
    Go and is reported as [Panic] here. *)
Fixpoint zlibCompressingToChunks (fuel : nat) (chunkSize : Z) (hist : list (list Z)) (src : list Z)
  : res (list Z * list Z) :=
  if zlen src <=? chunkSize then Ok ([], src) else
  match fuel with
  | O => Panic
  | S f =>
      let buf := ztake chunkSize src in
      let! cBuf := deflate hist buf in
      let o := (if chunkSize <? zlen cBuf then encChunkHeader chunkSize true ++ buf
                else encChunkHeader (zlen cBuf) false ++ cBuf) in
      let! (o', src') := zlibCompressingToChunks f chunkSize (hist ++ [buf]) (zdrop chunkSize src) in
      Ok (o ++ o', src')
  end.

(** misc.go 96-143: everything in src, which must fit one chunk; src is left empty. *)
Definition zlibCompressingLeft (chunkSize : Z) (src : list Z) : res (list Z * list Z) :=
  if chunkSize <? zlen src then Err else
  let! tmpCBuf := deflate [] src in
  Ok (if zlen src <? zlen tmpCBuf then encChunkHeader (zlen src) true ++ src
      else encChunkHeader (zlen tmpCBuf) false ++ tmpCBuf, []).

(** misc.go 29-46. *)
Definition CompressingChunks (k : kind) (chunkSize : Z) (src : list Z) : res (list Z * list Z) :=
  match k with
  | NONE => Ok (src, [])
  | ZLIB => zlibCompressingToChunks (length src) chunkSize [] src
  | _ => Err
  end.

(** misc.go 145-158. *)
Definition CompressingLeft (k : kind) (chunkSize : Z) (src : list Z) : res (list Z * list Z) :=
  match k with
  | ZLIB => zlibCompressingLeft chunkSize src
  | _ => Err
  end.

(** misc.go 21-26. *)
Definition CompressingAllInChunks (k : kind) (chunkSize : Z) (src : list Z)
  : res (list Z * list Z) :=
  let! (o1, src1) := CompressingChunks k chunkSize src in
  let! (o2, src2) := CompressingLeft k chunkSize src1 in
  Ok (o1 ++ o2, src2).

(** misc.go 266-290: decompress a buffer holding one chunk's payload. *)
Definition Decompress (k : kind) (src : list Z) : res (list Z) :=
  match k with
  | ZLIB => inflate src
  | _ => Err
  end.

(** misc.go 232-259.  A header of fewer than 3 bytes is accepted and padded with the
    zero bytes of make([]byte, 3) (src.Read at line 235 is not a ReadFull).  [fuel]:
    each iteration consumes at least one byte. *)
Fixpoint decompress_loop (fuel : nat) (src : list Z) : res (list Z) :=
  match src with
  | [] => Ok []
  | _ =>
      match fuel with
      | O => Panic
      | S f =>
          let (chunkLength, original) :=
            DecChunkHeader (nth 0 src 0) (nth 1 src 0) (nth 2 src 0) in
          let! (p, src') := copyN chunkLength (skipn 3 src) in
          let! d := (if original then Ok p else inflate p) in
          let! t := decompress_loop f src' in
          Ok (d ++ t)
      end
  end.

(** misc.go 230-264. *)
Definition DecompressChunks (k : kind) (src : list Z) : res (list Z) :=
  match k with
  | ZLIB => decompress_loop (length src) src
  | _ => Err
  end.
End Codec.
