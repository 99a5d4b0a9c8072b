(** The buffers made while a file is opened: the [make([]byte, n)] of which the length [n]
    is taken from the file.  Every function here is one of File.v, Chunk.v or Assembled.v
    that also lists the lengths asked for, in order; lengths that do not depend on the file
    (headers of three bytes, runs of 512 numbers) and the growth of buffers that are
    appended to (bytes.Buffer, the output of flate) are left out.  A crash of [make] itself
    is [within] below. *)
From Verif.Model Require Import Go Codec IntRle Chunk Stream Schema Rows File Column Wire Tree Assembled.

(** What was asked for, and the result. *)
Definition asked (A : Type) : Type := (list Z * res A)%type.
Definition unasked {A} (x : res A) : asked A := ([], x).
Definition ask (n : Z) : asked unit := ([n], Ok tt).
Definition abind {A B} (m : asked A) (f : A -> asked B) : asked B :=
  match snd m with
  | Ok a => let q := f a in (fst m ++ fst q, snd q)
  | Err => (fst m, Err)
  | Panic => (fst m, Panic)
  end.
Notation "'let?' x := m 'in' k" := (abind m (fun x => k)) (at level 200, x binder, m at level 100, k at level 200, right associativity).

(** runtime.makeslice: more than there is (in Go at most 2^48 bytes) is a crash, and
    nothing after it happens. *)
Definition within {A} (M : Z) (m : asked A) : res A := if forallb (fun n => n <=? M) (fst m) then snd m else Panic.

Section Opening.
Variable inflate : list Z -> res (list Z).

(** misc.go 232-259; the buffer is line 246, made before the bytes are there. *)
Fixpoint decompress_loopA (fuel : nat) (src : list Z) : asked (list Z) :=
  match src with
  | [] => unasked (Ok [])
  | _ =>
      match fuel with
      | O => unasked Panic
      | S f =>
          let (chunkLength, original) := DecChunkHeader (nth 0 src 0) (nth 1 src 0) (nth 2 src 0) in
          let? _ := (if original then unasked (Ok tt) else ask chunkLength) in
          let? x := unasked (copyN chunkLength (skipn 3 src)) in
          let? d := unasked (if original then Ok (fst x) else inflate (fst x)) in
          let? t := decompress_loopA f (snd x) in
          unasked (Ok (d ++ t))
      end
  end.
(** misc.go 230-264. *)
Definition DecompressChunksA (k : kind) (src : list Z) : asked (list Z) :=
  match k with
  | ZLIB => decompress_loopA (length src) src
  | _ => unasked Err
  end.

(** reader.go 254-343; the buffers are lines 274, 296 and 311. *)
Definition extractFileTailA (file : list Z) : asked (option (postscript * footer colstats)) :=
  let size := zlen file in
  if size =? 0 then unasked (Ok None)
  else if size <=? 3 then unasked Err
  else
    let readSize := Z.min size 16384 in
    let? _ := ask readSize in
    let buf := zdrop (size - readSize) file in
    let psLen := nth (Z.to_nat (readSize - 1)) buf 0 in
    let psOffset := readSize - 1 - psLen in
    if psOffset <? 0 then unasked Panic else
    let? ps := unasked (unmarshalPS (ztake psLen (zdrop psOffset buf))) in
    let footerSize := i64 (p_footerLength ps) in
    let metaSize := i64 (p_metadataLength ps) in
    let extra := Z.max 0 (i64 (psLen + 1 + footerSize + metaSize - readSize)) in
    let? buf := (if 0 <? extra then
                   let? _ := ask extra in
                   let from := i64 (size - readSize - extra) in
                   if from <? 0 then unasked Err
                   else unasked (Ok (buf ++ ztake extra (zdrop from file)))
                 else unasked (Ok buf)) in
    let footerStart := i64 (psOffset - footerSize) in
    if (footerStart <? 0) || (psOffset <? footerStart) then unasked Panic else
    let footerBuf := ztake footerSize (zdrop footerStart buf) in
    let? footerBuf := (match p_compression ps with
                       | NONE => unasked (Ok footerBuf)
                       | k => let? _ := ask (p_blockSize ps) in DecompressChunksA k footerBuf
                       end) in
    let? f := unasked (unmarshalFooter footerBuf) in
    unasked (Ok (Some (ps, f))).

(** reader.go 43-76. *)
Definition newFileReaderA (file : list Z) : asked (fileR colstats) :=
  let? t := extractFileTailA file in
  unasked (match t with
  | None => Panic
  | Some (ps, f) =>
      if f_rows f =? 0 then Err else
      let! ns := unmarshallSchema (f_types f) in
      if (length ns <? length (f_stats f))%nat then Panic else
      Ok {| fr_kind := p_compression ps;
            fr_chunkSize := (match p_compression ps with NONE => 262144 | _ => p_blockSize ps end);
            fr_stride := f_stride f; fr_nodes := ns;
            fr_hasNulls := map (fun i => match nth_error (f_stats f) i with
                                         | Some s => cs_hasNull s | None => false end) (seq 0 (length ns));
            fr_rows := f_rows f; fr_stats := f_stats f; fr_stripes := f_stripes f |}
  end).

(** stripe.go 221-243; the buffer is line 226. *)
Definition openStripeA (k : kind) (file : list Z) (i : stripeInfo) : asked (list Z * list (strm * Z)) :=
  let from := i64 (Offset i + IndexLength i + DataLength i) in
  if from <? 0 then unasked Err else
  let? _ := ask (FooterLength i) in
  if zlen (zdrop from file) <? FooterLength i then unasked Err else
  let fb := ztake (FooterLength i) (zdrop from file) in
  let? fb := (match k with NONE => unasked (Ok fb) | k => DecompressChunksA k fb end) in
  let? sf := unasked (unmarshalSF fb) in
  unasked (Ok (sf_columns sf, streamStarts (Offset i) (u64 (Offset i + IndexLength i)) (sf_streams sf))).

Section Readers.
Variable o : opts.
Variable nodes : list node.
Variable hasNulls : list bool.
Variable bopt : batchOption.

(** column/reader.go 33-60; the buffer is line 39. *)
Definition readIndexA (file : list Z) (start length : Z) : asked (list (list Z)) :=
  if i64 start <? 0 then unasked Err else
  let? _ := ask length in
  if zlen (zdrop (i64 start) file) <? length then unasked Err else
  let? buf := (match CompressionKind o with
               | NONE => unasked (Ok (ztake length (zdrop (i64 start) file)))
               | k => DecompressChunksA k (ztake length (zdrop (i64 start) file)) end) in
  unasked (unmarshalIndex buf).
Definition any_InitIndexA (file : list Z) (r : anyR) (start length : Z) : asked anyR :=
  let? l := readIndexA file start length in
  unasked (Ok (match r with
             | RCol c => RCol (setIndex l c)
             | RDict d => RDict (dict_setIndex l d)
             | RList x _ => RList x (Some l)
             | RMap h x _ => RMap h x (Some l)
             end)).
(** stream/reader.go 34-41: a reader of a compressed stream has a buffer as long as a
    chunk.  byte.go 146-167 makes no reader for a stream of a kind it does not know. *)
Definition makesReader (r : anyR) (s : strm) : bool :=
  match r with
  | RCol c => match cr_kind c with KByte => (st_kind s =? sPRESENT) || (st_kind s =? sDATA) | _ => true end
  | _ => true
  end.
Definition any_InitStreamA (file : list Z) (r : anyR) (s : strm) (start : Z) : asked anyR :=
  let? r' := unasked (any_InitStream file r s start) in
  let? _ := (if negb (isNone (CompressionKind o)) && makesReader r s then ask (ChunkSize o) else unasked (Ok tt)) in
  unasked (Ok r').

(** stripe.go 263-287. *)
Fixpoint initAllA (file : list Z) (rs : list (option anyR)) (l : list (strm * Z)) : asked (list (option anyR)) :=
  match l with
  | [] => unasked (Ok rs)
  | (s, start) :: t =>
      let id := Z.to_nat (st_column s) in
      match nth_error rs id with
      | None => unasked Panic
      | Some None => initAllA file rs t
      | Some (Some r) =>
          let? r' := (if st_kind s =? 6 then any_InitIndexA file r start (st_length s)
                      else any_InitStreamA file r s start) in
          initAllA file (set_nth rs id (Some r')) t
      end
  end.
(** stripe.go 203-219. *)
Definition newStripeRdA (file : list Z) (rows : Z) (x : list Z * list (strm * Z)) : asked stripeRd :=
  let? rs := unasked (newReaders bopt 0 nodes hasNulls (fst x)) in
  let? rs' := initAllA file rs (snd x) in
  unasked (let! _ := checkParents bopt 0 nodes in
         let! t := (match firstReader 0 rs' with
                    | None => Ok None
                    | Some i => let! t := buildTree nodes bopt (length nodes) rs' i in Ok (Some t)
                    end) in
         Ok {| sr_rows := rows; sr_cursor := 0; sr_tree := t |}).
(** reader.go 128-140. *)
Fixpoint openStripesA (file : list Z) (l : list stripeInfo) : asked (list stripeRd) :=
  match l with
  | [] => unasked (Ok [])
  | i :: l' =>
      if NumberOfRows i =? 0 then unasked Err else
      let? x := openStripeA (CompressionKind o) file i in
      let? s := newStripeRdA file (NumberOfRows i) x in
      let? r := openStripesA file l' in unasked (Ok (s :: r))
  end.
End Readers.

(** reader.go 43-90. *)
Definition openBatchesA (bopt : batchOption) (file : list Z) : asked (fileR colstats * batchRd) :=
  let? r := newFileReaderA file in
  if RowSize bopt =? 0 then unasked Err else
  let? ss := openStripesA (readerOpts r) (fr_nodes r) (fr_hasNulls r) bopt file (fr_stripes r) in
  unasked (Ok (r, {| br_stripes := ss; br_index := 0; br_total := fr_rows r; br_cursor := 0 |})).
End Opening.

(** ** Values *)
(** encoding/string.go 36-42 called by string.go 249-258 and binary.go 217-225: the bytes of
    one value, after its length has been read; the buffer is line 38 of encoding/string.go. *)
Section Values.
Variable inflate : list Z -> res (list Z).
Variable o : opts.
Definition nextTextA (c : colR) : asked (list Z * colR) :=
  let? x := unasked (nextSecond inflate o DecodeUInt (cr_second c)) in
  let? _ := ask (i64 (fst x)) in
  let? y := unasked (nextRaw inflate o (DecodeBytes (i64 (fst x))) (cr_data c)) in
  unasked (Ok (fst y, setData (snd y) (setSecond (snd x) c))).
End Values.
