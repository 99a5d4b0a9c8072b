(** Stripes and files: orc/stripe.go (stripeWriter, and the stream layout part of
    stripeReader), orc/writer.go, and the opening of a file in orc/reader.go.

    - A column writer (column/package.go 41-66) is a state of type [C] with the methods
      as parameters; Model/Column.v gives the concrete ones.
    - The protobuf messages are records; proto.Marshal and proto.Unmarshal are
      parameters on whole messages.
    - The file is an ideal byte sequence: Write appends all bytes and never fails,
      a read inside the file succeeds; memory allocation never fails.
    - Log output and the Close of the file are omitted. *)
From Verif.Model Require Import Go Chunk Stream Schema Rows.

(** pb.StripeInformation, pb.Stream (kind as its number; ROW_INDEX is 6),
    pb.StripeFooter (encodings as numbers), pb.PostScript, pb.Footer. *)
Record stripeInfo := { Offset : Z; IndexLength : Z; DataLength : Z; FooterLength : Z; NumberOfRows : Z }.
Record strm := { st_column : Z; st_kind : Z; st_length : Z }.
Record stripeFooter := { sf_streams : list strm; sf_columns : list Z }.
Record postscript := { p_footerLength : Z; p_compression : kind; p_blockSize : Z; p_metadataLength : Z }.
Record footer (ST : Type) := { f_headerLength : Z; f_contentLength : Z; f_stripes : list stripeInfo;
  f_types : list pbType; f_rows : Z; f_stats : list ST; f_stride : Z }.
Arguments f_headerLength {ST}. Arguments f_contentLength {ST}. Arguments f_stripes {ST}.
Arguments f_types {ST}. Arguments f_rows {ST}. Arguments f_stats {ST}. Arguments f_stride {ST}.

(** api.ColumnVector of a batch: id, values (nil: [None]), children. *)
Inductive cvec (V : Type) := CVec (id : nat) (vals : option (list V)) (children : list (cvec V)).
Arguments CVec {V}.

(** api/vector.go 58-69. *)
Fixpoint vlen {V} (v : cvec V) : nat :=
  match v with
  | CVec _ (Some (x :: l)) _ => S (length l)
  | CVec _ _ (c :: _) => vlen c
  | CVec _ _ [] => O
  end.

(** for _, x := range l { if y, err = f(x); err != nil { return err } } *)
Fixpoint mapM {A B} (f : A -> res B) (l : list A) : res (list B) :=
  match l with
  | [] => Ok []
  | x :: r => let! y := f x in let! ys := mapM f r in Ok (y :: ys)
  end.

Section Writer.
Variable deflate : list (list Z) -> list Z -> res (list Z).
Variables C V ST : Type.
Variable cw_Write : C -> V -> res C.
Variable cw_Size : C -> Z.
Variable cw_Flush : C -> res C.
(** proto.Marshal(GetIndex()) *)
Variable cw_Index : C -> res (list Z).
(** bytes written, returned count, new state *)
Variable cw_WriteOut : C -> res (list Z * Z * C).
Variable cw_Infos : C -> list strm.
Variable cw_Stats : C -> ST.
Variable cw_Reset : C -> res C.
(** column.NewWriter(schema, opts) *)
Variable newColumn : td -> res C.
Variable marshalSF : stripeFooter -> res (list Z).
Variable marshalFooter : footer ST -> res (list Z).
Variable marshalPS : postscript -> res (list Z).
Variable o : opts.
Variable StripeSize : Z.

(** stripe.go 19-35 together with the bytes of the file so far. *)
Record stripeW := { sw_schemas : list td; sw_cols : list C; sw_info : stripeInfo;
                    sw_infos : list stripeInfo; sw_out : list Z }.

(** stripe.go 61-74: an id without a column writer or a missing row panics. *)
Fixpoint writeValue (i : nat) (v : cvec V) (cs : list C) : res (list C) :=
  match v with
  | CVec id vals children =>
      let! cs1 := match vals with
                  | None => Ok cs
                  | Some l =>
                      match nth_error l i, nth_error cs id with
                      | Some x, Some c => let! c' := cw_Write c x in Ok (set_nth cs id c')
                      | _, _ => Panic
                      end
                  end in
      (fix go (l : list (cvec V)) (cs : list C) : res (list C) :=
         match l with
         | [] => Ok cs
         | c :: r => let! cs' := writeValue i c cs in go r cs'
         end) children cs1
  end.

(** stripe.go 76-82. *)
Definition sw_size (cs : list C) : Z := fold_right (fun c n => cw_Size c + n) 0 cs.

(** stripe.go 108-114. *)
Fixpoint writeOutAll (cs : list C) : res (list Z * Z * list C) :=
  match cs with
  | [] => Ok ([], 0, [])
  | c :: r =>
      let! (b, n, c') := cw_WriteOut c in
      let! (bs, ns, r') := writeOutAll r in
      Ok (b ++ bs, u64 (u64 n + ns), c' :: r')
  end.

(** stripe.go 84-153. *)
Definition flushOut (w : stripeW) : res stripeW :=
  let! cs := mapM cw_Flush (sw_cols w) in
  let! ib := (if WriteIndex o then let! l := mapM cw_Index cs in Ok (concat l) else Ok []) in
  let! (db, n, cs') := writeOutAll cs in
  let! fb := marshalSF {| sf_streams := flat_map cw_Infos cs'; sf_columns := map td_enc (sw_schemas w) |} in
  let! (cb, _) := CompressingAllInChunks deflate (CompressionKind o) (ChunkSize o) fb in
  let i := sw_info w in
  Ok {| sw_schemas := sw_schemas w; sw_cols := cs';
        sw_info := {| Offset := Offset i; IndexLength := u64 (IndexLength i + zlen ib);
                      DataLength := u64 (DataLength i + n); FooterLength := u64 (zlen cb);
                      NumberOfRows := NumberOfRows i |};
        sw_infos := sw_infos w; sw_out := sw_out w ++ ib ++ db ++ cb |}.

Definition newInfo (off : Z) : stripeInfo :=
  {| Offset := off; IndexLength := 0; DataLength := 0; FooterLength := 0; NumberOfRows := 0 |}.

(** stripe.go 155-163. *)
Definition forward (w : stripeW) : res stripeW :=
  let i := sw_info w in
  let! cs := mapM cw_Reset (sw_cols w) in
  Ok {| sw_schemas := sw_schemas w; sw_cols := cs;
        sw_info := newInfo (u64 (Offset i + IndexLength i + DataLength i + FooterLength i));
        sw_infos := sw_infos w ++ [i]; sw_out := sw_out w |}.

Definition addRows (n : Z) (w : stripeW) : stripeW :=
  let i := sw_info w in
  {| sw_schemas := sw_schemas w; sw_cols := sw_cols w;
     sw_info := {| Offset := Offset i; IndexLength := IndexLength i; DataLength := DataLength i;
                   FooterLength := FooterLength i; NumberOfRows := u64 (NumberOfRows i + n) |};
     sw_infos := sw_infos w; sw_out := sw_out w |}.
Definition setCols (cs : list C) (w : stripeW) : stripeW :=
  {| sw_schemas := sw_schemas w; sw_cols := cs; sw_info := sw_info w; sw_infos := sw_infos w;
     sw_out := sw_out w |}.

(** stripe.go 37-59: [n] rows are left, [i] is the index of the next one. *)
Fixpoint writeLoop (n i : nat) (count : Z) (v : cvec V) (w : stripeW) : res stripeW :=
  match n with
  | O => Ok (addRows count w)
  | S m =>
      let! cs := writeValue i v (sw_cols w) in
      let w := setCols cs w in
      let count := u64 (count + 1) in
      if StripeSize <=? sw_size cs then
        let! w1 := flushOut (addRows count w) in
        let! w2 := forward w1 in
        writeLoop m (S i) 0 v w2
      else writeLoop m (S i) count v w
  end.
(** writer.go 85-94. *)
Definition Write (w : stripeW) (v : cvec V) : res stripeW := writeLoop (vlen v) 0 0 v w.

(** "ORC" *)
Definition Magic : list Z := [79; 82; 67].

(** writer.go 41-65 with stripe.go 165-192. *)
Definition newFileWriter (schema : td) : res stripeW :=
  let! schemas := Flat schema in
  let! cs := mapM newColumn schemas in
  Ok {| sw_schemas := schemas; sw_cols := cs; sw_info := newInfo 3; sw_infos := []; sw_out := Magic |}.

(** writer.go 140-200: the whole file. *)
Definition sumU (f : stripeInfo -> Z) (l : list stripeInfo) : Z :=
  fold_left (fun n i => u64 (n + f i)) l 0.
Definition fileFooter (w : stripeW) : footer ST :=
  {| f_headerLength := 3;
     f_contentLength := sumU (fun i => u64 (u64 (IndexLength i + DataLength i) + FooterLength i)) (sw_infos w);
     f_stripes := sw_infos w; f_types := SchemasToTypes (sw_schemas w);
     f_rows := sumU NumberOfRows (sw_infos w); f_stats := map cw_Stats (sw_cols w); f_stride := 0 |}.
Definition writeFileTail (w : stripeW) : res (list Z) :=
  let! footBytes := marshalFooter (fileFooter w) in
  let! fb := (match CompressionKind o with
              | NONE => Ok footBytes
              | k => let! (c, _) := CompressingAllInChunks deflate k (ChunkSize o) footBytes in Ok c
              end) in
  let! psb := marshalPS {| p_footerLength := u64 (zlen fb); p_compression := CompressionKind o;
                           p_blockSize := u64 (ChunkSize o); p_metadataLength := 0 |} in
  Ok (sw_out w ++ fb ++ psb ++ [u8 (zlen psb)]).

(** writer.go 114-127. *)
Definition Close (w : stripeW) : res (list Z) :=
  let! w' := flushOut w in
  writeFileTail {| sw_schemas := sw_schemas w'; sw_cols := sw_cols w'; sw_info := sw_info w';
                   sw_infos := sw_infos w' ++ [sw_info w']; sw_out := sw_out w' |}.
End Writer.
Arguments sw_schemas {C}. Arguments sw_cols {C}. Arguments sw_info {C}. Arguments sw_infos {C}.
Arguments sw_out {C}.
Arguments writeValue {C V}. Arguments sw_size {C}. Arguments writeOutAll {C}. Arguments flushOut deflate {C}.
Arguments forward {C}. Arguments addRows {C}. Arguments setCols {C}. Arguments writeLoop deflate {C V}.
Arguments Write deflate {C V}. Arguments newFileWriter {C}.
Arguments fileFooter {C ST}. Arguments writeFileTail deflate {C ST}. Arguments Close deflate {C ST}.

(** ** Opening *)
Section Reader.
Variable inflate : list Z -> res (list Z).
Variable ST : Type.
Variable hasNull : ST -> bool.
Variable unmarshalPS : list Z -> res postscript.
Variable unmarshalFooter : list Z -> res (footer ST).
Variable unmarshalSF : list Z -> res stripeFooter.

(** reader.go 254-343.  [Ok None] is the nil tail returned for an empty file. *)
Definition extractFileTail (file : list Z) : res (option (postscript * footer ST)) :=
  let size := zlen file in
  if size =? 0 then Ok None
  else if size <=? 3 then Err
  else
    let readSize := Z.min size 16384 in
    let buf := zdrop (size - readSize) file in
    let psLen := nth (Z.to_nat (readSize - 1)) buf 0 in
    let psOffset := readSize - 1 - psLen in
    if psOffset <? 0 then Panic else
    let! ps := unmarshalPS (ztake psLen (zdrop psOffset buf)) in
    let footerSize := i64 (p_footerLength ps) in
    let metaSize := i64 (p_metadataLength ps) in
    let extra := Z.max 0 (i64 (psLen + 1 + footerSize + metaSize - readSize)) in
    let! buf := (if 0 <? extra then
                   let from := i64 (size - readSize - extra) in
                   if from <? 0 then Err
                   else Ok (buf ++ ztake extra (zdrop from file))
                 else Ok buf) in
    let footerStart := i64 (psOffset - footerSize) in
    if (footerStart <? 0) || (psOffset <? footerStart) then Panic else
    let footerBuf := ztake footerSize (zdrop footerStart buf) in
    let! footerBuf := (match p_compression ps with
                       | NONE => Ok footerBuf
                       | k => DecompressChunks inflate k footerBuf
                       end) in
    let! f := unmarshalFooter footerBuf in
    Ok (Some (ps, f)).

(** reader.go 32-41 and config.ReaderOptions. *)
Record fileR := { fr_kind : kind; fr_chunkSize : Z; fr_stride : Z; fr_nodes : list node;
                  fr_hasNulls : list bool; fr_rows : Z; fr_stats : list ST; fr_stripes : list stripeInfo }.

(** reader.go 43-76.  A nil tail is dereferenced; more statistics than types index out
    of range. *)
Definition newFileReader (file : list Z) : res fileR :=
  let! t := extractFileTail file in
  match t with
  | None => Panic
  | Some (ps, f) =>
      if f_rows f =? 0 then Err else
      let! ns := unmarshallSchema (f_types f) in
      if (length ns <? length (f_stats f))%nat then Panic else
      Ok {| fr_kind := p_compression ps;
            fr_chunkSize := (match p_compression ps with NONE => 262144 | _ => p_blockSize ps end);
            fr_stride := f_stride f; fr_nodes := ns;
            fr_hasNulls := map (fun i => match nth_error (f_stats f) i with
                                         | Some s => hasNull s | None => false end) (seq 0 (length ns));
            fr_rows := f_rows f; fr_stats := f_stats f; fr_stripes := f_stripes f |}
  end.

(** stripe.go 263-287: where the reader looks for each stream; the index streams are
    kept apart. *)
Fixpoint streamStarts (indexStart dataStart : Z) (l : list strm) : list (strm * Z) :=
  match l with
  | [] => []
  | s :: r =>
      if st_kind s =? 6 then (s, indexStart) :: streamStarts (u64 (indexStart + st_length s)) dataStart r
      else (s, dataStart) :: streamStarts indexStart (u64 (dataStart + st_length s)) r
  end.

(** stripe.go 221-243: the stripe footer; 263-287: its encodings and its streams with
    their offsets.  The construction of the column readers from them, 246-316, which
    panics if the encoding of an included column is missing or a stream belongs to an
    unknown column, is [newStripeRd] of Assembled.v. *)
Definition openStripe (k : kind) (file : list Z) (i : stripeInfo)
  : res (list Z * list (strm * Z)) :=
  let from := i64 (Offset i + IndexLength i + DataLength i) in
  if from <? 0 then Err else
  if zlen (zdrop from file) <? FooterLength i then Err else
  let fb := ztake (FooterLength i) (zdrop from file) in
  let! fb := (match k with NONE => Ok fb | k => DecompressChunks inflate k fb end) in
  let! sf := unmarshalSF fb in
  Ok (sf_columns sf, streamStarts (Offset i) (u64 (Offset i + IndexLength i)) (sf_streams sf)).

(** reader.go 128-140: the footers of the stripes. *)
Fixpoint initStripes (k : kind) (file : list Z) (l : list stripeInfo)
  : res (list (list Z * list (strm * Z))) :=
  match l with
  | [] => Ok []
  | i :: r =>
      if NumberOfRows i =? 0 then Err else
      let! x := openStripe k file i in
      let! y := initStripes k file r in
      Ok (x :: y)
  end.

(** reader.go 78-90: the footers read; [openBatches] of Assembled.v makes the stripe
    readers as well. *)
Definition CreateBatchReader (rowSize : Z) (file : list Z) (r : fileR)
  : res (list (list Z * list (strm * Z))) :=
  if rowSize =? 0 then Err else initStripes (fr_kind r) file (fr_stripes r).
End Reader.
Arguments extractFileTail inflate {ST}. Arguments newFileReader inflate {ST}.
Arguments fr_kind {ST}. Arguments fr_chunkSize {ST}. Arguments fr_stride {ST}. Arguments fr_nodes {ST}.
Arguments fr_hasNulls {ST}. Arguments fr_rows {ST}. Arguments fr_stats {ST}. Arguments fr_stripes {ST}.
Arguments CreateBatchReader inflate {ST}.
