(** Column writers and readers: orc/column/ writer.go, reader.go, package.go, int.go,
    byte.go, bool.go, float.go, string.go, binary.go, time.go, decimal.go, struct.go.

    The writers of the different types repeat the same code; here they are one writer
    with a kind, and what differs is stated kind by kind.  LIST, MAP and UNION columns
    are not modelled (their writers do not exist).  Logging is omitted.

    Floating point arithmetic and the text of numbers (for statistics only) are a
    parameter [F : floats]. *)
From Verif.Model Require Import Go Codec ByteBool IntRle Chunk Stream Schema Time File.

(** A Go interface value. *)
Inductive gval := GNil | GInt16 (v : Z) | GInt32 (v : Z) | GInt64 (v : Z) | GUint64 (v : Z) | GInt (v : Z)
  | GByte (v : Z) | GBool (b : bool) | GFloat (bits : Z) | GDouble (bits : Z)
  | GString (s : list Z) | GBytes (s : list Z) | GDate (t : Z) | GTimestamp (t : timestamp)
  | GDecimal (precision scale : Z).

(** api/vector.go 80-83. *)
Record value := { Null : bool; V : gval }.

(** ** Encoders behind the encoding.Encoder interface, with the dynamic type checks of
    their Encode methods: encoding/byte.go 30, bool.go 33, int.go 379-393, 1140,
    float.go 21-25, 70-74, string.go 17-21. *)
Inductive enc := EByte (e : byteEnc) | EBool (e : boolEnc) | EInt (e : intEnc) | EVarint | EFloat | EDouble | EString.

Definition encode (e : enc) (v : gval) : res (enc * list Z) :=
  match e, v with
  | EByte e, GByte x => let! (e', b) := byte_Encode e x in Ok (EByte e', b)
  | EByte _, _ => Panic
  | EBool e, GBool x => let! (e', b) := bool_Encode e x in Ok (EBool e', b)
  | EBool _, _ => Panic
  | EInt e, GInt64 x => if i_signed e then let! (e', b) := int_Encode e x in Ok (EInt e', b) else Err
  | EInt e, GUint64 x => if i_signed e then Err else let! (e', b) := int_Encode e x in Ok (EInt e', b)
  | EInt _, _ => Err
  | EVarint, GInt64 x => let! b := varint64_Encode x in Ok (EVarint, b)
  | EVarint, _ => Panic
  | EFloat, GFloat x => Ok (EFloat, float_Encode x)
  | EFloat, _ => Err
  | EDouble, GDouble x => Ok (EDouble, double_Encode x)
  | EDouble, _ => Err
  | EString, GBytes s => Ok (EString, string_Encode s)
  | EString, _ => Err
  end.
Definition encFlush (e : enc) : res (enc * list Z) :=
  match e with
  | EByte e => let! (e', b) := byte_Flush e in Ok (EByte e', b)
  | EBool e => let! (e', b) := bool_Flush e in Ok (EBool e', b)
  | EInt e => let! (e', b) := int_Flush e in Ok (EInt e', b)
  | e => Ok (e, [])
  end.
(** int.go 1155-1157 for varints; float.go 40, 86, string.go 32. *)
Definition encPos (e : enc) : list Z :=
  match e with
  | EByte e => byte_GetPosition e
  | EBool e => bool_GetPosition e
  | EInt e => int_GetPosition e
  | EVarint => [1]
  | EFloat | EDouble | EString => []
  end.

(** ** Kinds of column *)
Inductive ckind := KShort | KInt | KLong | KByte | KBool | KFloat | KDouble | KString | KBinary | KDate
  | KTimestamp | KDecimal | KStruct | KDict.

(** pb.Stream_Kind *)
Notation sPRESENT := 0 (only parsing). Notation sDATA := 1 (only parsing). Notation sLENGTH := 2 (only parsing).
Notation sDICT := 3 (only parsing). Notation sSECONDARY := 5 (only parsing).

(** The streams each constructor makes besides PRESENT, in the order of WriteOut and
    GetStreamInfos: the constructors int.go 13-31, byte.go 13-29, bool.go 13-34, float.go
    164-182, string.go 18-38, 543-564, binary.go 15-34, time.go 15-33, 279-298, decimal.go
    17-36, struct.go 158-177. *)
Definition dataStreams (k : ckind) (o : opts) : list (Z * enc) :=
  let i := WriteIndex o in
  match k with
  | KShort | KInt | KLong | KDate => [(sDATA, EInt (NewIntRLV2 true i))]
  | KByte => [(sDATA, EByte (NewByteEncoder i))]
  | KBool => [(sDATA, EBool (NewBoolEncoder i))]
  | KFloat => [(sDATA, EFloat)]
  | KDouble => [(sDATA, EDouble)]
  | KString | KBinary => [(sDATA, EString); (sLENGTH, EInt (NewIntRLV2 false i))]
  | KTimestamp => [(sDATA, EInt (NewIntRLV2 true i)); (sSECONDARY, EInt (NewIntRLV2 false i))]
  | KDecimal => [(sDATA, EVarint); (sSECONDARY, EInt (NewIntRLV2 true i))]
  | KStruct => []
  | KDict => [(sDATA, EInt (NewIntRLV2 false i)); (sDICT, EString); (sLENGTH, EInt (NewIntRLV2 false i))]
  end.

(** What a non-null value puts into each of these streams: int.go 62-74, byte.go 44,
    bool.go 48, float.go 198, string.go 55-67, binary.go 50 (nothing is ever written
    to LENGTH), time.go 49-53, 314-320, decimal.go 52-58, string.go 584-595 (only
    collected).  A failing type assertion panics; string.go 56 and 585 return an error. *)
Definition puts (k : ckind) (v : gval) : res (list (option gval)) :=
  match k with
  | KShort => match v with GInt16 x => Ok [Some (GInt64 x)] | _ => Panic end
  | KInt => match v with GInt32 x => Ok [Some (GInt64 x)] | _ => Panic end
  | KLong => match v with GInt64 x => Ok [Some (GInt64 x)] | _ => Panic end
  | KByte | KBool | KFloat | KDouble => Ok [Some v]
  | KString => match v with GString s => Ok [Some (GBytes s); Some (GUint64 (zlen s))] | _ => Err end
  | KBinary => Ok [Some v; None]
  | KDate => match v with GDate t => Ok [Some (GInt64 (ToDays t))] | _ => Panic end
  | KTimestamp =>
      match v with
      | GTimestamp t => Ok [Some (GInt64 (ts_seconds t)); Some (GUint64 (EncodingTimestampNanos (ts_nanos t)))]
      | _ => Panic
      end
  | KDecimal => match v with GDecimal p s => Ok [Some (GInt64 p); Some (GInt64 s)] | _ => Panic end
  | KStruct => Ok []
  | KDict => match v with GString _ => Ok [None; None; None] | _ => Err end
  end.

(** ** Statistics *)
(** float64 bit patterns: +, <, float64(float32), strconv.ParseFloat, fmt.Sprintf("%f"),
    Decimal64.Float64 and Decimal64.String (api/vector.go 91-106). *)
Record floats := { f_add : Z -> Z -> Z; f_lt : Z -> Z -> bool; f_widen : Z -> Z;
  f_parse : list Z -> res Z; f_format : Z -> list Z; f_decimal : Z -> Z -> Z; f_text : Z -> Z -> list Z }.

(** Go's < on strings. *)
Fixpoint slt (a b : list Z) : bool :=
  match a, b with
  | _, [] => false
  | [], _ :: _ => true
  | x :: a', y :: b' => if x <? y then true else if y <? x then false else slt a' b'
  end.

(** The type-specific part of pb.ColumnStatistics. *)
Inductive detail :=
| DInt (mn mx sum : Z)
| DDouble (mn mx sum : Z)
| DString (mn mx : option (list Z)) (sum : Z) (lower upper : option (list Z))
| DBucket (count : Z)
| DDate (mn mx : Z)
| DBinary (sum : Z)
| DTimestamp (mn mx mnUtc mxUtc : Z)
| DDecimal (mn mx sum : list Z).

(** pb.ColumnStatistics.  [cs_stray]: an all-zero DoubleStatistics message, which the
    first index statistics of a timestamp column carry (time.go 289-292). *)
Record colstats := { cs_values : Z; cs_hasNull : bool; cs_bytes : Z; cs_detail : option detail; cs_stray : bool }.

Section Columns.
Variable deflate : list (list Z) -> list Z -> res (list Z).
Variable inflate : list Z -> res (list Z).
Variable F : floats.
Variable o : opts.
Variable IndexStride : Z.

Definition newDetail (k : ckind) : detail :=
  match k with
  | KShort | KInt | KLong => DInt 0 0 0
  | KFloat | KDouble => DDouble 0 0 0
  | KString => DString (Some []) (Some []) 0 None None
  | KDict => DString (Some []) (Some []) 0 (Some []) (Some [])
  | KBool | KStruct => DBucket 0
  | KDate => DDate 0 0
  | KByte | KBinary => DBinary 0
  | KTimestamp => DTimestamp 0 0 0 0
  | KDecimal => DDecimal [] [] []
  end.

Definition get (s : option (list Z)) : list Z := match s with Some x => x | None => [] end.

(** string.go 69-90 (and 114-137 for the index statistics). *)
Definition addString (s : list Z) (d : detail) : detail :=
  match d with
  | DString mn mx sum lo up =>
      let sum := i64 (sum + zlen s) in
      let mn := (match mn with Some m => if slt s m then Some s else Some m | None => None end) in
      let mx := (match mx with Some m => if slt m s then Some s else Some m | None => None end) in
      let '(mn, mx, lo, up) := (if 1024 <=? zlen s then (None, None, mn, mx) else (mn, mx, lo, up)) in
      let lo := (match lo with Some l => if slt s (get mx) then Some s else Some l | None => None end) in
      let up := (match up with Some u => if slt (get mx) s then Some s else Some u | None => None end) in
      DString mn mx sum lo up
  | _ => d
  end.

(** The update of the column statistics by a non-null value, apart from NumberOfValues:
    int.go 75-82, byte.go 47-48, bool.go 51-55, float.go 201-215, string.go 69-90 and
    597-613, binary.go 53-54, time.go 54-60 and 322-336, decimal.go 59-75, struct.go
    191-194.  The detail is never absent here. *)
Definition addDetail (k : ckind) (v : gval) (d : detail) : res detail :=
  match k, v, d with
  | KShort, GInt16 x, DInt mn mx sum | KInt, GInt32 x, DInt mn mx sum | KLong, GInt64 x, DInt mn mx sum =>
      Ok (DInt (if x <? mn then x else mn) (if mx <? x then x else mx) (i64 (sum + x)))
  | KByte, _, DBinary s | KBinary, _, DBinary s => Ok (DBinary (i64 (s + 1)))
  | KBool, GBool b, DBucket n => Ok (DBucket (if b then u64 (n + 1) else n))
  | KStruct, _, DBucket n => Ok (DBucket (u64 (n + 1)))
  | KFloat, GFloat x, DDouble mn mx sum =>
      let x := f_widen F x in
      Ok (DDouble (if f_lt F x mn then x else mn) (if f_lt F mx x then x else mx) (f_add F sum x))
  | KDouble, GDouble x, DDouble mn mx sum =>
      Ok (DDouble (if f_lt F x mn then x else mn) (if f_lt F mx x then x else mx) (f_add F sum x))
  | KString, GString s, d => Ok (addString s d)
  | KDict, GString s, DString (Some mn) (Some mx) sum (Some lo) (Some up) =>
      let sum := i64 (sum + zlen s) in
      Ok (if 1024 <=? zlen s
          then DString (Some mn) (Some mx) sum (Some (if slt s lo then s else lo)) (Some (if slt up s then s else up))
          else DString (Some (if slt s mn then s else mn)) (Some (if slt mx s then s else mx)) sum (Some lo) (Some up))
  | KDate, GDate t, DDate mn mx =>
      let days := ToDays t in Ok (DDate (if days <? mn then days else mn) (if mx <? days then days else mx))
  | KTimestamp, GTimestamp t, DTimestamp mn mx mnUtc mxUtc =>
      let ms := GetMilliSeconds t in
      let mn := if ms <? mn then ms else mn in
      let mx := if mx <? ms then ms else mx in
      let msUtc := GetMilliSecondsUtc t in
      let mn := if ms <? mnUtc then msUtc else mn in
      let mxUtc := if mx <? ms then msUtc else mxUtc in
      Ok (DTimestamp mn mx mnUtc mxUtc)
  | KDecimal, GDecimal p s, DDecimal mn mx sum =>
      let t := f_text F p s in
      let! x := (match sum with [] => Ok 0 | _ => f_parse F sum end) in
      Ok (DDecimal (if slt t mn then t else mn) (if slt mx t then t else mx)
                   (f_format F (f_add F x (f_decimal F p s))))
  | _, _, _ => Panic
  end.

Definition addStats (k : ckind) (v : gval) (s : colstats) : res colstats :=
  match cs_detail s with
  | None => Panic
  | Some d =>
      let! d' := addDetail k v d in
      Ok {| cs_values := u64 (cs_values s + 1); cs_hasNull := cs_hasNull s; cs_bytes := cs_bytes s;
            cs_detail := Some d'; cs_stray := cs_stray s |}
  end.

(** The same for the statistics of the current index entry: int.go 103-112, byte.go
    69-72, bool.go 76-79, float.go 236-247 (asserts float64 also in a float32 column),
    string.go 113-138, binary.go 75-78, time.go 81-89 (only the count; the column
    statistics are compared again, without effect) and 359-376, struct.go 213-216,
    decimal.go 98-110: the index sum is always "", which ParseFloat refuses.  After
    reset() the detail is absent (writer.go 37), which a timestamp column repairs. *)
Definition addIndexDetail (k : ckind) (v : gval) (d : option detail) : res (option detail) :=
  match k, v, d with
  | KBool, _, Some (DBucket n) => Ok (Some (DBucket (u64 (n + 1))))
  | KFloat, _, _ => Panic
  | KDate, _, d => Ok d
  | KTimestamp, GTimestamp t, d =>
      let '(mn, mx, mnUtc, mxUtc) :=
         (match d with Some (DTimestamp a b c d) => (a, b, c, d) | _ => (0, 0, 0, 0) end) in
      let ms := GetMilliSeconds t in
      let msUtc := GetMilliSecondsUtc t in
      let mx := if mx <? ms then ms else mx in
      let mn := if ms <? mn then ms else mn in
      let mxUtc := if mxUtc <? msUtc then msUtc else mxUtc in
      let mn := if msUtc <? mnUtc then msUtc else mn in
      Ok (Some (DTimestamp mn mx mnUtc mxUtc))
  | KDecimal, _, _ => Err
  | _, _, Some d => let! d' := addDetail k v d in Ok (Some d')
  | _, _, None => Panic
  end.
Definition addIndexStats (k : ckind) (v : gval) (s : colstats) : res colstats :=
  let! d := addIndexDetail k v (cs_detail s) in
  Ok {| cs_values := u64 (cs_values s + 1); cs_hasNull := cs_hasNull s; cs_bytes := cs_bytes s;
        cs_detail := d; cs_stray := cs_stray s |}.

(** struct.go 194, 216: a null struct row is counted as a value. *)
Definition countNull (s : colstats) : colstats :=
  {| cs_values := u64 (cs_values s + 1); cs_hasNull := cs_hasNull s; cs_bytes := cs_bytes s;
     cs_detail := cs_detail s; cs_stray := cs_stray s |}.
Definition isKStruct (k : ckind) : bool := match k with KStruct => true | _ => false end.

(** BytesOnDisk of index statistics is always 0 (or absent). *)
Definition newStats (k : ckind) (hasNull : bool) : colstats :=
  {| cs_values := 0; cs_hasNull := hasNull; cs_bytes := 0; cs_detail := Some (newDetail k); cs_stray := false |}.
(** The first index statistics: HasNull is set only by bool.go 23-30 and struct.go
    168-175; time.go 289-292. *)
Definition firstIndexStats (k : ckind) (hasNulls : bool) : colstats :=
  match k with
  | KBool | KStruct => newStats k hasNulls
  | KTimestamp => {| cs_values := 0; cs_hasNull := false; cs_bytes := 0; cs_detail := None; cs_stray := true |}
  | _ => newStats k false
  end.

(** ** The writer: writer.go 10-25 and the fields of the column types.  [cw_present] is
    Some exactly when schema.HasNulls.  [cw_pending]: the strings collected by a
    dictionary writer (count and the map data of string.go 566-574). *)
Record colW := { cw_id : Z; cw_kind : ckind; cw_present : option (writer enc); cw_data : list (Z * writer enc);
  cw_stats : colstats; cw_indexInRows : Z; cw_indexStats : colstats; cw_index : list (list Z * colstats);
  cw_flushed : bool; cw_pending : list (list Z) }.

Definition newColW (id : Z) (k : ckind) (hasNulls : bool) : colW :=
  {| cw_id := id; cw_kind := k;
     cw_present := (if hasNulls then Some (newWriter (EBool (NewBoolEncoder (WriteIndex o)))) else None);
     cw_data := map (fun p => (fst p, newWriter (snd p))) (dataStreams k o);
     cw_stats := newStats k hasNulls; cw_indexInRows := 0; cw_indexStats := firstIndexStats k hasNulls;
     cw_index := []; cw_flushed := false; cw_pending := [] |}.

(** package.go 201-303.  Encodings: DIRECT 0, DICTIONARY 1, DIRECT_V2 2, DICTIONARY_V2 3. *)
Definition writerKind (k : tkind) (encoding : Z) : res ckind :=
  let v2 c := if encoding =? 2 then Ok c else Err in
  let v1 c := if encoding =? 0 then Ok c else Err in
  match k with
  | SHORT => v2 KShort | INT => v2 KInt | LONG => v2 KLong
  | FLOAT => Ok KFloat | DOUBLE => Ok KDouble
  | CHAR | VARCHAR | STRING => if encoding =? 2 then Ok KString else if encoding =? 3 then Ok KDict else Err
  | BOOLEAN => v1 KBool | BYTE => v1 KByte
  | BINARY => v2 KBinary | DECIMAL => v2 KDecimal | DATE => v2 KDate | TIMESTAMP => v2 KTimestamp
  | STRUCT => v1 KStruct
  | LIST | MAP | UNION | TIMESTAMP_INSTANT => Err
  end.
Definition NewWriter (t : td) : res colW :=
  let! k := writerKind (td_kind t) (td_enc t) in Ok (newColW (td_id t) k (td_hasNulls t)).

Definition s_Write (w : writer enc) (v : gval) : res (writer enc) := w_Write deflate encode o w v.
Definition s_Flush (w : writer enc) : res (writer enc) := w_Flush deflate encFlush o w.

(** Values to their streams. *)
Fixpoint writeEach (ss : list (Z * writer enc)) (vs : list (option gval)) : res (list (Z * writer enc)) :=
  match ss, vs with
  | (k, w) :: ss', v :: vs' =>
      let! w' := (match v with Some x => s_Write w x | None => Ok w end) in
      let! r := writeEach ss' vs' in Ok ((k, w') :: r)
  | _, _ => Ok ss
  end.

Definition optM {A B} (f : A -> res B) (x : option A) : res (option B) :=
  match x with Some a => let! b := f a in Ok (Some b) | None => Ok None end.
Definition onWriter {A} (f : writer enc -> res A) (p : Z * writer enc) : res (Z * A) :=
  let! x := f (snd p) in Ok (fst p, x).

(** GetPosition of the streams in order: int.go 88-92 and the like. *)
Definition positions (c : colW) : list Z :=
  (match cw_present c with Some p => w_GetPosition encPos o p | None => [] end)
    ++ flat_map (fun p => w_GetPosition encPos o (snd p)) (cw_data c).
Definition hasNulls (c : colW) : bool := match cw_present c with Some _ => true | None => false end.

(** The index block of Write: int.go 85-113.  Timestamp and decimal columns have it
    inside the branch of the non-null values (time.go 338-377, decimal.go 77-111), the
    dictionary column not at all. *)
Definition indexes (k : ckind) (null : bool) : bool :=
  match k with KDict => false | KTimestamp | KDecimal => negb null | _ => true end.
Definition indexStep (c : colW) (v : value) : res colW :=
  let n := cw_indexInRows c + 1 in
  let '(index, is, n) :=
     (if IndexStride <=? n
      then (cw_index c ++ [(positions c, cw_indexStats c)], newStats (cw_kind c) (hasNulls c), 0)
      else (cw_index c, cw_indexStats c, n)) in
  let! is := (if Null v then Ok (if isKStruct (cw_kind c) then countNull is else is)
              else addIndexStats (cw_kind c) (V v) is) in
  Ok {| cw_id := cw_id c; cw_kind := cw_kind c; cw_present := cw_present c; cw_data := cw_data c;
        cw_stats := cw_stats c; cw_indexInRows := n; cw_indexStats := is; cw_index := index;
        cw_flushed := cw_flushed c; cw_pending := cw_pending c |}.

(** Write: int.go 54-115, byte.go 36-75, bool.go 41-82, float.go 190-250, string.go
    46-141 and 576-659, binary.go 42-81, time.go 40-92 and 306-381, decimal.go 44-115,
    struct.go 183-219. *)
Definition c_Write (c : colW) (v : value) : res colW :=
  if isKStruct (cw_kind c) && negb (hasNulls c) then Ok c else
  let! p := optM (fun p => s_Write p (GBool (negb (Null v)))) (cw_present c) in
  let! d := (if Null v then Ok (cw_data c)
             else let! vs := puts (cw_kind c) (V v) in writeEach (cw_data c) vs) in
  let! st := (if Null v then Ok (if isKStruct (cw_kind c) then countNull (cw_stats c) else cw_stats c)
              else addStats (cw_kind c) (V v) (cw_stats c)) in
  let pending := (match cw_kind c, Null v, V v with
                  | KDict, false, GString s => cw_pending c ++ [s]
                  | _, _, _ => cw_pending c
                  end) in
  let c' := {| cw_id := cw_id c; cw_kind := cw_kind c; cw_present := p; cw_data := d; cw_stats := st;
               cw_indexInRows := cw_indexInRows c; cw_indexStats := cw_indexStats c; cw_index := cw_index c;
               cw_flushed := cw_flushed c; cw_pending := pending |} in
  if WriteIndex o && indexes (cw_kind c) (Null v) then indexStep c' v else Ok c'.

(** Size: binary.go 138-143, bool.go 132-137, byte.go 77-82, decimal.go 171-176,
    float.go 301-306, int.go 117-122, string.go 198-203 and 752-759, struct.go 258-263,
    time.go 137-142 and 437-442. *)
Definition c_Size (c : colW) : Z :=
  fold_right (fun w n => w_Size o w + n) 0
    ((match cw_present c with Some p => [p] | None => [] end) ++ map snd (cw_data c)).

(** The dictionary writer's Flush, string.go 661-688: keys sorted, positions counted
    from 1 but used as indices into a slice of length count, and the indices handed to
    the encoder as int. *)
Fixpoint insertKey (s : list Z) (l : list (list Z)) : list (list Z) :=
  match l with
  | [] => [s]
  | x :: r => if slt s x then s :: l else if slt x s then x :: insertKey s r else l
  end.
Definition dictKeys (pending : list (list Z)) : list (list Z) := fold_right insertKey [] pending.
Fixpoint sameString (a b : list Z) : bool :=
  match a, b with [], [] => true | x :: a', y :: b' => (x =? y) && sameString a' b' | _, _ => false end.
Definition positionsOf (s : list Z) (pending : list (list Z)) : list nat :=
  map fst (filter (fun p => sameString (snd p) s) (combine (seq 1 (length pending)) pending)).
Fixpoint assign (data : list Z) (ps : list nat) (x : Z) : res (list Z) :=
  match ps with
  | [] => Ok data
  | p :: r => if (p <? length data)%nat then assign (set_nth data p x) r x else Panic
  end.
Fixpoint assignAll (data : list Z) (keys : list (list Z)) (i : Z) (pending : list (list Z)) : res (list Z) :=
  match keys with
  | [] => Ok data
  | k :: r => let! data' := assign data (positionsOf k pending) i in assignAll data' r (i + 1) pending
  end.
Fixpoint s_WriteAll (w : writer enc) (vs : list gval) : res (writer enc) :=
  match vs with [] => Ok w | v :: r => let! w' := s_Write w v in s_WriteAll w' r end.
Definition dictFill (c : colW) : res (list (Z * writer enc)) :=
  match cw_kind c, cw_data c with
  | KDict, [(k1, dw); (k2, sw); (k3, lw)] =>
      let keys := dictKeys (cw_pending c) in
      let! data := assignAll (repeat 0 (length (cw_pending c))) keys 0 (cw_pending c) in
      let! dw' := s_WriteAll dw (map GInt data) in
      let! sw' := s_WriteAll sw (map GString keys) in
      let! lw' := s_WriteAll lw (map (fun s => GUint64 (zlen s)) keys) in
      Ok [(k1, dw'); (k2, sw'); (k3, lw')]
  | _, d => Ok d
  end.

(** Flush: binary.go 83-104, bool.go 84-100, byte.go 84-102, decimal.go 117-136,
    float.go 252-268, int.go 124-138, string.go 143-164, struct.go 221-230, time.go 94-110
    and 383-402; BytesOnDisk restarts from the PRESENT stream
    and otherwise accumulates over the stripes. *)
Definition c_Flush (c : colW) : res colW :=
  let! d0 := dictFill c in
  let! p := optM s_Flush (cw_present c) in
  let! d := mapM (onWriter s_Flush) d0 in
  let b0 := (match p with Some p => w_length p | None => cs_bytes (cw_stats c) end) in
  let b := fold_left (fun n q => u64 (n + w_length (snd q))) d b0 in
  let st := cw_stats c in
  Ok {| cw_id := cw_id c; cw_kind := cw_kind c; cw_present := p; cw_data := d;
        cw_stats := {| cs_values := cs_values st; cs_hasNull := cs_hasNull st; cs_bytes := b;
                       cs_detail := cs_detail st; cs_stray := cs_stray st |};
        cw_indexInRows := cw_indexInRows c; cw_indexStats := cw_indexStats c; cw_index := cw_index c;
        cw_flushed := true; cw_pending := cw_pending c |}.

(** WriteOut: binary.go 106-123, bool.go 102-118, byte.go 116-133, decimal.go 138-156,
    float.go 270-287, int.go 140-157, string.go 166-183 and 716-733, struct.go 232-245,
    time.go 112-123 and 404-422.  string.go 166, 716, binary.go 106 and time.go
    112 do not look at flushed. *)
Definition checksFlushed (k : ckind) : bool :=
  match k with KString | KDict | KBinary | KDate => false | _ => true end.
Definition c_WriteOut (c : colW) : res (list Z * Z * colW) :=
  if checksFlushed (cw_kind c) && negb (cw_flushed c) then Err else
  let p := (match cw_present c with
            | Some p => let (b, p') := w_WriteOut o p in (b, Some p') | None => ([], None) end) in
  let d := map (fun q => let (b, w) := w_WriteOut o (snd q) in (b, (fst q, w))) (cw_data c) in
  let bs := fst p ++ concat (map fst d) in
  Ok (bs, zlen bs,
      {| cw_id := cw_id c; cw_kind := cw_kind c; cw_present := snd p; cw_data := map snd d;
         cw_stats := cw_stats c; cw_indexInRows := cw_indexInRows c; cw_indexStats := cw_indexStats c;
         cw_index := cw_index c; cw_flushed := cw_flushed c; cw_pending := cw_pending c |}).

(** GetStreamInfos: binary.go 125-130, bool.go 120-125, byte.go 104-109, decimal.go 158-163,
    float.go 289-294, int.go 163-168, string.go 185-190 and 735-740, struct.go 247-252,
    time.go 125-130 and 424-429. *)
Definition info (id k : Z) (w : writer enc) : strm := {| st_column := id; st_kind := k; st_length := w_length w |}.
Definition c_Infos (c : colW) : list strm :=
  (match cw_present c with Some p => [info (cw_id c) sPRESENT p] | None => [] end)
    ++ map (fun q => info (cw_id c) (fst q) (snd q)) (cw_data c).

(** Reset: binary.go 132-136, bool.go 127-130, byte.go 111-114, decimal.go 165-169,
    float.go 296-299, int.go 170-173, string.go 192-196 and 742-750, struct.go 254-256,
    time.go 132-135 and 431-435, with writer.go 27-44.  The dictionary writer's
    method has a value receiver, so data and count stay (string.go 742-750). *)
Definition c_Reset (c : colW) : res colW :=
  let! p := optM (w_Reset o) (cw_present c) in
  let! d := mapM (onWriter (w_Reset o)) (cw_data c) in
  let i := WriteIndex o in
  Ok {| cw_id := cw_id c; cw_kind := cw_kind c; cw_present := p; cw_data := d; cw_stats := cw_stats c;
        cw_indexInRows := (if i then 0 else cw_indexInRows c);
        cw_indexStats := (if i then {| cs_values := 0; cs_hasNull := false; cs_bytes := 0; cs_detail := None;
                                       cs_stray := false |} else cw_indexStats c);
        cw_index := (if i then [] else cw_index c);
        cw_flushed := false; cw_pending := cw_pending c |}.

(** ** Readers *)
(** The stream readers behind a column: IntRLV2Reader, ByteReader, dateV2Reader (its
    decoder maps FromDays over the run, encoding/time.go 41-50), BoolReader, and the
    readers without a run (FloatReader, StringContentsReader, Varint64Reader). *)
Inductive sreader := RRun (v : vreader Z) | RBool (b : boolReader) | RRaw (r : reader).

(** reader.go 17-24 and the fields of the column types; nil pointers are None.
    [cr_second] is LENGTH or SECONDARY; [cr_index]: the positions of the entries. *)
Record colR := { cr_kind : ckind; cr_hasNulls : bool; cr_present : option boolReader;
  cr_data : option sreader; cr_second : option (vreader Z); cr_index : option (list (list Z)) }.
Definition newColR (k : ckind) (hasNulls : bool) : colR :=
  {| cr_kind := k; cr_hasNulls := hasNulls; cr_present := None; cr_data := None; cr_second := None; cr_index := None |}.

Definition setPresent (p : boolReader) (c : colR) : colR :=
  {| cr_kind := cr_kind c; cr_hasNulls := cr_hasNulls c; cr_present := Some p; cr_data := cr_data c;
     cr_second := cr_second c; cr_index := cr_index c |}.
Definition setData (d : sreader) (c : colR) : colR :=
  {| cr_kind := cr_kind c; cr_hasNulls := cr_hasNulls c; cr_present := cr_present c; cr_data := Some d;
     cr_second := cr_second c; cr_index := cr_index c |}.
Definition setSecond (s : vreader Z) (c : colR) : colR :=
  {| cr_kind := cr_kind c; cr_hasNulls := cr_hasNulls c; cr_present := cr_present c; cr_data := cr_data c;
     cr_second := Some s; cr_index := cr_index c |}.
Definition setIndex (i : list (list Z)) (c : colR) : colR :=
  {| cr_kind := cr_kind c; cr_hasNulls := cr_hasNulls c; cr_present := cr_present c; cr_data := cr_data c;
     cr_second := cr_second c; cr_index := Some i |}.

(** package.go 69-199. *)
Definition readerKind (k : tkind) (encoding : Z) : res ckind :=
  let v2 c := if encoding =? 2 then Ok c else Err in
  let v1 c := if encoding =? 0 then Ok c else Err in
  match k with
  | SHORT => v2 KShort | INT => v2 KInt | LONG => v2 KLong
  | FLOAT => v1 KFloat | DOUBLE => v1 KDouble
  | STRING => if encoding =? 2 then Ok KString else if encoding =? 3 then Ok KDict else Err
  | BOOLEAN => v1 KBool | BYTE => v1 KByte
  | BINARY => v2 KBinary | DECIMAL => v2 KDecimal | DATE => v2 KDate | TIMESTAMP => v2 KTimestamp
  | STRUCT => v1 KStruct
  | _ => Err
  end.

(** InitStream: int.go 187-210, byte.go 146-167, bool.go 150-171, float.go 26-47,
    string.go 217-237, binary.go 157-180, time.go 155-180, 460-483, decimal.go 190-213,
    struct.go 31-48.  Only int.go and string.go accept PRESENT in a column without
    nulls; byte.go forgets the error for an unknown kind. *)
Definition dataReader (k : ckind) (r : reader) : option sreader :=
  match k with
  | KShort | KInt | KLong | KDate | KTimestamp | KByte => Some (RRun (newVreader r))
  | KBool => Some (RBool (newBoolReader r))
  | KFloat | KDouble | KString | KBinary | KDecimal => Some (RRaw r)
  | KStruct | KDict => None
  end.
Definition InitStream (file : list Z) (c : colR) (s : strm) (start : Z) : res colR :=
  let r := newReader file start (st_length s) in
  if st_kind s =? sPRESENT then
    (match cr_kind c with
     | KShort | KInt | KLong | KString => Ok (setPresent (newBoolReader r) c)
     | _ => if cr_hasNulls c then Ok (setPresent (newBoolReader r) c) else Err
     end)
  else if st_kind s =? sDATA then
    (match dataReader (cr_kind c) r with Some d => Ok (setData d c) | None => Err end)
  else
    match cr_kind c with
    | KString | KBinary => if st_kind s =? sLENGTH then Ok (setSecond (newVreader r) c) else Err
    | KTimestamp | KDecimal => if st_kind s =? sSECONDARY then Ok (setSecond (newVreader r) c) else Err
    | KByte => Ok c
    | _ => Err
    end.
Fixpoint InitStreams (file : list Z) (c : colR) (l : list (strm * Z)) : res colR :=
  match l with
  | [] => Ok c
  | (s, start) :: r => let! c' := InitStream file c s start in InitStreams file c' r
  end.

(** Reading from the data streams. *)
Definition nextRun (dec : prog (list Z)) (d : option sreader) : res (Z * sreader) :=
  match d with
  | Some (RRun v) => let! (x, v') := v_Next inflate o dec v in Ok (x, RRun v')
  | _ => Panic
  end.
Definition nextBool (d : option sreader) : res (bool * sreader) :=
  match d with
  | Some (RBool b) => let! (x, b') := bool_Next inflate o b in Ok (x, RBool b')
  | _ => Panic
  end.
Definition nextRaw {A} (p : prog A) (d : option sreader) : res (A * sreader) :=
  match d with
  | Some (RRaw r) => let! (x, r') := r_run inflate o p r in Ok (x, RRaw r')
  | _ => Panic
  end.
Definition nextSecond (dec : prog (list Z)) (d : option (vreader Z)) : res (Z * vreader Z) :=
  match d with Some v => v_Next inflate o dec v | None => Panic end.

(** The value of one non-null row: the bodies of the NextBatch loops, int.go 223-238,
    byte.go 179-183, bool.go 184-189, float.go 60-70, string.go 249-258, binary.go
    217-225, time.go 193-198, decimal.go 225-237 and time.go 485-511.  The last two
    assign to a copy of the old value, which must have the right type; nothing reaches
    the batch. *)
Definition nextValue (c : colR) (old : gval) : res (gval * colR) :=
  match cr_kind c with
  | KShort => let! (x, d) := nextRun DecodeInt (cr_data c) in Ok (GInt16 (i16 x), setData d c)
  | KInt => let! (x, d) := nextRun DecodeInt (cr_data c) in Ok (GInt32 (i32 x), setData d c)
  | KLong => let! (x, d) := nextRun DecodeInt (cr_data c) in Ok (GInt64 x, setData d c)
  | KByte => let! (x, d) := nextRun DecodeByteRL (cr_data c) in Ok (GByte x, setData d c)
  | KBool => let! (x, d) := nextBool (cr_data c) in Ok (GBool x, setData d c)
  | KFloat => let! (x, d) := nextRaw DecodeFloat (cr_data c) in Ok (GFloat x, setData d c)
  | KDouble => let! (x, d) := nextRaw DecodeDouble (cr_data c) in Ok (GDouble x, setData d c)
  | KString =>
      let! (l, s) := nextSecond DecodeUInt (cr_second c) in
      let! (x, d) := nextRaw (DecodeBytes (i64 l)) (cr_data c) in
      Ok (GString x, setData d (setSecond s c))
  | KBinary =>
      let! (l, s) := nextSecond DecodeUInt (cr_second c) in
      let! (x, d) := nextRaw (DecodeBytes (i64 l)) (cr_data c) in
      Ok (GBytes x, setData d (setSecond s c))
  | KDate => let! (x, d) := nextRun DecodeInt (cr_data c) in Ok (GDate (FromDays (i32 x)), setData d c)
  | KTimestamp =>
      let! (_, d) := nextRun DecodeInt (cr_data c) in
      let! (_, s) := nextSecond DecodeUInt (cr_second c) in
      match old with GTimestamp t => Ok (old, setSecond s (setData d c)) | _ => Panic end
  | KDecimal =>
      let! (_, d) := nextRaw DecodeVarInt64 (cr_data c) in
      let! (_, s) := nextSecond DecodeInt (cr_second c) in
      match old with GDecimal _ _ => Ok (old, setSecond s (setData d c)) | _ => Panic end
  | KStruct | KDict => Panic
  end.

(** One row: the Null flag is overwritten only when there is a PRESENT stream. *)
Definition nextPresent (c : colR) (old : bool) : res (bool * colR) :=
  match cr_present c with
  | Some b => let! (p, b') := bool_Next inflate o b in Ok (negb p, setPresent b' c)
  | None => Ok (old, c)
  end.
Definition nextRow (c : colR) (old : value) : res (value * colR) :=
  let! (null, c1) := nextPresent c (Null old) in
  if null then Ok ({| Null := true; V := V old |}, c1)
  else let! (g, c2) := nextValue c1 (V old) in Ok ({| Null := false; V := g |}, c2).

(** NextBatch of the leaf columns: binary.go 207-228, bool.go 173-192, byte.go 169-186,
    decimal.go 215-240, float.go 49-73, int.go 212-241, string.go 239-261, time.go 182-201
    and 485-511. *)
Fixpoint NextBatch (c : colR) (vec : list value) : res (list value * colR) :=
  match vec with
  | [] => Ok ([], c)
  | old :: r => let! (x, c1) := nextRow c old in let! (xs, c2) := NextBatch c1 r in Ok (x :: xs, c2)
  end.

(** Skip: binary.go 182-205, bool.go 194-212, byte.go 188-206, decimal.go 242-263,
    float.go 75-99, int.go 243-261, string.go 263-284, time.go 203-221 and 513-534.  Rows are counted by int(rows).  A value is read
    and dropped; for timestamps and decimals that is the same streams.  (binary.go
    199-201 returns nil when the data stream fails; here it is an error.) *)
Definition skipOld (k : ckind) : gval :=
  match k with
  | KTimestamp => GTimestamp {| ts_loc := 0; ts_seconds := 0; ts_nanos := 0 |}
  | KDecimal => GDecimal 0 0
  | _ => GNil
  end.
Fixpoint skipRows (n : nat) (c : colR) : res colR :=
  match n with
  | O => Ok c
  | S m =>
      let! (null, c1) := nextPresent c false in
      let! c2 := (if null then Ok c1 else let! (_, c2) := nextValue c1 (skipOld (cr_kind c)) in Ok c2) in
      skipRows m c2
  end.
Definition Skip (rows : Z) (c : colR) : res colR := skipRows (Z.to_nat (i64 rows)) c.

(** reader.go 61-75: the error for a stride beyond the index is not returned, and the
    index expression panics. *)
Definition strideEntry (index : option (list (list Z))) (stride : Z) : res (list Z) :=
  match index with
  | None => Err
  | Some l =>
      if stride <? 1 then Err
      else match nth_error l (Z.to_nat (stride - 1)) with Some p => Ok p | None => Panic end
  end.
Definition pos (l : list Z) (i : nat) : res Z := match nth_error l i with Some x => Ok x | None => Panic end.

(** The numbers taken from the positions for one stream: the chunk (0 without
    compression), the offset in the chunk, and [n] further ones. *)
Fixpoint takePos (n : nat) (l : list Z) (i : nat) : res (list Z) :=
  match n with O => Ok [] | S m => let! x := pos l i in let! r := takePos m l (S i) in Ok (x :: r) end.
Definition streamPos (n : nat) (l : list Z) (i : nat) : res (list Z) :=
  if isNone (CompressionKind o) then let! r := takePos (S n) l i in Ok (0 :: r) else takePos (S (S n)) l i.
Definition width (n : nat) : nat := if isNone (CompressionKind o) then S n else S (S n).

Definition seekBool (p : list Z) (b : boolReader) : res boolReader :=
  match p with [a; b1; c; d] => bool_Seek inflate o a b1 c d b | _ => Panic end.
Definition seekRun (dec : prog (list Z)) (p : list Z) (v : vreader Z) : res (vreader Z) :=
  match p with [a; b; c] => v_Seek inflate o dec a b c v | _ => Panic end.

(** Offsets within a run used by the data stream of each kind: float.go 154, string.go
    354 use none; decimal.go reads one and ignores it (stream/int.go 131-137). *)
Definition dataExtra (k : ckind) : nat :=
  match k with KBool => 2 | KFloat | KDouble | KString | KBinary => 0 | _ => 1 end.
Definition dataDec (k : ckind) : prog (list Z) := match k with KByte => DecodeByteRL | _ => DecodeInt end.
Definition secondDec (k : ckind) : prog (list Z) := match k with KDecimal => DecodeInt | _ => DecodeUInt end.
Definition hasSecond (k : ckind) : bool :=
  match k with KString | KBinary | KTimestamp | KDecimal => true | _ => false end.
Definition seekData (k : ckind) (p : list Z) (d : option sreader) : res sreader :=
  match d with
  | Some (RRun v) => let! v' := seekRun (dataDec k) p v in Ok (RRun v')
  | Some (RBool b) => let! b' := seekBool p b in Ok (RBool b')
  | Some (RRaw r) => match p with a :: b :: _ => let! r' := r_seek inflate o a b r in Ok (RRaw r') | _ => Panic end
  | None => Panic
  end.
Definition seekSecond (k : ckind) (p : list Z) (d : option (vreader Z)) : res (vreader Z) :=
  match d with Some v => seekRun (secondDec k) p v | None => Panic end.

(** SeekStride: int.go 263-321, byte.go 208-266, bool.go 214-276, float.go 101-155,
    string.go 286-361, binary.go 230-306, time.go 223-270 (no stride 0; the base of the
    data positions is chosen by the schema) and 536-615, decimal.go 265-343.  All
    positions are fetched before the first seek. *)
Definition seekTo (pp dp sp : list Z) (c : colR) : res colR :=
  let! c1 := (match cr_present c with
              | Some b => let! b' := seekBool pp b in Ok (setPresent b' c) | None => Ok c end) in
  let! d := seekData (cr_kind c) dp (cr_data c1) in
  let c2 := setData d c1 in
  if hasSecond (cr_kind c) then let! s := seekSecond (cr_kind c) sp (cr_second c2) in Ok (setSecond s c2)
  else Ok c2.
Definition SeekStride (stride : Z) (c : colR) : res colR :=
  if (stride =? 0) && negb (match cr_kind c with KDate => true | _ => false end) then
    seekTo [0; 0; 0; 0] (0 :: 0 :: repeat 0 (dataExtra (cr_kind c))) [0; 0; 0] c
  else
    let! l := strideEntry (cr_index c) stride in
    let k := cr_kind c in
    let! pp := (match cr_present c with Some _ => streamPos 2 l 0 | None => Ok [] end) in
    let nullable := (match k with KDate => cr_hasNulls c
                     | _ => match cr_present c with Some _ => true | None => false end end) in
    let base := if nullable then width 2 else O in
    let! dp := streamPos (dataExtra k) l base in
    let! sp := (if hasSecond k then streamPos 1 l (base + width (dataExtra k)) else Ok []) in
    seekTo pp dp sp c.

(** ** The dictionary reader: string.go 371-529. *)
(** nil pointers are None; [dr_index] as in [colR]. *)
Record dictR := { dr_hasNulls : bool; dr_present : option boolReader; dr_data : option (vreader Z);
                  dr_dict : option reader; dr_length : option (vreader Z);
                  dr_strings : list (list Z); dr_loaded : bool; dr_index : option (list (list Z)) }.
Definition newDictR (hasNulls : bool) : dictR :=
  {| dr_hasNulls := hasNulls; dr_present := None; dr_data := None; dr_dict := None; dr_length := None;
     dr_strings := []; dr_loaded := false; dr_index := None |}.
Definition dict_at (p : option boolReader) (d : option (vreader Z)) (r : dictR) : dictR :=
  {| dr_hasNulls := dr_hasNulls r; dr_present := p; dr_data := d; dr_dict := dr_dict r; dr_length := dr_length r;
     dr_strings := dr_strings r; dr_loaded := dr_loaded r; dr_index := dr_index r |}.
Definition dict_words (c : option reader) (l : option (vreader Z)) (r : dictR) : dictR :=
  {| dr_hasNulls := dr_hasNulls r; dr_present := dr_present r; dr_data := dr_data r; dr_dict := c; dr_length := l;
     dr_strings := dr_strings r; dr_loaded := dr_loaded r; dr_index := dr_index r |}.
Definition dict_loaded (ss : list (list Z)) (r : dictR) : dictR :=
  {| dr_hasNulls := dr_hasNulls r; dr_present := dr_present r; dr_data := dr_data r; dr_dict := dr_dict r;
     dr_length := dr_length r; dr_strings := ss; dr_loaded := true; dr_index := dr_index r |}.
Definition dict_setIndex (i : list (list Z)) (r : dictR) : dictR :=
  {| dr_hasNulls := dr_hasNulls r; dr_present := dr_present r; dr_data := dr_data r; dr_dict := dr_dict r;
     dr_length := dr_length r; dr_strings := dr_strings r; dr_loaded := dr_loaded r; dr_index := Some i |}.
(** string.go 386-411. *)
Definition dict_InitStream (file : list Z) (r : dictR) (s : strm) (start : Z) : res dictR :=
  let x := newReader file start (st_length s) in
  if st_kind s =? sPRESENT then
    (if dr_hasNulls r then Ok (dict_at (Some (newBoolReader x)) (dr_data r) r) else Err)
  else if st_kind s =? sDATA then Ok (dict_at (dr_present r) (Some (newVreader x)) r)
  else if st_kind s =? sDICT then Ok (dict_words (Some x) (dr_length r) r)
  else if st_kind s =? sLENGTH then Ok (dict_words (dr_dict r) (Some (newVreader x)) r)
  else Err.

(** string.go 416-428: the loop loads one string per round until LENGTH is finished.
    [loadMany n] runs up to 2^n rounds; the loop is [loadMany 64], and 2^64 strings do not
    fit into memory. *)
Definition loadOne (x : vreader Z * option reader * list (list Z)) : res (vreader Z * option reader * list (list Z)) :=
  let '(l, d, acc) := x in
  let! (n, l') := v_Next inflate o DecodeUInt l in
  match d with
  | None => Panic
  | Some d => let! (s, d') := r_run inflate o (DecodeBytes (i64 n)) d in Ok (l', Some d', acc ++ [s])
  end.
Fixpoint loadMany (n : nat) (x : vreader Z * option reader * list (list Z)) : res (vreader Z * option reader * list (list Z)) :=
  if v_Finished (fst (fst x)) then Ok x else
  match n with O => loadOne x | S m => let! y := loadMany m x in loadMany m y end.
Definition loadDict (r : dictR) : res dictR :=
  if dr_loaded r then Ok r else
  match dr_length r with
  | None => Panic
  | Some l =>
      let! (l', d, ss) := loadMany 64 (l, dr_dict r, dr_strings r) in
      if v_Finished l' then Ok (dict_loaded ss (dict_words d (Some l') r)) else Err
  end.
(** string.go 430-446. *)
Fixpoint dictRows (strings : list (list Z)) (p : option boolReader) (d : option (vreader Z)) (vec : list value)
  : res (list value * option boolReader * option (vreader Z)) :=
  match vec with
  | [] => Ok ([], p, d)
  | old :: r =>
      let! (null, p1) := (match p with
                          | Some b => let! (x, b') := bool_Next inflate o b in Ok (negb x, Some b')
                          | None => Ok (Null old, None)
                          end) in
      if null then
        let! (xs, p2, d2) := dictRows strings p1 d r in Ok ({| Null := true; V := V old |} :: xs, p2, d2)
      else
        let! (i, d1) := nextSecond DecodeUInt d in
        match (if i <? zlen strings then nth_error strings (Z.to_nat i) else None) with
        | None => Panic
        | Some s =>
            let! (xs, p2, d2) := dictRows strings p1 (Some d1) r in Ok ({| Null := false; V := GString s |} :: xs, p2, d2)
        end
  end.
Definition dict_NextBatch (r : dictR) (vec : list value) : res (list value * dictR) :=
  let! r := loadDict r in
  let! (xs, p, d) := dictRows (dr_strings r) (dr_present r) (dr_data r) vec in
  Ok (xs, dict_at p d r).
(** One row of string.go 449-467; the dictionary is not loaded. *)
Definition dict_Skip1 (r : dictR) : res dictR :=
  let! (null, p) := (match dr_present r with
                     | Some b => let! (x, b') := bool_Next inflate o b in Ok (negb x, Some b')
                     | None => Ok (false, None)
                     end) in
  if null then Ok (dict_at p (dr_data r) r)
  else let! (_, d) := nextSecond DecodeUInt (dr_data r) in Ok (dict_at p (Some d) r).
(** string.go 469-529. *)
Definition dict_seekTo (pp dp : list Z) (r : dictR) : res dictR :=
  let! p := (match dr_present r with Some b => let! b' := seekBool pp b in Ok (Some b') | None => Ok None end) in
  match dr_data r with
  | None => Panic
  | Some d => let! d' := seekRun DecodeUInt dp d in Ok (dict_at p (Some d') r)
  end.
Definition dict_SeekStride (stride : Z) (r : dictR) : res dictR :=
  if stride =? 0 then dict_seekTo [0; 0; 0; 0] [0; 0; 0] r
  else
    let! l := strideEntry (dr_index r) stride in
    let! pp := (match dr_present r with Some _ => streamPos 2 l 0 | None => Ok [] end) in
    let! dp := streamPos 1 l (match dr_present r with Some _ => width 2 | None => O end) in
    dict_seekTo pp dp r.
End Columns.

(** A batch: its own vector and its children. *)
Inductive vtree := VT (vals : list value) (cs : list vtree).
Definition vt_vals (v : vtree) : list value := let (l, _) := v in l.
