(** The protobuf messages of pb/orc_proto.proto that a file contains.

    proto.Marshal and proto.Unmarshal belong to a dependency that is not part of /repo
    (github.com/golang/protobuf v1.3.2).  The file layer takes them as parameters with
    the assumption proto_ok (Spec/FileSpec.v); this file is an implementation of the
    protobuf encoding for the messages the writer produces, proved to meet proto_ok
    (Proofs/WireP.v), so that the assumption is known to be satisfiable and files can be
    computed with.  Fields are written in the order of their numbers; an integer outside
    its Go type or a Go string with a non-byte, which do not exist in Go, is an error. *)
From Verif.Model Require Import Go Chunk Stream Schema Rows File Column.

(** ** Fields *)
Inductive wfield := WVar (n v : Z) | WFix (n v : Z) | WBytes (n : Z) (b : list Z).

(** Base-128 varint; ten bytes suffice for 64 bits. *)
Fixpoint varint (fuel : nat) (x : Z) : list Z :=
  match fuel with
  | O => []
  | S f => if x <? 128 then [x] else (x mod 128 + 128) :: varint f (x / 128)
  end.
Definition uv (x : Z) : list Z := varint 10 x.
Fixpoint unvarint (fuel : nat) (l : list Z) : option (Z * list Z) :=
  match fuel, l with
  | S f, b :: r =>
      if b <? 128 then Some (b, r)
      else match unvarint f r with Some (x, r') => Some (b - 128 + 128 * x, r') | None => None end
  | _, _ => None
  end.
Definition unuv (l : list Z) : option (Z * list Z) := unvarint 10 l.
(** Little endian. *)
Fixpoint le (n : nat) (x : Z) : list Z := match n with O => [] | S m => x mod 256 :: le m (x / 256) end.
Fixpoint unle (l : list Z) : Z := match l with [] => 0 | b :: r => b + 256 * unle r end.

Definition encField (f : wfield) : list Z :=
  match f with
  | WVar n v => uv (8 * n) ++ uv v
  | WFix n v => uv (8 * n + 1) ++ le 8 v
  | WBytes n b => uv (8 * n + 2) ++ uv (zlen b) ++ b
  end.
Definition isByte (x : Z) : bool := (0 <=? x) && (x <? 256).
Definition isU64 (x : Z) : bool := (0 <=? x) && (x <? W64).
Definition fieldOk (f : wfield) : bool :=
  match f with
  | WVar n v | WFix n v => (0 <=? n) && (n <? 536870912) && isU64 v
  | WBytes n b => (0 <=? n) && (n <? 536870912) && isU64 (zlen b) && forallb isByte b
  end.
Definition encMsg (fs : list wfield) : res (list Z) :=
  if forallb fieldOk fs then Ok (concat (map encField fs)) else Err.

Definition decField (l : list Z) : option (wfield * list Z) :=
  match unuv l with
  | None => None
  | Some (t, r) =>
      let n := t / 8 in
      match t mod 8 with
      | 0 => match unuv r with Some (v, r') => Some (WVar n v, r') | None => None end
      | 1 => if zlen r <? 8 then None else Some (WFix n (unle (firstn 8 r)), skipn 8 r)
      | 2 => match unuv r with
             | Some (k, r') => if zlen r' <? k then None else Some (WBytes n (ztake k r'), zdrop k r')
             | None => None
             end
      | _ => None
      end
  end.
Fixpoint decFields (fuel : nat) (l : list Z) : res (list wfield) :=
  match l with
  | [] => Ok []
  | _ => match fuel with
         | O => Err
         | S f => match decField l with
                  | Some (x, r) => let! t := decFields f r in Ok (x :: t)
                  | None => Err
                  end
         end
  end.
Definition decMsg (l : list Z) : res (list wfield) := decFields (length l) l.

(** Access by number: the last occurrence of a singular field, all of a repeated one. *)
Definition getV (n : Z) (fs : list wfield) : option Z :=
  fold_left (fun a f => match f with WVar m v => if m =? n then Some v else a | _ => a end) fs None.
Definition getF (n : Z) (fs : list wfield) : option Z :=
  fold_left (fun a f => match f with WFix m v => if m =? n then Some v else a | _ => a end) fs None.
Definition allB (n : Z) (fs : list wfield) : list (list Z) :=
  flat_map (fun f => match f with WBytes m b => if m =? n then [b] else [] | _ => [] end) fs.
Definition getB (n : Z) (fs : list wfield) : option (list Z) :=
  fold_left (fun a b => Some b) (allB n fs) None.
Definition orZ (x : option Z) : Z := match x with Some v => v | None => 0 end.
Definition orB (x : option (list Z)) : list Z := match x with Some v => v | None => [] end.

(** Packed repeated integers. *)
Definition packed (l : list Z) : list Z := concat (map uv l).
Fixpoint unpackF (fuel : nat) (l : list Z) : res (list Z) :=
  match l with
  | [] => Ok []
  | _ => match fuel with
         | O => Err
         | S f => match unuv l with Some (x, r) => let! t := unpackF f r in Ok (x :: t) | None => Err end
         end
  end.
Definition unpack (l : list Z) : res (list Z) := unpackF (length l) l.
(** An empty packed field is not written. *)
Definition pack (n : Z) (l : list Z) : list wfield := match l with [] => [] | _ => [WBytes n (packed l)] end.

(** sint64 and sint32. *)
Definition zz (x : Z) : Z := if x <? 0 then -2 * x - 1 else 2 * x.
Definition unzz (x : Z) : Z := if x mod 2 =? 0 then x / 2 else - (x / 2) - 1.

Definition optB (n : Z) (x : option (list Z)) : list wfield := match x with Some b => [WBytes n b] | None => [] end.
Definition bool_Z (b : bool) : Z := if b then 1 else 0.

(** ** pb.Stream, pb.ColumnEncoding, pb.StripeFooter *)
Definition encStream (s : strm) : res (list Z) :=
  encMsg [WVar 1 (st_kind s); WVar 2 (st_column s); WVar 3 (st_length s)].
Definition decStream (b : list Z) : res strm :=
  let! fs := decMsg b in
  Ok {| st_column := orZ (getV 2 fs); st_kind := orZ (getV 1 fs); st_length := orZ (getV 3 fs) |}.
Definition encEncoding (k : Z) : res (list Z) := encMsg [WVar 1 k].
Definition decEncoding (b : list Z) : res Z := let! fs := decMsg b in Ok (orZ (getV 1 fs)).
Definition marshalSF (x : stripeFooter) : res (list Z) :=
  let! ss := mapM encStream (sf_streams x) in
  let! cs := mapM encEncoding (sf_columns x) in
  encMsg (map (WBytes 1) ss ++ map (WBytes 2) cs).
Definition unmarshalSF (b : list Z) : res stripeFooter :=
  let! fs := decMsg b in
  let! ss := mapM decStream (allB 1 fs) in
  let! cs := mapM decEncoding (allB 2 fs) in
  Ok {| sf_streams := ss; sf_columns := cs |}.

(** ** pb.PostScript; version 0.12 and the magic are constants (writer.go 17, 138). *)
Definition kindNum (k : kind) : Z :=
  match k with NONE => 0 | ZLIB => 1 | SNAPPY => 2 | LZO => 3 | LZ4 => 4 | ZSTD => 5 end.
Definition numKind (n : Z) : res kind :=
  match n with 0 => Ok NONE | 1 => Ok ZLIB | 2 => Ok SNAPPY | 3 => Ok LZO | 4 => Ok LZ4 | 5 => Ok ZSTD | _ => Err end.
Definition marshalPS (p : postscript) : res (list Z) :=
  encMsg ([WVar 1 (p_footerLength p); WVar 2 (kindNum (p_compression p)); WVar 3 (p_blockSize p)]
            ++ pack 4 [0; 12]
            ++ (if p_metadataLength p =? 0 then [] else [WVar 5 (p_metadataLength p)])
            ++ [WBytes 8000 [79; 82; 67]]).
Definition unmarshalPS (b : list Z) : res postscript :=
  let! fs := decMsg b in
  let! k := numKind (orZ (getV 2 fs)) in
  Ok {| p_footerLength := orZ (getV 1 fs); p_compression := k; p_blockSize := orZ (getV 3 fs);
        p_metadataLength := orZ (getV 5 fs) |}.

(** ** pb.Type *)
Definition tkindNum (k : tkind) : Z :=
  match k with BOOLEAN => 0 | BYTE => 1 | SHORT => 2 | INT => 3 | LONG => 4 | FLOAT => 5 | DOUBLE => 6 | STRING => 7
  | BINARY => 8 | TIMESTAMP => 9 | LIST => 10 | MAP => 11 | STRUCT => 12 | UNION => 13 | DECIMAL => 14 | DATE => 15
  | VARCHAR => 16 | CHAR => 17 | TIMESTAMP_INSTANT => 18 end.
Definition numTkind (n : Z) : res tkind :=
  match n with 0 => Ok BOOLEAN | 1 => Ok BYTE | 2 => Ok SHORT | 3 => Ok INT | 4 => Ok LONG | 5 => Ok FLOAT | 6 => Ok DOUBLE
  | 7 => Ok STRING | 8 => Ok BINARY | 9 => Ok TIMESTAMP | 10 => Ok LIST | 11 => Ok MAP | 12 => Ok STRUCT | 13 => Ok UNION
  | 14 => Ok DECIMAL | 15 => Ok DATE | 16 => Ok VARCHAR | 17 => Ok CHAR | 18 => Ok TIMESTAMP_INSTANT | _ => Err end.
Definition encType (t : pbType) : res (list Z) :=
  if forallb isU64 (t_sub t) then encMsg ([WVar 1 (tkindNum (t_kind t))] ++ pack 2 (t_sub t) ++ map (WBytes 3) (t_names t))
  else Err.
Definition decType (b : list Z) : res pbType :=
  let! fs := decMsg b in
  let! k := numTkind (orZ (getV 1 fs)) in
  let! sub := unpack (concat (allB 2 fs)) in
  Ok {| t_kind := k; t_sub := sub; t_names := allB 3 fs |}.

(** ** pb.StripeInformation *)
Definition encInfo (i : stripeInfo) : res (list Z) :=
  encMsg [WVar 1 (Offset i); WVar 2 (IndexLength i); WVar 3 (DataLength i); WVar 4 (FooterLength i); WVar 5 (NumberOfRows i)].
Definition decInfo (b : list Z) : res stripeInfo :=
  let! fs := decMsg b in
  Ok {| Offset := orZ (getV 1 fs); IndexLength := orZ (getV 2 fs); DataLength := orZ (getV 3 fs);
        FooterLength := orZ (getV 4 fs); NumberOfRows := orZ (getV 5 fs) |}.

(** ** pb.ColumnStatistics *)
(** The field number and the fields of the type-specific message. *)
Definition detailFields (d : detail) : Z * list wfield :=
  match d with
  | DInt mn mx s => (2, [WVar 1 (zz mn); WVar 2 (zz mx); WVar 3 (zz s)])
  | DDouble mn mx s => (3, [WFix 1 mn; WFix 2 mx; WFix 3 s])
  | DString mn mx s lo up => (4, optB 1 mn ++ optB 2 mx ++ [WVar 3 (zz s)] ++ optB 4 lo ++ optB 5 up)
  | DBucket c => (5, pack 1 [c])
  | DDecimal mn mx s => (6, [WBytes 1 mn; WBytes 2 mx; WBytes 3 s])
  | DDate mn mx => (7, [WVar 1 (zz mn); WVar 2 (zz mx)])
  | DBinary s => (8, [WVar 1 (zz s)])
  | DTimestamp mn mx mnu mxu => (9, [WVar 1 (zz mn); WVar 2 (zz mx); WVar 3 (zz mnu); WVar 4 (zz mxu)])
  end.
Definition detailOk (d : detail) : bool := match d with DBucket c => isU64 c | _ => true end.
Definition strayMsg : list wfield := [WFix 1 0; WFix 2 0; WFix 3 0].
Definition encStats (s : colstats) : res (list Z) :=
  let! ds := (match cs_detail s with
              | None => Ok []
              | Some d => if detailOk d then let! b := encMsg (snd (detailFields d)) in Ok [WBytes (fst (detailFields d)) b]
                          else Err
              end) in
  let! st := (if cs_stray s then let! b := encMsg strayMsg in Ok [WBytes 3 b] else Ok []) in
  encMsg ([WVar 1 (cs_values s)] ++ st ++ ds ++ [WVar 10 (bool_Z (cs_hasNull s)); WVar 11 (cs_bytes s)]).
Definition decDetail (n : Z) (b : list Z) : res detail :=
  let! fs := decMsg b in
  let z k := unzz (orZ (getV k fs)) in
  match n with
  | 2 => Ok (DInt (z 1) (z 2) (z 3))
  | 3 => Ok (DDouble (orZ (getF 1 fs)) (orZ (getF 2 fs)) (orZ (getF 3 fs)))
  | 4 => Ok (DString (getB 1 fs) (getB 2 fs) (z 3) (getB 4 fs) (getB 5 fs))
  | 5 => let! l := unpack (concat (allB 1 fs)) in Ok (DBucket (hd 0 l))
  | 6 => Ok (DDecimal (orB (getB 1 fs)) (orB (getB 2 fs)) (orB (getB 3 fs)))
  | 7 => Ok (DDate (z 1) (z 2))
  | 8 => Ok (DBinary (z 1))
  | 9 => Ok (DTimestamp (z 1) (z 2) (z 3) (z 4))
  | _ => Err
  end.
(** The type-specific message: the first of the fields 2 to 9 that is there. *)
Fixpoint firstDetail (l : list Z) (fs : list wfield) : res (option detail) :=
  match l with
  | [] => Ok None
  | n :: r => match getB n fs with
              | Some b => let! d := decDetail n b in Ok (Some d)
              | None => firstDetail r fs
              end
  end.
Definition decStats (b : list Z) : res colstats :=
  let! fs := decMsg b in
  let! d := firstDetail [2; 3; 4; 5; 6; 7; 8; 9] fs in
  Ok {| cs_values := orZ (getV 1 fs); cs_hasNull := negb (orZ (getV 10 fs) =? 0); cs_bytes := orZ (getV 11 fs);
        cs_detail := d; cs_stray := false |}.

(** ** pb.Footer.  Only the first statistics of an index are ever [cs_stray]. *)
Definition marshalFooter (f : footer colstats) : res (list Z) :=
  if existsb cs_stray (f_stats f) then Err else
  let! is := mapM encInfo (f_stripes f) in
  let! ts := mapM encType (f_types f) in
  let! ss := mapM encStats (f_stats f) in
  encMsg ([WVar 1 (f_headerLength f); WVar 2 (f_contentLength f)] ++ map (WBytes 3) is ++ map (WBytes 4) ts
            ++ [WVar 6 (f_rows f)] ++ map (WBytes 7) ss
            ++ (if f_stride f =? 0 then [] else [WVar 8 (f_stride f)])).
Definition unmarshalFooter (b : list Z) : res (footer colstats) :=
  let! fs := decMsg b in
  let! is := mapM decInfo (allB 3 fs) in
  let! ts := mapM decType (allB 4 fs) in
  let! ss := mapM decStats (allB 7 fs) in
  Ok {| f_headerLength := orZ (getV 1 fs); f_contentLength := orZ (getV 2 fs); f_stripes := is; f_types := ts;
        f_rows := orZ (getV 6 fs); f_stats := ss; f_stride := orZ (getV 8 fs) |}.

(** ** pb.RowIndex *)
Definition encEntry (e : list Z * colstats) : res (list Z) :=
  if forallb isU64 (fst e) then
    let! s := encStats (snd e) in encMsg (pack 1 (fst e) ++ [WBytes 2 s])
  else Err.
Definition marshalIndex (l : list (list Z * colstats)) : res (list Z) :=
  let! es := mapM encEntry l in encMsg (map (WBytes 1) es).
(** What the reader uses of an entry: its positions (column/reader.go 61-75). *)
Definition decPositions (b : list Z) : res (list Z) :=
  let! fs := decMsg b in unpack (concat (allB 1 fs)).
Definition unmarshalIndex (b : list Z) : res (list (list Z)) :=
  let! fs := decMsg b in mapM decPositions (allB 1 fs).
