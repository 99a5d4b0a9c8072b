(** The batch reader built from the concrete column readers: orc/stripe.go 181-388 and
    orc/reader.go 78-197.

    - The readers form a tree: two columns naming the same child (possible only in a
      foreign file) would share a reader in Go and have one each here.
    - The vectors below a LIST or MAP vector are emptied before every use and grow by
      append; how far their capacities grow is not modelled.  A nil child vector is left
      out of a batch here, where Clear of a batch with one panics in Go (C47).
    - An index stream is read where it is listed; the reader's file position is not
      shared with the stream readers, which work on clones. *)
From Verif.Model Require Import Go Codec ByteBool IntRle Chunk Stream Schema Rows Time File Column Wire Nested Tree.

(** ** Batches with their backing arrays: api/vector.go 39-78 *)
(** A slice is the elements within its length and those behind, up to its capacity; a
    nil slice is [None]. *)
Inductive bvec := BVec (id : Z) (kind : tkind) (vals : option (list value * list value)) (children : list bvec).
Definition bv_id (v : bvec) : Z := let (i, _, _, _) := v in i.
Definition bv_vals (v : bvec) : option (list value * list value) := let (_, _, l, _) := v in l.
Definition bv_children (v : bvec) : list bvec := let (_, _, _, c) := v in c.

(** s[:n]; beyond the capacity it panics.  A nil slice can only be cut to length 0. *)
Definition reslice (n : Z) (s : option (list value * list value)) : res (option (list value * list value)) :=
  match s with
  | None => if n =? 0 then Ok None else Panic
  | Some (a, b) => if (n <? 0) || (zlen (a ++ b) <? n) then Panic
                   else Ok (Some (ztake n (a ++ b), zdrop n (a ++ b)))
  end.
(** vector.go 48-53. *)
Definition clearVals (s : option (list value * list value)) : option (list value * list value) :=
  match s with None => None | Some (a, b) => Some ([], a ++ b) end.
Fixpoint Clear (v : bvec) : bvec :=
  match v with BVec i k s cs => BVec i k (clearVals s) (map Clear cs) end.
(** vector.go 55-66. *)
Fixpoint Len (v : bvec) : Z :=
  match v with
  | BVec _ _ (Some (x :: l, _)) _ => zlen (x :: l)
  | BVec _ _ _ (c :: _) => Len c
  | BVec _ _ _ [] => 0
  end.
(** vector.go 68-77. *)
Fixpoint Cap (v : bvec) : Z :=
  match v with
  | BVec _ _ (Some (a, b)) _ => zlen (a ++ b)
  | BVec _ _ None (c :: _) => Cap c
  | BVec _ _ None [] => 0
  end.

(** ** Stripes *)
Section Reading.
Variable inflate : list Z -> res (list Z).
(** config.ReaderOptions; WriteIndex plays no role in reading. *)
Variable o : opts.
Variable nodes : list node.
(** HasNulls of the schemas, from the footer's statistics (reader.go 58-60). *)
Variable hasNulls : list bool.
Variable bopt : batchOption.

(** The readers before they are put into one another.  Those of lists and maps have no
    children yet; nor has that of a struct, which is an RCol of kind KStruct. *)
Inductive anyR :=
| RCol (c : colR)
| RDict (d : dictR)
| RList (r : listR) (index : option (list (list Z)))
| RMap (hasNulls : bool) (r : listR) (index : option (list (list Z))).
Definition newListR : listR := {| ls_present := None; ls_length := None |}.
(** package.go 69-199. *)
Definition newAnyR (k : tkind) (encoding : Z) (h : bool) : res anyR :=
  match k with
  | LIST => if encoding =? 2 then Ok (RList newListR None) else Err
  | MAP => if encoding =? 2 then Ok (RMap h newListR None) else Err
  | _ => let! c := readerKind k encoding in
         Ok (match c with KDict => RDict (newDictR h) | _ => RCol (newColR c h) end)
  end.

(** stripe.go 246-261: the readers of the included columns. *)
Fixpoint newReaders (i : Z) (ns : list node) (hs : list bool) (encs : list Z) : res (list (option anyR)) :=
  match ns, hs with
  | n :: ns', h :: hs' =>
      let! r := (if IsInclude bopt i then
                   match encs with
                   | e :: _ => let! x := newAnyR (n_kind n) e h in Ok (Some x)
                   | [] => Panic
                   end
                 else Ok None) in
      let! rs := newReaders (i + 1) ns' hs' (tl encs) in Ok (r :: rs)
  | _, _ => Ok []
  end.

(** column/reader.go 33-60. *)
Definition readIndex (file : list Z) (start length : Z) : res (list (list Z)) :=
  if i64 start <? 0 then Err else
  if zlen (zdrop (i64 start) file) <? length then Err else
  let! buf := (match CompressionKind o with
               | NONE => Ok (ztake length (zdrop (i64 start) file))
               | k => DecompressChunks inflate k (ztake length (zdrop (i64 start) file)) end) in
  unmarshalIndex buf.
Definition InitIndex (file : list Z) (c : colR) (start length : Z) : res colR :=
  let! l := readIndex file start length in Ok (setIndex l c).
Definition any_InitIndex (file : list Z) (r : anyR) (start length : Z) : res anyR :=
  match r with
  | RCol c => let! c' := InitIndex file c start length in Ok (RCol c')
  | RDict d => let! l := readIndex file start length in Ok (RDict (dict_setIndex l d))
  | RList x _ => let! l := readIndex file start length in Ok (RList x (Some l))
  | RMap h x _ => let! l := readIndex file start length in Ok (RMap h x (Some l))
  end.
(** list.go 26-44, map.go 35-56: only the map looks at HasNulls. *)
Definition list_InitStream (file : list Z) (needsNulls : bool) (x : listR) (s : strm) (start : Z) : res listR :=
  let r := newReader file start (st_length s) in
  if st_kind s =? sPRESENT then
    (if needsNulls then Err else Ok {| ls_present := Some (newBoolReader r); ls_length := ls_length x |})
  else if st_kind s =? sLENGTH then Ok {| ls_present := ls_present x; ls_length := Some (newVreader r) |}
  else Err.
Definition any_InitStream (file : list Z) (r : anyR) (s : strm) (start : Z) : res anyR :=
  match r with
  | RCol c => let! c' := InitStream file c s start in Ok (RCol c')
  | RDict d => let! d' := dict_InitStream file d s start in Ok (RDict d')
  | RList x i => let! x' := list_InitStream file false x s start in Ok (RList x' i)
  | RMap h x i => let! x' := list_InitStream file (negb h) x s start in Ok (RMap h x' i)
  end.

(** stripe.go 263-287. *)
Fixpoint initAll (file : list Z) (rs : list (option anyR)) (l : list (strm * Z)) : res (list (option anyR)) :=
  match l with
  | [] => Ok rs
  | (s, start) :: t =>
      let id := Z.to_nat (st_column s) in
      match nth_error rs id with
      | None => Panic
      | Some None => initAll file rs t
      | Some (Some r) =>
          let! r' := (if st_kind s =? 6 then any_InitIndex file r start (st_length s)
                      else any_InitStream file r s start) in
          initAll file (set_nth rs id (Some r')) t
      end
  end.

(** stripe.go 289-314: attaching a child to a column that has no reader panics; only
    structs, lists and maps have children, maps at most two. *)
Fixpoint checkChildren (k : tkind) (parent : bool) (j : Z) (l : list Z) : res unit :=
  match l with
  | [] => Ok tt
  | c :: t =>
      let! _ := (if IsInclude bopt c then
                   match k with
                   | STRUCT | LIST => if parent then Ok tt else Panic
                   | MAP => if j <=? 1 then (if parent then Ok tt else Panic) else Err
                   | _ => Err
                   end
                 else Ok tt) in
      checkChildren k parent (j + 1) t
  end.
Fixpoint checkParents (i : Z) (ns : list node) : res unit :=
  match ns with
  | [] => Ok tt
  | n :: ns' =>
      let! _ := checkChildren (n_kind n) (IsInclude bopt i) 0 (n_sub n) in checkParents (i + 1) ns'
  end.
(** The child attached last: that of a list (SetChild overwrites). *)
Definition lastIncluded (l : list Z) : option Z :=
  fold_left (fun a c => if IsInclude bopt c then Some c else a) l None.
(** The child attached as number [j]: key and value of a map. *)
Definition includedAt (j : nat) (l : list Z) : option Z :=
  match nth_error l j with Some c => if IsInclude bopt c then Some c else None | None => None end.
(** The tree below reader [i]; [fuel]: number of levels. *)
Fixpoint buildTree (fuel : nat) (rs : list (option anyR)) (i : Z) : res ctree :=
  match fuel with
  | O => Err
  | S f =>
      match nth_error nodes (Z.to_nat i), nth_error rs (Z.to_nat i) with
      | Some n, Some (Some r) =>
          let fix go (l : list Z) : res (list ctree) :=
            match l with
            | [] => Ok []
            | c :: t => if IsInclude bopt c
                        then let! x := buildTree f rs c in let! y := go t in Ok (x :: y)
                        else go t
            end in
          let sub (c : option Z) : res (option ctree) :=
            match c with None => Ok None | Some c => let! t := buildTree f rs c in Ok (Some t) end in
          match r with
          | RCol c =>
              match cr_kind c with
              | KStruct => let! kids := go (n_sub n) in Ok (CStruct (cr_present c) (cr_index c) kids)
              | _ => Ok (CLeaf c)
              end
          | RDict d => Ok (CDict d)
          | RList x index => let! t := sub (lastIncluded (n_sub n)) in Ok (CList x index t)
          | RMap _ x index =>
              let! k := sub (includedAt 0 (n_sub n)) in
              let! w := sub (includedAt 1 (n_sub n)) in Ok (CMap x index k w)
          end
      | _, _ => Panic
      end
  end.
(** The first included column becomes the stripe's reader; none: a nil reader. *)
Fixpoint firstReader (i : Z) (rs : list (option anyR)) : option Z :=
  match rs with
  | [] => None
  | Some _ :: _ => Some i
  | None :: t => firstReader (i + 1) t
  end.

(** stripe.go 181-201: numberOfRows, cursor, columnReader. *)
Record stripeRd := { sr_rows : Z; sr_cursor : Z; sr_tree : option ctree }.
(** stripe.go 203-219 after the footer has been read ([openStripe] of File.v). *)
Definition newStripeRd (file : list Z) (rows : Z) (x : list Z * list (strm * Z)) : res stripeRd :=
  let! rs := newReaders 0 nodes hasNulls (fst x) in
  let! rs' := initAll file rs (snd x) in
  let! _ := checkParents 0 nodes in
  let! t := (match firstReader 0 rs' with
             | None => Ok None
             | Some i => let! t := buildTree (length nodes) rs' i in Ok (Some t)
             end) in
  Ok {| sr_rows := rows; sr_cursor := 0; sr_tree := t |}.

(** stripe.go 341-366. *)
Definition truncate (v : bvec) : bvec :=
  match v with BVec i k s cs => BVec i k (clearVals s) cs end.
Fixpoint setVectorSize (size : Z) (v : bvec) : res bvec :=
  match v with
  | BVec i k s cs =>
      match k with
      | STRUCT =>
          match nth_error hasNulls (Z.to_nat i) with
          | None => Panic
          | Some h =>
              let! s' := (if h then reslice size s else Ok s) in
              let! cs' := (fix go (l : list bvec) : res (list bvec) :=
                 match l with
                 | [] => Ok []
                 | c :: r => let! c' := setVectorSize size c in let! r' := go r in Ok (c' :: r')
                 end) cs in
              Ok (BVec i k s' cs')
          end
      | LIST =>
          let! s' := reslice size s in
          match cs with c :: r => Ok (BVec i k s' (truncate c :: r)) | [] => Panic end
      | MAP =>
          let! s' := reslice size s in
          match cs with c :: d :: r => Ok (BVec i k s' (truncate c :: truncate d :: r)) | _ => Panic end
      | UNION => Panic
      | _ => let! s' := reslice size s in Ok (BVec i k s' cs)
      end
  end.

(** NextBatch works on the elements within the lengths, in place; only below lists and
    maps does it change a length. *)
Fixpoint view (v : bvec) : vtree :=
  match v with
  | BVec _ _ s cs => VT (match s with Some (a, _) => a | None => [] end) (map view cs)
  end.
Definition putVals (s : option (list value * list value)) (l : list value) : option (list value * list value) :=
  match s with
  | Some (a, b) => Some (l, zdrop (zlen l) (a ++ b))
  | None => match l with [] => None | _ => Some (l, []) end
  end.
Fixpoint put (v : bvec) (t : vtree) : bvec :=
  match v, t with
  | BVec i k s cs, VT l ts =>
      BVec i k (putVals s l)
        ((fix go (cs : list bvec) (ts : list vtree) : list bvec :=
            match cs, ts with
            | c :: cs', t :: ts' => put c t :: go cs' ts'
            | _, _ => cs
            end) cs ts)
  end.

(** stripe.go 319-339.  A nil reader is dereferenced. *)
Definition stripeNext (s : stripeRd) (v : bvec) : res (stripeRd * bvec * bool) :=
  let page := Cap v - Len v in
  let left := i64 (u64 (sr_rows s - sr_cursor s)) in
  let page := if left <? page then left else page in
  let! v1 := setVectorSize page v in
  match sr_tree s with
  | None => Panic
  | Some t =>
      let! (x, t') := tree_NextBatch inflate o t (view v1) in
      let v2 := put v1 x in
      let cursor := u64 (sr_cursor s + Len v2) in
      Ok ({| sr_rows := sr_rows s; sr_cursor := cursor; sr_tree := Some t' |}, v2,
          sr_rows s <=? u64 (cursor + 1))
  end.

(** ** The batch reader *)
(** reader.go 113-126. *)
Record batchRd := { br_stripes : list stripeRd; br_index : nat; br_total : Z; br_cursor : Z }.

(** reader.go 179-191; [fuel] bounds the number of rounds. *)
Fixpoint readLoop (fuel : nat) (ss : list stripeRd) (i : nat) (v : bvec) : res (list stripeRd * nat * bvec) :=
  match fuel with
  | O => Err
  | S f =>
      match nth_error ss i with
      | None => if (length ss <? i)%nat then Panic else Ok (ss, i, v)
      | Some s =>
          let! (s', v', stripeEnd) := stripeNext s v in
          let ss' := set_nth ss i s' in
          if (stripeEnd : bool) then Ok (ss', S i, v')
          else if Cap v' <=? Len v' then Ok (ss', i, v')
          else readLoop f ss' i v'
      end
  end.
(** reader.go 172-197. *)
Definition readNext (b : batchRd) (v : bvec) : res (batchRd * bvec * bool) :=
  let v := Clear v in
  if u64 (br_total b - 1) <=? br_cursor b then Ok (b, v, true)
  else
    let! (ss, i, v) := readLoop (S (length (br_stripes b))) (br_stripes b) (br_index b) v in
    let i' := stepBack i (length ss) in
    let cursor := u64 (br_cursor b + Len v) in
    Ok ({| br_stripes := ss; br_index := i'; br_total := br_total b; br_cursor := cursor |}, v,
        u64 (br_total b - 1) <=? cursor).

(** stripe.go 369-388.  The outer [stride] stays 0, the inner declaration shadows it.
    Integer division by zero panics, and so does a nil reader. *)
Definition stripeSeek (IndexStride : Z) (s : stripeRd) (rowNumber : Z) : res stripeRd :=
  let! offset := (if rowNumber <? u64 IndexStride then Ok rowNumber
                  else if u64 IndexStride =? 0 then Panic
                  else let stride := rowNumber / u64 IndexStride in
                       if u64 (stride * u64 IndexStride) =? 0 then Panic
                       else Ok (rowNumber mod u64 (stride * u64 IndexStride))) in
  match sr_tree s with
  | None => Panic
  | Some t =>
      let! t1 := tree_SeekStride inflate o 0 t in
      let! t2 := tree_Skip inflate o offset t1 in
      Ok {| sr_rows := sr_rows s; sr_cursor := sr_cursor s; sr_tree := Some t2 |}
  end.
(** reader.go 199-212: neither the stripe index nor the cursor is set when the row is
    found; when it is not, the cursor is set and an error returned. *)
Fixpoint seekStripes (IndexStride row before : Z) (ss : list stripeRd) : res (list stripeRd) :=
  match ss with
  | [] => Err
  | s :: r =>
      if row <? u64 (before + sr_rows s)
      then let! s' := stripeSeek IndexStride s (u64 (row - before)) in Ok (s' :: r)
      else let! r' := seekStripes IndexStride row (u64 (before + sr_rows s)) r in Ok (s :: r')
  end.
Definition readSeek (IndexStride : Z) (b : batchRd) (row : Z) : res batchRd :=
  if br_total b <? row then Err
  else
    let! ss := seekStripes IndexStride row 0 (br_stripes b) in
    Ok {| br_stripes := ss; br_index := br_index b; br_total := br_total b; br_cursor := br_cursor b |}.

(** reader.go 128-140: one stripe after the other, the footer first. *)
Fixpoint openStripes (file : list Z) (l : list stripeInfo) : res (list stripeRd) :=
  match l with
  | [] => Ok []
  | i :: l' =>
      if NumberOfRows i =? 0 then Err else
      let! x := openStripe inflate unmarshalSF (CompressionKind o) file i in
      let! s := newStripeRd file (NumberOfRows i) x in
      let! r := openStripes file l' in Ok (s :: r)
  end.
End Reading.

(** reader.go 61-66: the options of a reader. *)
Definition readerOpts {ST} (r : fileR ST) : opts :=
  {| CompressionKind := fr_kind r; ChunkSize := fr_chunkSize r; WriteIndex := false |}.

(** reader.go 43-90: open a file and create a batch reader. *)
Definition openBatches (inflate : list Z -> res (list Z)) (bopt : batchOption) (file : list Z)
  : res (fileR colstats * batchRd) :=
  let! r := newFileReader inflate cs_hasNull unmarshalPS unmarshalFooter file in
  if RowSize bopt =? 0 then Err else
  let! ss := openStripes inflate (readerOpts r) (fr_nodes r) (fr_hasNulls r) bopt file (fr_stripes r) in
  Ok (r, {| br_stripes := ss; br_index := 0; br_total := fr_rows r; br_cursor := 0 |}).
(** Next of a batch reader opened that way. *)
Definition batchNext (inflate : list Z -> res (list Z)) (r : fileR colstats) (b : batchRd) (v : bvec)
  : res (batchRd * bvec * bool) :=
  readNext inflate (readerOpts r) (fr_hasNulls r) b v.
(** Seek of a batch reader opened that way; reader.go 50: the stride of the footer. *)
Definition batchSeek (inflate : list Z -> res (list Z)) (r : fileR colstats) (b : batchRd) (row : Z) : res batchRd :=
  readSeek inflate (readerOpts r) (i64 (fr_stride r)) b row.

(** api/type.go 57-120: the values a vector made by CreateVector starts with. *)
Definition initialValue (k : tkind) : value :=
  {| Null := false; V := match k with
                         | DECIMAL => GDecimal 0 0
                         | TIMESTAMP => GTimestamp {| ts_loc := 0; ts_seconds := 0; ts_nanos := 0 |}
                         | _ => GNil end |}.
(** The batch behind a [vec] of Schema.v, which has a length for an allocated slice and 0
    for nil.  nil children occur below LIST and MAP only (C47); they are dropped. *)
Fixpoint batchOf (v : vec) : bvec :=
  match v with
  | Vec i k rows cs =>
      BVec i k (if rows =? 0 then None else Some (repeat (initialValue k) (Z.to_nat rows), []))
        (flat_map (fun c => match c with Some w => [batchOf w] | None => [] end) cs)
  end.
