(** Closing what a batch reader has opened: every InitStream of the column readers clones
    the file first (int.go 188 and the like), which opens a handle (io/file.go); Close
    walks over the readers.  Handles are counted, one for every Clone; the one of the
    file reader itself, which reader.go 108-112 closes, is not among them.
    An error of closing a handle is only logged. *)
From Verif.Model Require Import Go Codec ByteBool IntRle Chunk Stream Schema Rows File Column Wire Nested Tree Assembled.

(** x.Close() on a pointer: a nil one is dereferenced (stream/bool.go 53, byte.go 55, float.go
    54, int.go 113 and 142, string.go 57, time.go 26; stream/reader.go 164-168). *)
Definition closeStream {A} (s : option A) : res Z := match s with Some _ => Ok 1 | None => Panic end.
(** if x != nil { x.Close() } *)
Definition closeSome {A} (s : option A) : Z := match s with Some _ => 1 | None => 0 end.

(** bool.go 278-283, byte.go 268-273, float.go 157-162, int.go 323-328, time.go 272-277;
    binary.go 308-314, decimal.go 345-351, time.go 617-623 with a second stream;
    string.go 363-369 asks the schema. *)
Definition col_Close (c : colR) : res Z :=
  let! p := (match cr_kind c with
             | KString => if cr_hasNulls c then closeStream (cr_present c) else Ok 0
             | _ => Ok (closeSome (cr_present c))
             end) in
  let! d := closeStream (cr_data c) in
  let! s := (if hasSecond (cr_kind c) then closeStream (cr_second c) else Ok 0) in
  Ok (p + d + s).
(** string.go 534-541. *)
Definition dict_Close (d : dictR) : res Z :=
  let! a := closeStream (dr_data d) in
  let! b := closeStream (dr_dict d) in
  let! c := closeStream (dr_length d) in
  Ok (closeSome (dr_present d) + a + b + c).
(** struct.go 148-156, list.go 182-187 (not the child), map.go 208-214 (not the lengths). *)
Fixpoint tree_Close (t : ctree) : res Z :=
  let sub (c : option ctree) : res Z := match c with None => Panic | Some t => tree_Close t end in
  match t with
  | CLeaf c => col_Close c
  | CDict d => dict_Close d
  | CStruct present _ kids =>
      let! n := (fix go (ts : list ctree) : res Z :=
         match ts with
         | [] => Ok 0
         | t :: r => let! a := tree_Close t in let! b := go r in Ok (a + b)
         end) kids in
      Ok (closeSome present + n)
  | CList r _ _ => let! n := closeStream (ls_length r) in Ok (closeSome (ls_present r) + n)
  | CMap r _ k w => let! a := sub k in let! b := sub w in Ok (closeSome (ls_present r) + a + b)
  end.
(** stripe.go 390-392, reader.go 166-170. *)
Definition stripe_Close (s : stripeRd) : res Z := match sr_tree s with None => Panic | Some t => tree_Close t end.
Fixpoint stripes_Close (l : list stripeRd) : res Z :=
  match l with
  | [] => Ok 0
  | s :: r => let! a := stripe_Close s in let! b := stripes_Close r in Ok (a + b)
  end.
Definition batch_Close (b : batchRd) : res Z := stripes_Close (br_stripes b).

(** The handles opened by stripe.go 263-287, also when it fails: Clone comes before
    anything that may fail.  (Clone itself and the seek behind it do not fail here.) *)
Section Opening.
Variable inflate : list Z -> res (list Z).
Variable o : opts.
Variable nodes : list node.
Variable hasNulls : list bool.
Variable bopt : batchOption.
Fixpoint initClones (file : list Z) (rs : list (option anyR)) (l : list (strm * Z)) : Z :=
  match l with
  | [] => 0
  | (s, start) :: t =>
      let id := Z.to_nat (st_column s) in
      match nth_error rs id with
      | None => 0
      | Some None => initClones file rs t
      | Some (Some r) =>
          let next (x : res anyR) : Z :=
            match x with Ok r' => initClones file (set_nth rs id (Some r')) t | _ => 0 end in
          if st_kind s =? 6 then next (any_InitIndex inflate o file r start (st_length s))
          else 1 + next (any_InitStream file r s start)
      end
  end.
Definition stripeClones (file : list Z) (x : list Z * list (strm * Z)) : Z :=
  match newReaders bopt 0 nodes hasNulls (fst x) with Ok rs => initClones file rs (snd x) | _ => 0 end.
(** reader.go 128-140.  If a stripe cannot be set up those behind it are not tried. *)
Fixpoint stripesClones (file : list Z) (l : list stripeInfo) (xs : list (list Z * list (strm * Z))) : Z :=
  match l, xs with
  | i :: l', x :: xs' =>
      stripeClones file x +
      match newStripeRd inflate o nodes hasNulls bopt file (NumberOfRows i) x with
      | Ok _ => stripesClones file l' xs' | _ => 0 end
  | _, _ => 0
  end.
End Opening.
(** The handles opened by CreateBatchReader, reader.go 78-91, of a file all of whose stripe
    footers can be read (the footer of a stripe is read after the stripe before it was set
    up; if that fails the handles of the stripes before it are not counted here). *)
Definition batchClones (inflate : list Z -> res (list Z)) (bopt : batchOption) (file : list Z) : Z :=
  match newFileReader inflate cs_hasNull unmarshalPS unmarshalFooter file with
  | Ok r =>
      match CreateBatchReader inflate unmarshalSF (RowSize bopt) file r with
      | Ok xs => stripesClones inflate (readerOpts r) (fr_nodes r) (fr_hasNulls r) bopt file (fr_stripes r) xs
      | _ => 0
      end
  | _ => 0
  end.
