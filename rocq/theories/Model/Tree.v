(** The tree of column readers of a stripe: struct.go 15-156, and the readers of Column.v
    and Nested.v below one another.
    A child that was never attached is None, and every call of it panics; only lists and
    maps can be without (orc/stripe.go 289-314). *)
From Verif.Model Require Import Go Codec ByteBool IntRle Chunk Stream Schema Time File Column Nested.

Section Tree.
Variable inflate : list Z -> res (list Z).
Variable o : opts.

Inductive ctree :=
| CLeaf (c : colR)
| CDict (d : dictR)
| CStruct (present : option boolReader) (index : option (list (list Z))) (cs : list ctree)
| CList (r : listR) (index : option (list (list Z))) (child : option ctree)
| CMap (r : listR) (index : option (list (list Z))) (key value : option ctree).

Fixpoint depth (t : ctree) : nat :=
  let sub (c : option ctree) := match c with Some t => depth t | None => O end in
  match t with
  | CLeaf _ | CDict _ => 1
  | CStruct _ _ cs => S (fold_right (fun t n => Nat.max (depth t) n) O cs)
  | CList _ _ c => S (sub c)
  | CMap _ _ k w => S (Nat.max (sub k) (sub w))
  end.

Fixpoint readNulls (b : boolReader) (vec : list value) : res (list value * boolReader) :=
  match vec with
  | [] => Ok ([], b)
  | x :: r => let! (p, b1) := bool_Next inflate o b in let! (xs, b2) := readNulls b1 r in
              Ok ({| Null := negb p; V := V x |} :: xs, b2)
  end.
(** c.Vector[i].Null = v.Null for every row of the parent; a shorter child panics. *)
Fixpoint copyNulls (from to : list value) : res (list value) :=
  match from, to with
  | [], _ => Ok to
  | _ :: _, [] => Panic
  | x :: r, y :: s => let! t := copyNulls r s in Ok ({| Null := Null x; V := V y |} :: t)
  end.
(** struct.go 139-146, for one child: its Null flags become the parent's, then its
    own children follow. *)
Fixpoint fillNulls (parent : list value) (v : vtree) : res vtree :=
  match v with
  | VT vals cs =>
      let! vals' := copyNulls parent vals in
      let! cs' := (fix go (l : list vtree) : res (list vtree) :=
         match l with
         | [] => Ok []
         | c :: r => let! c' := fillNulls vals' c in let! r' := go r in Ok (c' :: r')
         end) cs in
      Ok (VT vals' cs')
  end.


(** A call of a child that may be nil. *)
Definition onChild (f : ctree -> vtree -> res (vtree * ctree)) (c : option ctree) (v : vtree) : res (vtree * option ctree) :=
  match c with None => Panic | Some t => let! (v', t') := f t v in Ok (v', Some t') end.
(** The children of a struct, struct.go 131-135.  A batch with fewer children than the
    column panics. *)
Fixpoint nextKids (f : ctree -> vtree -> res (vtree * ctree)) (ts : list ctree) (vs : list vtree) : res (list vtree * list ctree) :=
  match ts, vs with
  | [], _ => Ok (vs, [])
  | _ :: _, [] => Panic
  | t :: ts', v :: vs' =>
      let! (v', t') := f t v in
      let! (vs'', ts'') := nextKids f ts' vs' in Ok (v' :: vs'', t' :: ts'')
  end.
(** NextBatch, calling the children by [next]; struct.go 119-137 for structs. *)
Definition nextStep (next : ctree -> vtree -> res (vtree * ctree)) (t : ctree) (v : vtree) : res (vtree * ctree) :=
  match t, v with
  | CLeaf c, VT vals cs => let! (vals', c') := NextBatch inflate o c vals in Ok (VT vals' cs, CLeaf c')
  | CDict d, VT vals cs => let! (vals', d') := dict_NextBatch inflate o d vals in Ok (VT vals' cs, CDict d')
  | CStruct present index kids, VT vals cs =>
      let! (vals', cs', present') :=
        (match present with
         | None => Ok (vals, cs, None)
         | Some b =>
             let! (vals', b') := readNulls b vals in
             let! cs' := mapM (fillNulls vals') cs in
             Ok (vals', cs', Some b')
         end) in
      let! (cs'', kids') := nextKids next kids cs' in
      Ok (VT vals' cs'', CStruct present' index kids')
  | CList r index c, _ =>
      let! (v', (r', c')) := list_next inflate o (onChild next) (r, c) v in Ok (v', CList r' index c')
  | CMap r index k w, _ =>
      let! (v', (r', k', w')) := map_next inflate o (onChild next) (onChild next) (r, k, w) v in
      Ok (v', CMap r' index k' w')
  end.
(** [fuel]: the number of levels of the tree. *)
Fixpoint nextF (fuel : nat) (t : ctree) (v : vtree) : res (vtree * ctree) :=
  match fuel with O => Panic | S f => nextStep (nextF f) t v end.
Definition tree_NextBatch (t : ctree) (v : vtree) : res (vtree * ctree) := nextF (depth t) t v.

(** Skipping.  Every Skip is a loop over the rows; here one row is skipped, and the whole
    tree repeats it. *)
Fixpoint times {A} (f : A -> res A) (n : nat) (x : A) : res A :=
  match n with O => Ok x | S m => let! y := f x in times f m y end.
Definition skipChild (f : ctree -> res ctree) (rows : Z) (c : option ctree) : res (option ctree) :=
  match c with None => Panic | Some t => let! t' := times f (Z.to_nat (i64 rows)) t in Ok (Some t') end.
(** struct.go 97-117: the children skip only the rows that are present. *)
Fixpoint skipKids (f : ctree -> res ctree) (ts : list ctree) : res (list ctree) :=
  match ts with
  | [] => Ok []
  | t :: r => let! t' := f t in let! r' := skipKids f r in Ok (t' :: r')
  end.
Definition skipStep (skip : ctree -> res ctree) (t : ctree) : res ctree :=
  match t with
  | CLeaf c => let! c' := Skip inflate o 1 c in Ok (CLeaf c')
  | CDict d => let! d' := dict_Skip1 inflate o d in Ok (CDict d')
  | CStruct present index kids =>
      let! (p, present') := (match present with
                             | None => Ok (true, None)
                             | Some b => let! (p, b') := bool_Next inflate o b in Ok (p, Some b')
                             end) in
      let! kids' := (if p then skipKids skip kids else Ok kids) in
      Ok (CStruct present' index kids')
  | CList r index c =>
      let! (r', c') := listSkip inflate o (option ctree) (skipChild skip) 1 r c in Ok (CList r' index c')
  | CMap r index k w =>
      let! (r', k', w') := mapSkip inflate o (option ctree) (option ctree) (skipChild skip) (skipChild skip) 1 r k w in
      Ok (CMap r' index k' w')
  end.
Fixpoint skipF (fuel : nat) (t : ctree) : res ctree :=
  match fuel with O => Panic | S f => skipStep (skipF f) t end.
Definition tree_Skip1 (t : ctree) : res ctree := skipF (depth t) t.
Definition treeSkip (n : nat) (t : ctree) : res ctree := times tree_Skip1 n t.
Definition tree_Skip (rows : Z) (t : ctree) : res ctree := treeSkip (Z.to_nat (i64 rows)) t.

(** The streams of a list or map: list.go 112-174, map.go 130-205 without the children.
    All positions are fetched before the first seek. *)
Definition list_seekTo (pp lp : list Z) (r : listR) : res listR :=
  let! p := (match ls_present r with Some b => let! b' := seekBool inflate o pp b in Ok (Some b') | None => Ok None end) in
  match ls_length r with
  | None => Panic
  | Some l => let! l' := seekRun inflate o DecodeUInt lp l in Ok {| ls_present := p; ls_length := Some l' |}
  end.
Definition list_SeekStride (index : option (list (list Z))) (stride : Z) (r : listR) : res listR :=
  if stride =? 0 then list_seekTo [0; 0; 0; 0] [0; 0; 0] r
  else
    let! l := strideEntry index stride in
    let! pp := (match ls_present r with Some _ => streamPos o 2 l 0 | None => Ok [] end) in
    let! lp := streamPos o 1 l (match ls_present r with Some _ => width o 2 | None => O end) in
    list_seekTo pp lp r.
(** struct.go 50-95 for structs. *)
Fixpoint tree_SeekStride (stride : Z) (t : ctree) : res ctree :=
  let sub (c : option ctree) : res (option ctree) :=
    match c with None => Panic | Some t => let! t' := tree_SeekStride stride t in Ok (Some t') end in
  match t with
  | CLeaf c => let! c' := SeekStride inflate o stride c in Ok (CLeaf c')
  | CDict d => let! d' := dict_SeekStride inflate o stride d in Ok (CDict d')
  | CStruct present index kids =>
      let! present' :=
        (match present with
         | None => Ok None
         | Some b =>
             let! p := (if stride =? 0 then Ok [0; 0; 0; 0]
                        else let! l := strideEntry index stride in streamPos o 2 l 0) in
             let! b' := seekBool inflate o p b in Ok (Some b')
         end) in
      let! kids' := (fix go (ts : list ctree) : res (list ctree) :=
         match ts with
         | [] => Ok []
         | t :: r => let! t' := tree_SeekStride stride t in let! r' := go r in Ok (t' :: r')
         end) kids in
      Ok (CStruct present' index kids')
  | CList r index c =>
      let! r' := list_SeekStride index stride r in
      let! c' := sub c in Ok (CList r' index c')
  | CMap r index k w =>
      let! r' := list_SeekStride index stride r in
      let! k' := sub k in let! w' := sub w in Ok (CMap r' index k' w')
  end.
End Tree.
