(** List and map columns: orc/column/list.go 13-110, map.go 13-128.
    Their readers hold readers of the elements behind the interface Reader (package.go
    22-40); here that interface is a type of states with the functions behind it, so that
    the elements may be of any kind, lists included (Tree.v).
    LIST and MAP columns cannot be written (package.go 279-292; NewListV2Writer, list.go
    189-206, returns a struct writer and is not called).  Lengths for which the machine has
    no memory are not treated. *)
From Verif.Model Require Import Go Codec ByteBool IntRle Chunk Stream Schema Time File Column.

Section Nested.
Variable inflate : list Z -> res (list Z).
Variable o : opts.

(** list.go 17-24, map.go 17-25, without the children. *)
Record listR := { ls_present : option boolReader; ls_length : option (vreader Z) }.

(** api.Value{} *)
Definition zeroValue : value := {| Null := false; V := GNil |}.
Definition setVals (v : vtree) (vals : list value) : vtree := match v with VT _ cs => VT vals cs end.

(** The null flag and the length of a row: list.go 53-68, map.go 61-76. *)
Definition listHead (r : listR) (old : bool) : res (option Z * listR) :=
  let! (null, p) := (match ls_present r with
                     | Some b => let! (x, b') := bool_Next inflate o b in Ok (negb x, Some b')
                     | None => Ok (old, None)
                     end) in
  if null then Ok (None, {| ls_present := p; ls_length := ls_length r |})
  else let! (n, l) := nextSecond inflate o DecodeUInt (ls_length r) in
       Ok (Some n, {| ls_present := p; ls_length := Some l |}).
(** The vector made for the elements of a row: list.go 70-79, map.go 78-89. *)
Definition elements (n : option Z) : list value :=
  match n with
  | None => [{| Null := true; V := GNil |}]
  | Some n => repeat zeroValue (Z.to_nat (i64 n))
  end.

Section List.
Variable C : Type.
Variable next : C -> vtree -> res (vtree * C).
Variable skip : Z -> C -> res C.

(** list.go 50-86: the rows, the vector of the child, the readers. *)
Fixpoint list_NextBatch (r : listR) (c : C) (vec : list value) (cv : vtree)
  : res (list value * vtree * listR * C) :=
  match vec with
  | [] => Ok ([], cv, r, c)
  | old :: t =>
      let! (n, r1) := listHead r (Null old) in
      let x := (match n with None => {| Null := true; V := V old |} | Some n => {| Null := false; V := GUint64 n |} end) in
      let! (cv1, c1) := next c (setVals cv (elements n)) in
      let! (xs, cv2, r2, c2) := list_NextBatch r1 c1 t cv1 in
      Ok (x :: xs, cv2, r2, c2)
  end.
(** list.go 88-110. *)
Fixpoint listSkip (n : nat) (r : listR) (c : C) : res (listR * C) :=
  match n with
  | O => Ok (r, c)
  | S m =>
      let! (l, r1) := listHead r false in
      let! c1 := (match l with None => Ok c | Some l => skip l c end) in
      listSkip m r1 c1
  end.
Definition list_Skip (rows : Z) (r : listR) (c : C) : res (listR * C) := listSkip (Z.to_nat (i64 rows)) r c.
End List.

Section Map.
Variables K W : Type.
Variable nextK : K -> vtree -> res (vtree * K).
Variable nextW : W -> vtree -> res (vtree * W).
Variable skipK : Z -> K -> res K.
Variable skipW : Z -> W -> res W.

(** map.go 58-99: the rows, the vectors of keys and values, the readers. *)
Fixpoint map_NextBatch (r : listR) (k : K) (w : W) (vec : list value) (kv wv : vtree)
  : res (list value * vtree * vtree * listR * K * W) :=
  match vec with
  | [] => Ok ([], kv, wv, r, k, w)
  | old :: t =>
      let! (n, r1) := listHead r (Null old) in
      let x := (match n with None => {| Null := true; V := V old |} | Some n => {| Null := false; V := GInt (i64 n) |} end) in
      let! (kv1, k1) := nextK k (setVals kv (elements n)) in
      let! (wv1, w1) := nextW w (setVals wv (elements n)) in
      let! (xs, kv2, wv2, r2, k2, w2) := map_NextBatch r1 k1 w1 t kv1 wv1 in
      Ok (x :: xs, kv2, wv2, r2, k2, w2)
  end.
(** map.go 117-124: for every entry of the map, as many keys and values as it has
    entries are skipped. *)
Fixpoint skipEntries (times : nat) (l : Z) (k : K) (w : W) : res (K * W) :=
  match times with
  | O => Ok (k, w)
  | S m => let! k1 := skipK l k in let! w1 := skipW l w in skipEntries m l k1 w1
  end.
(** map.go 101-128. *)
Fixpoint mapSkip (n : nat) (r : listR) (k : K) (w : W) : res (listR * K * W) :=
  match n with
  | O => Ok (r, k, w)
  | S m =>
      let! (l, r1) := listHead r false in
      let! (k1, w1) := (match l with None => Ok (k, w) | Some l => skipEntries (Z.to_nat (i64 l)) l k w end) in
      mapSkip m r1 k1 w1
  end.
Definition map_Skip (rows : Z) (r : listR) (k : K) (w : W) : res (listR * K * W) := mapSkip (Z.to_nat (i64 rows)) r k w.
End Map.

(** A leaf column behind the interface (a struct column is tree_NextBatch of Tree.v). *)
Definition leaf_next (c : colR) (v : vtree) : res (vtree * colR) :=
  match v with VT vals cs => let! (vals', c') := NextBatch inflate o c vals in Ok (VT vals' cs, c') end.
Definition leaf_skip (rows : Z) (c : colR) : res colR := Skip inflate o rows c.
(** A list or map column behind the interface.  Without a vector for the elements the
    first row panics, after its streams have been read. *)
Definition list_next {C} (next : C -> vtree -> res (vtree * C)) (s : listR * C) (v : vtree) : res (vtree * (listR * C)) :=
  let '(r, c) := s in
  let '(VT vals cs) := v in
  match cs with
  | cv :: cs =>
      let! (vals', cv', r', c') := list_NextBatch C next r c vals cv in Ok (VT vals' (cv' :: cs), (r', c'))
  | [] => match vals with [] => Ok (v, s) | old :: _ => let! _ := listHead r (Null old) in Panic end
  end.
Definition map_next {K W} (nextK : K -> vtree -> res (vtree * K)) (nextW : W -> vtree -> res (vtree * W))
    (s : listR * K * W) (v : vtree) : res (vtree * (listR * K * W)) :=
  let '(r, k, w) := s in
  let '(VT vals cs) := v in
  match cs with
  | kv :: wv :: cs =>
      let! (vals', kv', wv', r', k', w') := map_NextBatch K W nextK nextW r k w vals kv wv in
      Ok (VT vals' (kv' :: wv' :: cs), (r', k', w'))
  | _ => match vals with [] => Ok (v, s) | old :: _ => let! _ := listHead r (Null old) in Panic end
  end.
End Nested.
