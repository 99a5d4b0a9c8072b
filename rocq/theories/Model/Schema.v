(** Schemas: orc/api/type.go, and unmarshallSchema of orc/reader.go 214-232.

    A *TypeDescription tree is an inductive tree: sharing a node between two places is
    not modelled.  A Go string is the list of its bytes. *)
From Verif.Model Require Import Go.

(** pb.Type_Kind. *)
Inductive tkind := BOOLEAN | BYTE | SHORT | INT | LONG | FLOAT | DOUBLE | STRING | BINARY
  | TIMESTAMP | LIST | MAP | STRUCT | UNION | DECIMAL | DATE | VARCHAR | CHAR | TIMESTAMP_INSTANT.

Definition isUnion (k : tkind) : bool := match k with UNION => true | _ => false end.
Definition isStruct (k : tkind) : bool := match k with STRUCT => true | _ => false end.
Definition isCompound (k : tkind) : bool :=
  match k with STRUCT | UNION | MAP | LIST => true | _ => false end.

(** type.go 12-21. *)
Inductive td := Td (id : Z) (kind : tkind) (names : list (list Z)) (enc : Z) (hasNulls : bool)
                   (children : list td).
Definition td_id (t : td) : Z := let (i, _, _, _, _, _) := t in i.
Definition td_kind (t : td) : tkind := let (_, k, _, _, _, _) := t in k.
Definition td_names (t : td) : list (list Z) := let (_, _, n, _, _, _) := t in n.
Definition td_enc (t : td) : Z := let (_, _, _, e, _, _) := t in e.
Definition td_hasNulls (t : td) : bool := let (_, _, _, _, h, _) := t in h.
Definition td_children (t : td) : list td := let (_, _, _, _, _, c) := t in c.

(** type.go 41-44. *)
Definition AddChild (t : td) (name : list Z) (c : td) : td :=
  let (i, k, n, e, h, cs) := t in Td i k (n ++ [name]) e h (cs ++ [c]).

Definition u32 (x : Z) : Z := x mod 4294967296.

(** type.go 272-291 with the action addId (212-216): the tree with ids assigned from
    the counter [n] on, and the counter afterwards. *)
Fixpoint addIds (n : Z) (t : td) : td * Z :=
  let (_, k, ns, e, h, cs) := t in
  let fix go (m : Z) (l : list td) : list td * Z :=
    match l with
    | [] => ([], m)
    | c :: r => let (c', m1) := addIds m c in let (r', m2) := go m1 r in (c' :: r', m2)
    end in
  let (cs', m) := go (u32 (n + 1)) cs in (Td n k ns e h cs', m).

(** type.go 287-289: traverse fails iff it meets a UNION. *)
Fixpoint hasUnion (t : td) : bool :=
  isUnion (td_kind t) || existsb hasUnion (let (_, _, _, _, _, cs) := t in cs).

(** type.go 220-223 and 293-298. *)
Definition NormalizeSchema (t : td) : res td :=
  if hasUnion t then Err else Ok (fst (addIds 0 t)).

(** type.go 266-291: traverse with addSchema. *)
Fixpoint flatten (t : td) : list td :=
  t :: (let (_, _, _, _, _, cs) := t in flat_map flatten cs).

(** type.go 203-210: every node below the root must have a non-zero id. *)
Definition CheckId (t : td) : bool :=
  forallb (fun c => negb (hasUnion c) && forallb (fun x => negb (td_id x =? 0)) (flatten c))
          (td_children t).

(** type.go 254-264. *)
Definition Flat (t : td) : res (list td) :=
  if CheckId t then if hasUnion t then Err else Ok (flatten t) else Err.

(** pb.Type: kind, subtypes, field names. *)
Record pbType := { t_kind : tkind; t_sub : list Z; t_names : list (list Z) }.

(** type.go 316-328. *)
Definition SchemasToTypes (l : list td) : list pbType :=
  map (fun v => {| t_kind := td_kind v; t_sub := map td_id (td_children v);
                   t_names := td_names v |}) l.

(** reader.go 214-232.  The result is an array of nodes whose children are pointers to
    other nodes of the array: a node is its kind, the names and the indices of its
    children; its id is its index.  A field name or node index out of range panics. *)
Record node := { n_kind : tkind; n_names : list (list Z); n_sub : list Z }.
Definition unmarshallNode (n : Z) (t : pbType) : res node :=
  match t_sub t with
  | [] => Ok {| n_kind := t_kind t; n_names := []; n_sub := [] |}
  | _ =>
      if isStruct (t_kind t) && (length (t_names t) <? length (t_sub t))%nat then Panic
      else if forallb (fun s => s <? n) (t_sub t) then
        Ok {| n_kind := t_kind t;
              n_names := (if isStruct (t_kind t) then firstn (length (t_sub t)) (t_names t)
                          else map (fun _ => []) (t_sub t));
              n_sub := t_sub t |}
      else Panic
  end.
Fixpoint unmarshallNodes (n : Z) (l : list pbType) : res (list node) :=
  match l with
  | [] => Ok []
  | t :: r => let! x := unmarshallNode n t in let! y := unmarshallNodes n r in Ok (x :: y)
  end.
Definition unmarshallSchema (l : list pbType) : res (list node) := unmarshallNodes (zlen l) l.

(** Following the pointers from node [i]; [None] when [fuel] levels do not suffice (or
    the pointers form a cycle).  Encoding and HasNulls are the zero values. *)
Fixpoint pointed (fuel : nat) (ns : list node) (i : Z) : option td :=
  match fuel with
  | O => None
  | S f =>
      match nth_error ns (Z.to_nat i) with
      | None => None
      | Some x =>
          let fix go (l : list Z) : option (list td) :=
            match l with
            | [] => Some []
            | s :: r => match pointed f ns s, go r with
                        | Some c, Some cs => Some (c :: cs)
                        | _, _ => None
                        end
            end in
          match go (n_sub x) with
          | Some cs => Some (Td i (n_kind x) (n_names x) 0 false cs)
          | None => None
          end
      end
  end.

(** type.go 160-170: returns from inside the loop, so only the first child of each
    compound node is looked at. *)
Fixpoint verifySchema (t : td) : bool :=
  let (_, k, _, _, h, cs) := t in
  if isCompound k then
    match cs with
    | [] => true
    | c :: _ => if h && td_hasNulls c then false else verifySchema c
    end
  else true.

(** type.go 234-250 with traverse: below a nullable node no node may be nullable. *)
Definition checkNulls (t : td) : bool :=
  if td_hasNulls t then
    forallb (fun c => negb (hasUnion c) && forallb (fun x => negb (td_hasNulls x)) (flatten c))
            (td_children t)
  else true.

(** type.go 225-232. *)
Definition CheckNulls (root : td) : res unit :=
  if td_hasNulls root then if checkNulls root then Ok tt else Err else Ok tt.

(** type.go 174-180. *)
Record batchOption := { Includes : list Z; RowSize : Z; NotCreateVector : bool }.

(** type.go 182-192. *)
Definition IsInclude (o : batchOption) (id : Z) : bool :=
  match Includes o with [] => true | l => existsb (Z.eqb id) l end.

(** api/vector.go ColumnVector: id, kind, length of the value slice (0: not
    allocated), children (a nil pointer is [None]). *)
Inductive vec := Vec (id : Z) (kind : tkind) (rows : Z) (children : list (option vec)).

(** type.go 122-158 with 57-120.  nil is [None]; UNION and a missing list or map child
    panic. *)
Fixpoint createVector (o : batchOption) (t : td) : res (option vec) :=
  let (id, k, _, _, h, cs) := t in
  if IsInclude o id then
    let rows := (if NotCreateVector o then 0 else RowSize o) in
    match k with
    | STRUCT =>
        let fix go (l : list td) : res (list (option vec)) :=
          match l with
          | [] => Ok []
          | c :: r => let! v := createVector o c in let! vs := go r in
                      Ok (match v with None => vs | _ => v :: vs end)
          end in
        let! vs := go cs in
        Ok (Some (Vec id k (if h && negb (NotCreateVector o) then RowSize o else 0) vs))
    | LIST =>
        match cs with
        | c :: _ => let! v := createVector o c in Ok (Some (Vec id k rows [v]))
        | [] => Panic
        end
    | MAP =>
        match cs with
        | c :: d :: _ => let! v := createVector o c in let! w := createVector o d in
                         Ok (Some (Vec id k (RowSize o) [v; w]))
        | _ => Panic
        end
    | UNION => Panic
    | _ => Ok (Some (Vec id k rows []))
    end
  else Ok None.

(** type.go 46-55. *)
Definition CreateVector (o : batchOption) (t : td) : res (option vec) :=
  if RowSize o =? 0 then Err else if verifySchema t then createVector o t else Err.
