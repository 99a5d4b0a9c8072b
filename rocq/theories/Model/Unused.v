(** Exported functions, and one helper, that nothing in the library calls: Batch,
    TypeDescription.String, NewListV2Writer and writeUints.  (The methods of listV2Writer,
    column/list.go 208-302, are not modelled: nothing makes a value of that type.) *)
From Verif.Model Require Import Go Stream Schema File Column Assembled.

(** ** api/vector.go 10-38: a batch.  A nil column, which panics in Go, is left out. *)
Definition batch := list bvec.
(** vector.go 14-18. *)
Definition b_Clear (b : batch) : batch := map Clear b.
(** vector.go 20-28. *)
Fixpoint b_Len (b : batch) : Z :=
  match b with
  | [] => 0
  | c :: r => let l := Len c in if negb (l =? 0) then l else b_Len r
  end.
(** vector.go 30-38. *)
Fixpoint b_Cap (b : batch) : Z :=
  match b with
  | [] => 0
  | c :: r => let n := Cap c in if negb (n =? 0) then n else b_Cap r
  end.

(** ** api/type.go 23-39: String.  The text is the list of what is printed, without the
    formatting of the parts: "id %d, kind %s: ", "child %s: " and the line ends. *)
Inductive part := PColumn (id : Z) (kind : tkind) | PChild (name : list Z) | PNewline.
Fixpoint String (t : td) : res (list part) :=
  let (i, k, names, _, _, cs) := t in
  let! ps := (fix go (cs : list td) (names : list (list Z)) : res (list part) :=
    match names, cs with
    | [], _ => Ok []
    | _ :: _, [] => Panic
    | n :: names', c :: cs' =>
        let! p := String c in
        let! r := go cs' names' in
        Ok (PChild n :: p ++ r)
    end) cs names in
  Ok (PColumn i k :: (match cs with [] => [] | _ => [PNewline] end) ++ ps ++ [PNewline]).

(** ** column/list.go 189-206: NewListV2Writer.  It returns a structWriter, without the
    BucketStatistics that newStructWriter gives it (struct.go 159, 168), in the column
    statistics and in the first index statistics. *)
Definition noDetail (s : colstats) : colstats :=
  {| cs_values := cs_values s; cs_hasNull := cs_hasNull s; cs_bytes := cs_bytes s; cs_detail := None;
     cs_stray := cs_stray s |}.
Definition NewListV2Writer (o : opts) (t : td) : colW :=
  let c := newColW o (td_id t) KStruct (td_hasNulls t) in
  {| cw_id := cw_id c; cw_kind := cw_kind c; cw_present := cw_present c; cw_data := cw_data c;
     cw_stats := noDetail (cw_stats c); cw_indexInRows := cw_indexInRows c;
     cw_indexStats := noDetail (cw_indexStats c); cw_index := cw_index c; cw_flushed := cw_flushed c;
     cw_pending := cw_pending c |}.

(** ** encoding/int.go 866-877: writeUints.  The ceiling of a float64 quotient of a byte by 8
    is exact. *)
Fixpoint uintBytes (bs : nat) (v : Z) : list Z :=
  match bs with
  | O => []
  | S j => u8 (Z.shiftr v (Z.of_nat j * 8)) :: uintBytes j v
  end.
Fixpoint writeUints (width : Z) (values : list Z) : list Z :=
  match values with
  | [] => []
  | v :: r => uintBytes (Z.to_nat ((width + 7) / 8)) v ++ writeUints width r
  end.
