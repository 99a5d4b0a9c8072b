(** Which streams a stripe lists, and which listings let Close release every handle. *)
From Verif.Model Require Import Go Schema Rows File Column Wire Assembled.
From Verif.Spec Require Import ProjectSpec.

(** The kinds of the streams listed for column [i], indexes left out. *)
Definition of_column (i : nat) (s : strm * Z) : bool := (Z.to_nat (st_column (fst s)) =? i)%nat && negb (st_kind (fst s) =? 6).
Definition kinds_listed (l : list (strm * Z)) (i : nat) : list Z := map (fun s => st_kind (fst s)) (filter (of_column i) l).
(** The streams a column has by the format, besides an optional PRESENT stream (0): DATA is
    1, LENGTH 2, DICTIONARY_DATA 3, SECONDARY 5. *)
Definition format_streams (k : tkind) (encoding : Z) : list Z :=
  match k with
  | STRUCT => []
  | LIST | MAP => [2]
  | STRING | CHAR | VARCHAR => if encoding =? 3 then [1; 3; 2] else [1; 2]
  | BINARY => [1; 2]
  | DECIMAL | TIMESTAMP | TIMESTAMP_INSTANT => [1; 5]
  | _ => [1]
  end.
(** Every stream once, and no others. *)
Definition well_listed (k : tkind) (encoding : Z) (ks : list Z) : Prop :=
  NoDup ks /\ incl (format_streams k encoding) ks /\ incl ks (0 :: format_streams k encoding).

Section Stripe.
Variable bopt : batchOption.
(** The footer of a stripe: the encodings of the columns and its streams. *)
Variable footer : list Z * list (strm * Z).
Definition listed (t : td) : list Z := kinds_listed (snd footer) (Z.to_nat (td_id t)).
Definition encoded (t : td) : Z := nth (Z.to_nat (td_id t)) (fst footer) 0.
Definition read (t : td) : Prop := IsInclude bopt (td_id t) = true.

Fixpoint released (t : td) : Prop :=
  match t with
  | Td _ k _ _ hasNulls cs =>
      match k with
      | LIST => well_listed LIST 2 (listed t) /\ forall x, In x (flat_map flatten cs) -> read x -> listed x = []
      | MAP => (listed t = [] \/ listed t = [0]) /\
               match cs with
               | key :: value :: _ => (read key /\ released key) /\ (read value /\ released value)
               | _ => False
               end
      | _ => well_listed k (encoded t) (listed t) /\
             (k = STRING -> encoded t <> 3 -> In 0 (listed t) <-> hasNulls = true) /\
             (fix each (l : list td) : Prop :=
                match l with [] => True | c :: r => (read c -> released c) /\ each r end) cs
      end
  end.
End Stripe.

(** The columns of the file form the tree [schema]. *)
Definition is_tree (r : fileR colstats) (schema : td) : Prop :=
  NoDup (map td_id (flatten schema)) /\
  forall i, (i < length (fr_nodes r))%nat -> In (Z.of_nat i) (map td_id (flatten schema)).

(** Reading on: any calls that succeed, with any batches. *)
Inductive Later (inflate : list Z -> res (list Z)) (r : fileR colstats) : batchRd -> batchRd -> Prop :=
| L_now x : Later inflate r x x
| L_next x v x' v' e y : batchNext inflate r x v = Ok (x', v', e) -> Later inflate r x' y -> Later inflate r x y
| L_seek x row x' y : batchSeek inflate r x row = Ok x' -> Later inflate r x' y -> Later inflate r x y.

(** A batch reader [x] was created of [file], whose columns are [schema]; the footers of its
    stripes are [xs].  The root is among the columns asked for. *)
Record opened_batches (inflate : list Z -> res (list Z)) (bopt : batchOption) (file : list Z) (schema : td)
    (r : fileR colstats) (x : batchRd) (xs : list (list Z * list (strm * Z))) : Prop := {
  ob_open : openBatches inflate bopt file = Ok (r, x);
  ob_footers : CreateBatchReader inflate unmarshalSF (RowSize bopt) file r = Ok xs;
  ob_schema : unfolds r schema;
  ob_tree : is_tree r schema;
  ob_root : IsInclude bopt 0 = true }.
