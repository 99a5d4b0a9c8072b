(** Reading some of the columns of a file: what two clients see who differ in the columns
    they ask for. *)
From Verif.Model Require Import Go Schema File Column Wire Assembled.
From Verif.Spec Require Import EndSpec.

(** What a client may do with a batch reader, keeping one batch which it always passes to
    Next; the result has the batches with the end flags. *)
Inductive call := CNext | CSeek (row : Z).
Fixpoint calls (inflate : list Z -> res (list Z)) (r : fileR colstats) (x : batchRd) (v : bvec) (l : list call) : res (list (bvec * bool)) :=
  match l with
  | [] => Ok []
  | CNext :: l' => let! (x', v', e) := batchNext inflate r x v in let! out := calls inflate r x' v' l' in Ok ((v', e) :: out)
  | CSeek row :: l' => let! x' := batchSeek inflate r x row in calls inflate r x' v l'
  end.

(** [schema] is what the schema of [r] looks like when its pointers are followed from the
    root. *)
Definition unfolds (r : fileR colstats) (schema : td) : Prop :=
  td_id schema = 0 /\
  forall x, In x (flatten schema) -> 0 <= td_id x /\
    (exists n, nth_error (fr_nodes r) (Z.to_nat (td_id x)) = Some n /\ n_kind n = td_kind x /\ n_sub n = map td_id (td_children x)) /\
    nth_error (fr_hasNulls r) (Z.to_nat (td_id x)) = Some (td_hasNulls x).

(** The columns of [narrow] are some of the columns of [wide]. *)
Definition narrower (narrow wide : batchOption) : Prop := forall i, IsInclude narrow i = true -> IsInclude wide i = true.
(** With a column its parent is included. *)
Definition rooted (b : batchOption) (ns : list node) : Prop :=
  IsInclude b 0 = true /\
  forall i n c, nth_error ns i = Some n -> In c (n_sub n) -> IsInclude b c = true -> IsInclude b (Z.of_nat i) = true.
(** With a list or a map all of its elements are included that the other client has. *)
Definition whole (narrow wide : batchOption) (schema : td) : Prop :=
  forall x y, In x (flatten schema) -> td_kind x = LIST \/ td_kind x = MAP -> IsInclude narrow (td_id x) = true ->
    In y (flatten x) -> IsInclude wide (td_id y) = true -> IsInclude narrow (td_id y) = true.

(** Two batches have the same values in the columns of [b]. *)
Definition same_values (b : batchOption) (p q : bvec * bool) : Prop :=
  snd p = snd q /\ forall i, IsInclude b i = true -> held i (fst p) = held i (fst q).

(** Two clients of one file: one of them asks for the columns of [wide], makes the calls [l]
    with the batch [w] that CreateVector gave it, and gets [out]; the other asks for some of
    these columns.  Both have batches of one size, and the numbers of rows are ones that Go's
    int can hold. *)
Record clients (inflate : list Z -> res (list Z)) (narrow wide : batchOption) (file : list Z) (schema : td)
    (r : fileR colstats) (x : batchRd) (w : vec) (l : list call) (out : list (bvec * bool)) : Prop := {
  c_narrower : narrower narrow wide;
  c_schema : unfolds r schema;
  c_vectors : NotCreateVector narrow = false /\ NotCreateVector wide = false;
  c_size : RowSize narrow = RowSize wide /\ 0 < RowSize wide;
  c_rows : Forall (fun i => 0 <= NumberOfRows i < W63) (fr_stripes r);
  c_open : openBatches inflate wide file = Ok (r, x);
  c_create : CreateVector wide schema = Ok (Some w);
  c_room : Cap (batchOf w) <> 0;
  c_calls : calls inflate r x (batchOf w) l = Ok out }.
(** The other client makes the same calls, and sees the same values. *)
Definition sees_the_same (inflate : list Z -> res (list Z)) (narrow : batchOption) (file : list Z) (schema : td)
    (r : fileR colstats) (l : list call) (out : list (bvec * bool)) : Prop :=
  exists y v out', openBatches inflate narrow file = Ok (r, y) /\ CreateVector narrow schema = Ok (Some v) /\
    calls inflate r y (batchOf v) l = Ok out' /\ Forall2 (same_values narrow) out' out.
(** The batch of the other client has room for rows. *)
Definition has_room (narrow : batchOption) (schema : td) : Prop :=
  forall v, CreateVector narrow schema = Ok (Some v) -> Cap (batchOf v) <> 0.
