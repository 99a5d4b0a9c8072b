(** Batches that hold the same rows. *)
From Verif.Model Require Import Go Schema Rows File.
From Verif.Spec Require Import FileSpec.

(** What a client gets that creates a writer, writes the batches and closes it: the bytes
    of the file, an error or a panic. *)
Definition outcome {C V ST} (deflate : list (list Z) -> list Z -> res (list Z)) (I : iface C V ST) (P : proto ST) (o : Stream.opts) (StripeSize : Z)
    (schema : td) (batches : list (cvec V)) : res (list Z) :=
  let! w0 := newFileWriter (i_New I) schema in
  let! w := writeBatches (write1 deflate I P o StripeSize) w0 batches in
  closeFile deflate I P o w.

(** Two rows with the same values in every column, in whatever order the columns come. *)
Definition same_row {V} (r s : row V) : Prop := forall c, column_of c [r] = column_of c [s].

(** The vectors of a batch: the column of each and its values. *)
Fixpoint vectors {V} (v : cvec V) : list (nat * list V) :=
  match v with
  | CVec id vals children => (match vals with Some l => [(id, l)] | None => [] end) ++ flat_map vectors children
  end.
(** No column occurs twice in the batch. *)
Definition one_vector_each {V} (v : cvec V) : Prop := NoDup (map fst (vectors v)).
(** All vectors of the batch have the same number of values. *)
Definition rectangular {V} (v : cvec V) : Prop := exists n, Forall (fun x => length (snd x) = n) (vectors v).
