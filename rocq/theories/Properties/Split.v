(** C70: the file depends on the rows written, not on the batches they came in.
    C71: every value given to Write is stored. *)
From Coq Require Import ZifyBool ZifyNat.
From Verif.Model Require Import Go Chunk Stream Schema Rows File Column Wire.
From Verif.Spec Require Import ChunkSpec FileSpec ColumnSpec AssemblySpec SplitSpec.
From Verif.Proofs Require Import Base ChunkP FileP SplitP.
From Verif.Properties Require Import Columns File.

(** ** C70 *)
(** For any column writers, protobuf library and compressor: two clients that write the
    same rows, however cut into batches, get the same bytes, or both the same kind of
    failure. *)
Theorem C70_batches_do_not_matter : forall C V ST deflate (I : iface C V ST) P o StripeSize schema vs vs' rows,
  Rows vs rows -> Rows vs' rows ->
  outcome deflate I P o StripeSize schema vs = outcome deflate I P o StripeSize schema vs'.
Proof. intros C V ST deflate I P o StripeSize schema vs vs' rows H H'. rewrite (outcome_rows _ _ _ _ _ _ _ _ _ _ _ H), (outcome_rows _ _ _ _ _ _ _ _ _ _ _ H'). reflexivity. Qed.
Print Assumptions C70_batches_do_not_matter.
(** Nor does the order in which the columns come in a batch. *)
Theorem C70_order_does_not_matter : forall C V ST deflate (I : iface C V ST) P o StripeSize schema vs vs' rows rows' file,
  Rows vs rows -> Rows vs' rows' -> Forall2 same_row rows rows' ->
  closed deflate I P o StripeSize schema vs file -> closed deflate I P o StripeSize schema vs' file.
Proof.
  intros C V ST deflate I P o StripeSize schema vs vs' rows rows' file H H' Hs (w0 & w & E0 & E1 & E2).
  assert (E : outcome deflate I P o StripeSize schema vs = Ok file) by (unfold outcome; rewrite E0; cbn [rbind]; rewrite E1; cbn [rbind]; exact E2).
  apply (outcome_same _ _ _ _ _ _ _ _ _ _ _ _ _ _ H H' Hs) in E. unfold outcome in E. apply rbind_inv in E. destruct E as (v0 & F0 & E). apply rbind_inv in E. destruct E as (v & F1 & E).
  exists v0, v. auto.
Qed.
Print Assumptions C70_order_does_not_matter.
(** Three rows in one batch; and in two, with the columns the other way round. *)
Definition turned_batch (l : list (value * value)) : cvec value := CVec 0 None [CVec 2 (Some (map snd l)) []; CVec 1 (Some (map fst l)) []].
Example C70_ex : exists rows rows', Rows [sample_batch sample_rows] rows /\ Rows [sample_batch (firstn 1 sample_rows); sample_batch []; sample_batch (skipn 1 sample_rows)] rows /\
  Rows [turned_batch (firstn 2 sample_rows); turned_batch (skipn 2 sample_rows)] rows' /\ Forall2 same_row rows rows' /\ rows <> rows' /\
  closed toy_deflate (columns toy_deflate fl zl64 10) wire zl64 1000 sample_schema [sample_batch sample_rows] file1 /\
  closed toy_deflate (columns toy_deflate fl zl64 10) wire zl64 1000 sample_schema [turned_batch (firstn 2 sample_rows); turned_batch (skipn 2 sample_rows)] file1.
Proof.
  set (rows := map (fun p => [(1%nat, fst p); (2%nat, snd p)]) sample_rows). set (rows' := map (fun p => [(2%nat, snd p); (1%nat, fst p)]) sample_rows).
  assert (H1 : Rows [sample_batch sample_rows] rows) by (rewrite <- (app_nil_r rows); constructor; [repeat constructor|constructor]).
  assert (H2 : Rows [turned_batch (firstn 2 sample_rows); turned_batch (skipn 2 sample_rows)] rows').
  { rewrite <- (firstn_skipn 2 rows'), <- (app_nil_r (skipn 2 rows')). constructor; [repeat constructor|]. constructor; [repeat constructor|constructor]. }
  assert (H3 : Forall2 same_row rows rows') by (repeat constructor; intros [|[|[|c]]]; reflexivity).
  exists rows, rows'. split; [exact H1|]. split.
  { rewrite <- (firstn_skipn 1 rows). constructor; [repeat constructor|]. rewrite <- (app_nil_l (skipn 1 rows)). constructor; [constructor|].
    rewrite <- (app_nil_r (skipn 1 rows)). constructor; [repeat constructor|constructor]. }
  split; [exact H2|]. split; [exact H3|]. split; [discriminate|]. split; [exact file1_closed|]. exact (C70_order_does_not_matter _ _ _ _ _ _ _ _ _ _ _ _ _ _ H1 H2 H3 file1_closed).
Qed.

(** ** C71 *)
(** What is written of a batch: of every vector, as many values as the batch has rows by
    its first vector with values; the others are dropped. *)
Theorem C71_written : forall V (v : cvec V) rows c vals,
  Rows [v] rows -> one_vector_each v -> In (c, vals) (vectors v) ->
  column_of c rows = firstn (vlen v) vals /\ (vlen v <= length vals)%nat.
Proof.
  intros V v rows c vals H Hnd Hin. inversion H as [|? ? rs rows' Hv Hvs]; subst. inversion Hvs; subst. rewrite app_nil_r. exact (rows_column v rs c vals Hnd Hin (vlen v) Hv).
Qed.
Print Assumptions C71_written.
(** The rows of several batches are those of each, in order; a file that was closed holds
    exactly them (C46). *)
Theorem C71_batches : forall V (vs : list (cvec V)) rows, Rows vs rows <-> exists rss, rows = concat rss /\ Forall2 (fun v rs => Rows [v] rs) vs rss.
Proof. exact @rows_by_batch. Qed.
Print Assumptions C71_batches.
(** So all values are written if and only if no vector is longer than that; in particular
    if all have the same length and the first vector is there.
    Missing: batches with vectors of different lengths, refuted below. *)
Theorem C71_all_written_iff_partial : forall V (v : cvec V) rows,
  Rows [v] rows -> one_vector_each v ->
  ((forall c vals, In (c, vals) (vectors v) -> column_of c rows = vals) <-> Forall (fun x => length (snd x) <= vlen v)%nat (vectors v)).
Proof.
  intros V v rows H Hnd. rewrite Forall_forall. split.
  - intros Ha [c vals] Hin. cbn [snd]. destruct (C71_written V v rows c vals H Hnd Hin) as [E _]. rewrite (Ha c vals Hin) in E. rewrite E, firstn_length. apply Nat.le_min_l.
  - intros Ha c vals Hin. destruct (C71_written V v rows c vals H Hnd Hin) as [E _]. rewrite E. apply firstn_all2. exact (Ha _ Hin).
Qed.
Print Assumptions C71_all_written_iff_partial.
Theorem C71_rectangular_partial : forall V (v : cvec V) rows c vals,
  Rows [v] rows -> one_vector_each v -> rectangular v -> vlen v <> O -> In (c, vals) (vectors v) -> column_of c rows = vals.
Proof.
  intros V v rows c vals H Hnd [n Hn] Hv. revert c vals. apply (C71_all_written_iff_partial V v rows H Hnd). destruct (vlen_rect v n Hn) as [E|E]; [|contradiction]. rewrite E.
  eapply Forall_impl; [|exact Hn]. cbn. intros x ->. apply Nat.le_refl.
Qed.
Print Assumptions C71_rectangular_partial.
Example C71_ex : rectangular (sample_batch sample_rows) /\ one_vector_each (sample_batch sample_rows) /\ vlen (sample_batch sample_rows) = 3%nat.
Proof. split; [exists 3%nat; repeat constructor|]. split; [|reflexivity]. repeat constructor; cbn; intuition discriminate. Qed.
(** False otherwise: a string too many is dropped without an error; and so are all rows
    when the first column has no vector of values. *)
Definition ragged (l m : list value) : cvec value := CVec 0 None [CVec 1 (Some l) []; CVec 2 (Some m) []].
Theorem C71_all_written_refuted : exists v v' file,
  vectors v = [(1%nat, map fst sample_rows); (2%nat, map snd sample_rows ++ [val (GString [120])])] /\
  closed toy_deflate (columns toy_deflate fl zl64 10) wire zl64 1000 sample_schema [v] file /\
  closed toy_deflate (columns toy_deflate fl zl64 10) wire zl64 1000 sample_schema [sample_batch sample_rows] file /\
  vectors v' = [(2%nat, map snd sample_rows)] /\
  closed toy_deflate (columns toy_deflate fl zl64 10) wire zl64 1000 sample_schema [sample_batch sample_rows; v'] file.
Proof.
  exists (ragged (map fst sample_rows) (map snd sample_rows ++ [val (GString [120])])), (CVec 0 None [CVec 1 None []; CVec 2 (Some (map snd sample_rows)) []]), file1.
  split; [reflexivity|]. split; [apply make_closed; vm_compute; reflexivity|]. split; [exact file1_closed|]. split; [reflexivity|]. apply make_closed. vm_compute. reflexivity.
Qed.
Print Assumptions C71_all_written_refuted.
