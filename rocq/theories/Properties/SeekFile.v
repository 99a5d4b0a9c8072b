(** C29 on whole files: Seek of a batch reader. *)
From Coq Require Import ZifyBool ZifyNat.
From Verif.Model Require Import Go Chunk Stream Schema Rows Time File Column Wire Assembled.
From Verif.Spec Require Import ChunkSpec StreamSpec SchemaSpec RowsSpec FileSpec ColumnSpec AssemblySpec EndSpec.
From Verif.Proofs Require Import Base OpenBatchP ChunkP SeekFileP.
From Verif.Properties Require Import Columns File End.

(** No Seek succeeds on a file of this writer, in any state of the reader: seeking to a
    row of the file panics, and seeking elsewhere is an error.  The footer records no row
    index stride, and Seek divides by it. *)
Theorem C29_no_seek : forall deflate inflate F o stride StripeSize schema rows file r bopt x,
  flate_ok deflate inflate -> written_and_opened deflate inflate F o stride StripeSize schema rows file r ->
  openBatches inflate bopt file = Ok (r, x) -> forall y, Reached inflate r x y ->
  forall row, 0 <= row < 2 ^ 64 ->
  (row < zlen rows -> batchSeek inflate r y row = Panic) /\ (zlen rows <= row -> batchSeek inflate r y row = Err).
Proof.
  intros deflate inflate F o stride StripeSize schema rows file r bopt x Hfl Hw Hx y Hy row Hrow. change (2 ^ 64) with W64 in Hrow.
  pose proof (no_seek _ _ _ _ _ _ _ _ _ _ _ _ Hfl Hw Hx y Hy row Hrow) as ->.
  split; intros H; [replace (row <? zlen rows) with true by lia|replace (row <? zlen rows) with false by lia]; reflexivity.
Qed.
Print Assumptions C29_no_seek.

(** The file of three rows of C50: before and after reading it. *)
Example C29_no_seek_case : exists r x y, written_and_opened toy_deflate toy_inflate fl zl64 10 1000 sample_schema sample_tuples file1 r /\
  openBatches toy_inflate three file1 = Ok (r, x) /\ Reached toy_inflate r x y /\ br_cursor y = 3 /\
  batchSeek toy_inflate r x 0 = Panic /\ batchSeek toy_inflate r y 2 = Panic /\ batchSeek toy_inflate r y 3 = Err.
Proof.
  destruct sample_wao as (r & Hw & _).
  destruct (openBatches toy_inflate three file1) as [[r' x]| |] eqn:E; [|exfalso; vm_compute in E; discriminate E..].
  assert (r' = r) as ->.
  { assert (H : newFileReader toy_inflate cs_hasNull unmarshalPS unmarshalFooter file1 = Ok r) by apply Hw.
    pose proof (openBatches_reader _ _ _ _ _ E) as H'. congruence. }
  destruct (batchNext toy_inflate r x empty3) as [[[y v] e]| |] eqn:En.
  - assert (Hr : Reached toy_inflate r x y) by (eapply ReachedNext; [apply ReachedStart|exact En]).
    exists r, x, y. split; [exact Hw|]. split; [reflexivity|]. split; [exact Hr|]. split.
    { assert (Hc : (let! (r, x) := openBatches toy_inflate three file1 in let! (y, _, _) := batchNext toy_inflate r x empty3 in Ok (br_cursor y)) = Ok 3) by (vm_compute; reflexivity).
      rewrite E in Hc. cbn [rbind] in Hc. rewrite En in Hc. cbn [rbind] in Hc. congruence. }
    pose proof (C29_no_seek _ _ _ _ _ _ _ _ _ _ _ _ toy_ok Hw E) as Hno.
    change (zlen sample_tuples) with 3 in Hno.
    split; [apply (Hno x (ReachedStart _ _ _)); lia|]. split; [apply (Hno y Hr); lia|apply (Hno y Hr); lia].
  - exfalso. assert (Hc : (let! (r, x) := openBatches toy_inflate three file1 in let! (y, _, _) := batchNext toy_inflate r x empty3 in Ok (br_cursor y)) = Ok 3) by (vm_compute; reflexivity).
    rewrite E in Hc. cbn [rbind] in Hc. rewrite En in Hc. discriminate Hc.
  - exfalso. assert (Hc : (let! (r, x) := openBatches toy_inflate three file1 in let! (y, _, _) := batchNext toy_inflate r x empty3 in Ok (br_cursor y)) = Ok 3) by (vm_compute; reflexivity).
    rewrite E in Hc. cbn [rbind] in Hc. rewrite En in Hc. discriminate Hc.
Qed.
