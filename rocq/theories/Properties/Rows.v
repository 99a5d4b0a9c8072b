(** C28, C29: iterating over the rows of a file, and seeking. *)
From Verif.Model Require Import Go Rows.
From Verif.Spec Require Import RowsSpec.
From Verif.Proofs Require Import Base RowsP.

(** The state the theorems start from is the one CreateBatchReader makes. *)
Theorem C28_opened : forall A (ls : list (list A)), Forall (fun l => 1 <= zlen l) ls ->
  newBatchR ls (total ls) = Ok (opened ls).
Proof. exact @newBatchR_ok. Qed.
Print Assumptions C28_opened.

(** ** C28 *)
(** Every row once and in order: exactly when no stripe has one row more than a
    multiple of the batch size (except stripes of one row that are not the last). *)
Theorem C28_all_rows_iff_partial : forall A c (ls : list (list A)) last, 0 < c ->
  Forall (fun l => 1 <= zlen l) (ls ++ [last]) -> total (ls ++ [last]) < 2 ^ 63 - 1 ->
  (Iter c (opened (ls ++ [last])) (concat (ls ++ [last])) <->
   Forall (fun l => zlen l = 1 \/ (zlen l - 1) mod c <> 0) ls /\ (zlen last - 1) mod c <> 0).
Proof. exact @iterate_iff. Qed.
Print Assumptions C28_all_rows_iff_partial.

(** What iteration returns for every layout and batch size.  [lost] counts the stripes
    before the last that lose their final row; from two on, the end is never reported. *)
Theorem C28_outcome : forall A c (ls : list (list A)) last, 0 < c ->
  Forall (fun l => 1 <= zlen l) (ls ++ [last]) -> total (ls ++ [last]) < 2 ^ 63 - 1 ->
  ((lost c ls = 0)%nat -> Iter c (opened (ls ++ [last])) (concat ls ++ delivered_last c last)) /\
  ((lost c ls = 1)%nat -> Iter c (opened (ls ++ [last])) (concat (map (delivered c) ls) ++ last)) /\
  ((lost c ls >= 2)%nat -> forall out, ~ Iter c (opened (ls ++ [last])) out).
Proof. exact @iterate_exact. Qed.
Print Assumptions C28_outcome.

Theorem C28_iteration_deterministic : forall A c (b : batchR A) x y, Iter c b x -> Iter c b y -> x = y.
Proof. exact @iter_fun. Qed.
Print Assumptions C28_iteration_deterministic.

(** A file of one row yields nothing; so does the last of three rows read two by two;
    batches of one row never terminate on three stripes of two rows. *)
Theorem C28_all_rows_refuted :
  Iter 10 (opened [[7]]) [] /\
  Iter 2 (opened [[7; 8; 9]]) [7; 8] /\
  (forall out, ~ Iter 1 (opened [[1; 2]; [3; 4]; [5; 6]]) out).
Proof.
  split; [|split].
  - apply (proj1 (iterate_exact 10 [] [7] ltac:(lia) ltac:(repeat constructor; cbn; lia) ltac:(cbn; lia))). reflexivity.
  - apply (proj1 (iterate_exact 2 [] [7; 8; 9] ltac:(lia) ltac:(repeat constructor; cbn; lia) ltac:(cbn; lia))). reflexivity.
  - apply (proj2 (proj2 (iterate_exact 1 [[1; 2]; [3; 4]] [5; 6] ltac:(lia)
      ltac:(repeat constructor; cbn; lia) ltac:(cbn; lia)))). cbn. lia.
Qed.
Print Assumptions C28_all_rows_refuted.

Example C28_case : Iter 3 (opened [[1; 2; 3]; [4]; [5; 6; 7; 8; 9]]) [1; 2; 3; 4; 5; 6; 7; 8; 9].
Proof.
  apply (iterate_iff 3 [[1; 2; 3]; [4]] [5; 6; 7; 8; 9]); [lia| |vm_compute; reflexivity|].
  - repeat constructor; cbn; lia.
  - split; [|discriminate]. constructor; [right; discriminate|]. constructor; [left; reflexivity|constructor].
Qed.

(** ** C29 *)
(** On a reader just opened, the batch after Seek(r) begins with row r exactly when r
    is in the first stride of the first stripe and a whole batch is left there.
    [x] is the row with number r. *)
Theorem C29_seek_first_batch_iff_partial : forall A cap stride (l : list A) ls r x, 0 < cap -> 0 < stride < 2 ^ 63 ->
  Forall (fun l => 1 <= zlen l) (l :: ls) -> NoDup (concat (l :: ls)) ->
  2 <= total (l :: ls) < 2 ^ 63 - 1 -> nth_error (concat (l :: ls)) (Z.to_nat r) = Some x -> 0 <= r ->
  ((exists b, Seek stride (opened (l :: ls)) r = Ok b /\ starts_with cap b x) <->
   r < stride /\ r + Z.min cap (zlen l) <= zlen l).
Proof. exact @seek_first_batch. Qed.
Print Assumptions C29_seek_first_batch_iff_partial.

(** In a file whose footer records no row index stride (this writer never records
    one), seeking to any row panics. *)
Theorem C29_seek_panics : forall A (ls : list (list A)) r, Forall (fun l => 1 <= zlen l) ls ->
  0 <= r < total ls -> total ls < 2 ^ 63 -> Seek 0 (opened ls) r = Panic.
Proof. exact @seek_panics. Qed.
Print Assumptions C29_seek_panics.

(** Row 2 of [1..6] with strides of 2 rows; row 4 of two stripes; row 3 of one stripe in
    batches of 4: wrong row, wrong row, error. *)
Theorem C29_seek_refuted :
  (exists b, Seek 2 (opened [[1; 2; 3; 4; 5; 6]]) 2 = Ok b /\ starts_with 3 b 1) /\
  (exists b, Seek 10 (opened [[1; 2; 3]; [4; 5; 6]]) 4 = Ok b /\ starts_with 3 b 1) /\
  (exists b, Seek 10 (opened [[1; 2; 3; 4; 5; 6]]) 3 = Ok b /\ Next 4 b = Err).
Proof.
  split; [|split].
  - eexists. split; [reflexivity|]. do 3 eexists. reflexivity.
  - eexists. split; [reflexivity|]. do 3 eexists. reflexivity.
  - eexists. split; reflexivity.
Qed.
Print Assumptions C29_seek_refuted.

Example C29_case : exists b, Seek 4 (opened [[1; 2; 3; 4; 5; 6]; [7]]) 3 = Ok b /\ starts_with 2 b 4.
Proof. eexists. split; [reflexivity|]. do 3 eexists. reflexivity. Qed.
