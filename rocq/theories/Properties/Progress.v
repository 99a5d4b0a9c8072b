(** C69: a client that calls Next until it is told that this was the end comes to an end. *)
From Coq Require Import ZifyBool ZifyNat.
From Verif.Model Require Import Go Chunk Stream Schema Rows Time File Column Wire Assembled.
From Verif.Spec Require Import RowsSpec FileSpec ColumnSpec EndSpec OrcColumn OrcFile ProjectSpec ProgressSpec.
From Verif.Proofs Require Import Base SchemaP ProjectP ProgressP.
From Verif.Properties Require Import Columns File Foreign ForeignFile Project.

(** What a client is told, for all files, well-formed or not, and all sequences of Next and
    Seek that do not fail: the sizes of the batches are determined by the numbers of rows in
    the directory of stripes, the size the client asked for, and whether its batch has room;
    the ends, by these and the number of rows in the footer. *)
Theorem C69_batches : forall inflate bopt file schema r x w l out,
  reading inflate bopt file schema r x w -> calls inflate r x (batchOf w) l = Ok out ->
  (Cap (batchOf w) = 0 \/ Cap (batchOf w) = RowSize bopt) /\
  told out = reports (fr_rows r) 0 (if Cap (batchOf w) =? 0 then [] else all_batches (RowSize bopt) (map NumberOfRows (fr_stripes r))) (nexts l).
Proof. intros inflate bopt file schema r x w l out H1 H2. apply (batches _ _ _ _ _ _ _ _ _ H1 H2). Qed.
Print Assumptions C69_batches.

(** It comes to the end, after at most as many calls as the file has rows, if all rows of
    the footer but one are handed out; else it never does.
    Missing: batches without room, more than one row that is left out, and footers that
    promise too much; each is refuted below. *)
Theorem C69_ends_iff_partial : forall inflate bopt file schema r x w l out,
  reading inflate bopt file schema r x w -> calls inflate r x (batchOf w) l = Ok out ->
  let given := if Cap (batchOf w) =? 0 then 0 else handed_out (RowSize bopt) (map NumberOfRows (fr_stripes r)) in
  (fr_rows r <= given + 1 -> fr_rows r <= Z.of_nat (nexts l) -> comes_to_the_end out) /\
  (given + 1 < fr_rows r -> never_ends out).
Proof. exact ends. Qed.
Print Assumptions C69_ends_iff_partial.

(** With a footer that tells the truth: *)
Theorem C69_true_footer_partial : forall inflate bopt file schema r x w l out,
  reading inflate bopt file schema r x w -> calls inflate r x (batchOf w) l = Ok out -> Cap (batchOf w) <> 0 ->
  fr_rows r = sum (map NumberOfRows (fr_stripes r)) -> fr_rows r <= Z.of_nat (nexts l) ->
  comes_to_the_end out <-> left_out (RowSize bopt) (map NumberOfRows (fr_stripes r)) <= 1.
Proof.
  intros inflate bopt file schema r x w l out H1 H2 Hcap Hs Hn. destruct (ends _ _ _ _ _ _ _ _ _ H1 H2) as [A B].
  replace (Cap (batchOf w) =? 0) with false in A, B by lia. unfold handed_out in *. rewrite <- Hs in *. split.
  - intros (v & Hv). destruct (Z_le_gt_dec (left_out (RowSize bopt) (map NumberOfRows (fr_stripes r))) 1) as [G|G]; [exact G|exfalso].
    assert (Hnever : never_ends out) by (apply B; lia). unfold never_ends in Hnever. rewrite Forall_forall in Hnever. specialize (Hnever _ Hv). discriminate Hnever.
  - intros G. apply A; lia.
Qed.
Print Assumptions C69_true_footer_partial.

(** *** Three files of stripes of three rows, read two by two *)
Definition stripes_of_mixed (n : nat) : list (list piece * list (row value)) := repeat (mixed_streams 14, [[]; []; []]) n.
Definition file_of_mixed (n : nat) : list Z := foreign_file_with 10 mixed (stripes_of_mixed n).
Lemma mixed_reading n l : (0 < n < 4)%nat -> In l [[]; [0; 1; 3]] -> exists r x w, reading some_inflate (asks l) (file_of_mixed n) mixed r x w /\
  fr_rows r = 3 * Z.of_nat n /\ map NumberOfRows (fr_stripes r) = repeat 3 n.
Proof.
  intros Hn Hl. assert (Hcases : (n = 1 \/ n = 2 \/ n = 3)%nat) by lia. clear Hn.
  destruct (openBatches some_inflate (asks l) (file_of_mixed n)) as [[r x]| |] eqn:E;
    [|exfalso; destruct Hl as [<-|[<-|[]]]; destruct Hcases as [-> | [-> | ->]]; vm_compute in E; discriminate E..].
  destruct (CreateVector (asks l) mixed) as [[w|]| |] eqn:Ew; try (exfalso; destruct Hl as [<-|[<-|[]]]; vm_compute in Ew; discriminate Ew).
  exists r, x, w.
  assert (G : unfolds r mixed /\ map (fun n => n_sub n) (fr_nodes r) = [[1; 3; 4; 6]; [2]; []; []; [5]; []; []] /\ fr_rows r = 3 * Z.of_nat n /\ map NumberOfRows (fr_stripes r) = repeat 3 n).
  { destruct Hl as [<-|[<-|[]]]; destruct Hcases as [-> | [-> | ->]]; vm_compute in E; injection E as <- <-;
      (split; [split; [reflexivity|]; intros t Ht; vm_compute in Ht;
        repeat (destruct Ht as [<-|Ht]; [split; [vm_compute; discriminate|split; [eexists; split; [vm_compute; reflexivity|split; reflexivity]|vm_compute; reflexivity]]|]); contradiction|
       split; [reflexivity|split; reflexivity]]). }
  destruct G as (G1 & G2 & G3 & G4). split; [|split; assumption]. constructor; try assumption; try reflexivity.
  - apply rooted_mixed; [exact G2|..]; destruct Hl as [<-|[<-|[]]]; reflexivity.
  - rewrite G3, G4. split; [|split].
    + rewrite <- Forall_map with (P := fun k => 0 <= k), G4. apply Forall_forall. intros k Hk. apply repeat_spec in Hk. lia.
    + destruct Hcases as [-> | [-> | ->]]; reflexivity.
    + destruct Hcases as [-> | [-> | ->]]; split; reflexivity || discriminate.
Qed.
(** Two stripes: five of the six rows, in three calls. *)
Example C69_ex : exists r x w out, reading some_inflate (asks []) (file_of_mixed 2) mixed r x w /\
  Cap (batchOf w) = 2 /\ all_batches 2 [3; 3] = [2; 2; 1] /\ calls some_inflate r x (batchOf w) [CNext; CSeek 1; CNext; CNext; CNext] = Ok out /\
  told out = [(2, false); (2, false); (1, true); (0, true)].
Proof.
  destruct (mixed_reading 2 [] ltac:(lia) (or_introl eq_refl)) as (r & x & w & H & _). pose proof (rd_open _ _ _ _ _ _ _ H) as E. pose proof (rd_create _ _ _ _ _ _ _ H) as Ew.
  destruct (calls some_inflate r x (batchOf w) [CNext; CSeek 1; CNext; CNext; CNext]) as [out| |] eqn:Ec; [exists r, x, w, out; split; [exact H|]|exfalso..];
    vm_compute in E; injection E as <- <-; vm_compute in Ew; injection Ew as <-; vm_compute in Ec; [|discriminate Ec..]. injection Ec as <-.
  split; [reflexivity|]. split; [reflexivity|]. split; reflexivity.
Qed.

(** False for all files: a client whose batch has no room is told, every time, that there
    are no rows and that this was not the end ... *)
Theorem C69_every_client_ends_refuted : exists bopt file schema r x w,
  reading some_inflate bopt file schema r x w /\ fr_rows r = sum (map NumberOfRows (fr_stripes r)) /\
  forall n, exists out, calls some_inflate r x (batchOf w) (repeat CNext n) = Ok out /\ told out = repeat (0, false) n.
Proof.
  destruct (mixed_reading 1 [0; 1; 3] ltac:(lia) (or_intror (or_introl eq_refl))) as (r & x & w & H & G1 & G2). exists (asks [0; 1; 3]), (file_of_mixed 1), mixed, r, x, w.
  split; [exact H|]. split; [rewrite G1, G2; reflexivity|]. intros n.
  assert (Hok : exists out, calls some_inflate r x (batchOf w) (repeat CNext n) = Ok out).
  { pose proof (rd_open _ _ _ _ _ _ _ H) as E. pose proof (rd_create _ _ _ _ _ _ _ H) as Ew. clear - E Ew.
    destruct (go_on some_inflate r 1 x (batchOf w)) as [[x' v']| |] eqn:Eg; [apply (calls_for_ever some_inflate r false x' v' 1); [|exact Eg]|exfalso..];
    vm_compute in E; injection E as <- <-; vm_compute in Ew; injection Ew as <-; vm_compute in Eg; [injection Eg as <- <-; vm_compute; reflexivity|discriminate Eg..]. }
  destruct Hok as (out & Hout). exists out. split; [exact Hout|]. destruct (batches _ _ _ _ _ _ _ _ _ H Hout) as (_ & _ & ->).
  assert (Hcap : Cap (batchOf w) = 0) by (pose proof (rd_create _ _ _ _ _ _ _ H) as Ew; vm_compute in Ew; injection Ew as <-; reflexivity). rewrite Hcap, G1. cbn [Z.eqb].
  assert (Hnx : nexts (repeat CNext n) = n) by (clear; unfold nexts; induction n; cbn [repeat filter length]; congruence). rewrite Hnx.
  clear. induction n as [|n IH]; [reflexivity|]. cbn [repeat]. rewrite <- IH. reflexivity.
Qed.
Print Assumptions C69_every_client_ends_refuted.
(** ... and so is, after some rows, one whose batch has room, when more than one is left out. *)
Theorem C69_every_client_with_room_ends_refuted : exists bopt file schema r x w,
  reading some_inflate bopt file schema r x w /\ Cap (batchOf w) <> 0 /\ fr_rows r = sum (map NumberOfRows (fr_stripes r)) /\
  forall n, exists out, calls some_inflate r x (batchOf w) (repeat CNext n) = Ok out /\ never_ends out.
Proof.
  destruct (mixed_reading 3 [] ltac:(lia) (or_introl eq_refl)) as (r & x & w & H & G1 & G2). exists (asks []), (file_of_mixed 3), mixed, r, x, w.
  assert (Hcap : Cap (batchOf w) = 2) by (pose proof (rd_create _ _ _ _ _ _ _ H) as Ew; vm_compute in Ew; injection Ew as <-; reflexivity).
  split; [exact H|]. split; [rewrite Hcap; discriminate|]. split; [rewrite G1, G2; reflexivity|]. intros n.
  assert (Hok : exists out, calls some_inflate r x (batchOf w) (repeat CNext n) = Ok out).
  { pose proof (rd_open _ _ _ _ _ _ _ H) as E. pose proof (rd_create _ _ _ _ _ _ _ H) as Ew. clear - E Ew.
    destruct (go_on some_inflate r 6 x (batchOf w)) as [[x' v']| |] eqn:Eg; [apply (calls_for_ever some_inflate r false x' v' 6); [|exact Eg]|exfalso..];
    vm_compute in E; injection E as <- <-; vm_compute in Ew; injection Ew as <-; vm_compute in Eg; [injection Eg as <- <-; vm_compute; reflexivity|discriminate Eg..]. }
  destruct Hok as (out & Hout). exists out. split; [exact Hout|]. apply (ends _ _ _ _ _ _ _ _ _ H Hout). rewrite Hcap, G1, G2. vm_compute. reflexivity.
Qed.
Print Assumptions C69_every_client_with_room_ends_refuted.
(** Footers that promise more rows than the stripes have: never an end, and without any
    stripe the second call panics. *)
Definition promising (rows : Z) (schema : td) (l : list (list piece * list (row value))) : list Z :=
  let (body, is) := stripes_of schema 3 l in
  let fb := the (marshalFooter
    {| f_headerLength := 3; f_contentLength := zlen body; f_stripes := is; f_types := SchemasToTypes (flatten schema);
       f_rows := rows; f_stats := map (fun t : td => nulls_of (td_hasNulls t)) (flatten schema); f_stride := 10 |}) in
  let pb := the (marshalPS {| p_footerLength := zlen fb; p_compression := NONE; p_blockSize := 64; p_metadataLength := 0 |}) in
  [79; 82; 67] ++ body ++ fb ++ pb ++ [zlen pb].
Lemma promising_reading n : (n < 2)%nat -> exists r x w, reading some_inflate (asks []) (promising 5 mixed (stripes_of_mixed n)) mixed r x w /\
  fr_rows r = 5 /\ map NumberOfRows (fr_stripes r) = repeat 3 n.
Proof.
  intros Hn. assert (Hcases : (n = 0 \/ n = 1)%nat) by lia. clear Hn.
  destruct (openBatches some_inflate (asks []) (promising 5 mixed (stripes_of_mixed n))) as [[r x]| |] eqn:E;
    [|exfalso; destruct Hcases as [-> | ->]; vm_compute in E; discriminate E..].
  destruct (CreateVector (asks []) mixed) as [[w|]| |] eqn:Ew; try (exfalso; vm_compute in Ew; discriminate Ew).
  exists r, x, w.
  assert (G : unfolds r mixed /\ map (fun n => n_sub n) (fr_nodes r) = [[1; 3; 4; 6]; [2]; []; []; [5]; []; []] /\ fr_rows r = 5 /\ map NumberOfRows (fr_stripes r) = repeat 3 n).
  { destruct Hcases as [-> | ->]; vm_compute in E; injection E as <- <-;
      (split; [split; [reflexivity|]; intros t Ht; vm_compute in Ht;
        repeat (destruct Ht as [<-|Ht]; [split; [vm_compute; discriminate|split; [eexists; split; [vm_compute; reflexivity|split; reflexivity]|vm_compute; reflexivity]]|]); contradiction|
       split; [reflexivity|split; reflexivity]]). }
  destruct G as (G1 & G2 & G3 & G4). split; [|split; assumption]. constructor; try assumption; try reflexivity.
  - apply rooted_mixed; [exact G2|..]; reflexivity.
  - rewrite G3, G4. split; [|split].
    + rewrite <- Forall_map with (P := fun k => 0 <= k), G4. apply Forall_forall. intros k Hk. apply repeat_spec in Hk. lia.
    + destruct Hcases as [-> | ->]; reflexivity.
    + split; reflexivity || discriminate.
Qed.
Theorem C69_promising_footer_refuted : exists bopt file schema r x w,
  reading some_inflate bopt file schema r x w /\ Cap (batchOf w) <> 0 /\ left_out (RowSize bopt) (map NumberOfRows (fr_stripes r)) = 0 /\
  forall n, exists out, calls some_inflate r x (batchOf w) (repeat CNext n) = Ok out /\ never_ends out.
Proof.
  destruct (promising_reading 1 ltac:(lia)) as (r & x & w & H & G1 & G2). exists (asks []), (promising 5 mixed (stripes_of_mixed 1)), mixed, r, x, w.
  assert (Hcap : Cap (batchOf w) = 2) by (pose proof (rd_create _ _ _ _ _ _ _ H) as Ew; vm_compute in Ew; injection Ew as <-; reflexivity).
  split; [exact H|]. split; [rewrite Hcap; discriminate|]. split; [rewrite G2; reflexivity|]. intros n.
  assert (Hok : exists out, calls some_inflate r x (batchOf w) (repeat CNext n) = Ok out).
  { pose proof (rd_open _ _ _ _ _ _ _ H) as E. pose proof (rd_create _ _ _ _ _ _ _ H) as Ew. clear - E Ew.
    destruct (go_on some_inflate r 3 x (batchOf w)) as [[x' v']| |] eqn:Eg; [apply (calls_for_ever some_inflate r false x' v' 3); [|exact Eg]|exfalso..];
    vm_compute in E; injection E as <- <-; vm_compute in Ew; injection Ew as <-; vm_compute in Eg; [injection Eg as <- <-; vm_compute; reflexivity|discriminate Eg..]. }
  destruct Hok as (out & Hout). exists out. split; [exact Hout|]. apply (ends _ _ _ _ _ _ _ _ _ H Hout). rewrite Hcap, G1, G2. vm_compute. reflexivity.
Qed.
Print Assumptions C69_promising_footer_refuted.
Theorem C69_no_stripes_refuted : exists bopt file schema r x w,
  reading some_inflate bopt file schema r x w /\ Cap (batchOf w) <> 0 /\ fr_stripes r = [] /\
  (exists out, calls some_inflate r x (batchOf w) [CNext] = Ok out /\ told out = [(0, false)]) /\
  calls some_inflate r x (batchOf w) [CNext; CNext] = Panic.
Proof.
  destruct (promising_reading 0 ltac:(lia)) as (r & x & w & H & G1 & G2). exists (asks []), (promising 5 mixed (stripes_of_mixed 0)), mixed, r, x, w. split; [exact H|].
  pose proof (rd_open _ _ _ _ _ _ _ H) as E. pose proof (rd_create _ _ _ _ _ _ _ H) as Ew. clear - E Ew. vm_compute in E. injection E as <- <-. vm_compute in Ew. injection Ew as <-.
  split; [discriminate|]. split; [reflexivity|]. split; [eexists; split; vm_compute; reflexivity|vm_compute; reflexivity].
Qed.
Print Assumptions C69_no_stripes_refuted.
