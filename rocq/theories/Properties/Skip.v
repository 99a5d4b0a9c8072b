(** C51: skipping rows and reading them; C24 for structs. *)
From Coq Require Import ZifyBool ZifyNat.
From Verif.Model Require Import Go Codec ByteBool IntRle Chunk Stream Time File Column Nested Tree.
From Verif.Spec Require Import BoolSpec Session ChunkSpec StreamSpec IntSpec ColumnSpec SeekSpec.
From Verif.Proofs Require Import Base StreamP ReadP ColumnP ColumnReadP StatsP SeekP TreeP SkipP.
From Verif.Properties Require Import Columns Stats Seek.

(** A column reader is in the same state, or fails in the same way, after skipping as
    after reading the rows; whatever state it is in and whatever its streams hold. *)
Theorem C51_column : forall inflate o c vec, zlen vec < W63 ->
  Forall (fun v => (cr_present c = None -> Null v = false) /\ accepts (cr_kind c) (V v)) vec ->
  Skip inflate o (zlen vec) c =
    match NextBatch inflate o c vec with Ok (_, c') => Ok c' | Err => Err | Panic => Panic end.
Proof.
  intros inflate o c vec Hl H. unfold Skip. rewrite i64_id by (unfold is_i64, zlen in *; lia). unfold zlen. rewrite Nat2Z.id.
  rewrite (skip_is_next inflate o vec c H). unfold after. destruct (NextBatch inflate o c vec) as [[x c']| |]; reflexivity.
Qed.
Print Assumptions C51_column.
(** So is a struct without nulls, however deep, and one with nulls whose columns have
    none.  Missing: columns with nulls, and structs, below a struct with nulls. *)
Theorem C51_tree_partial : forall inflate o n t v t', Z.of_nat n < W63 -> room n t v ->
  (tree_Skip inflate o (Z.of_nat n) t = Ok t' <-> exists out, tree_NextBatch inflate o t v = Ok (out, t')).
Proof.
  intros inflate o n t v t' Hn H. unfold tree_Skip. rewrite i64_id by (unfold is_i64; lia). rewrite Nat2Z.id.
  exact (tree_skip inflate o n t v t' H).
Qed.
Print Assumptions C51_tree_partial.

(** A struct of one integer column, written by the column writers: the tree of readers,
    and what is in the batch of [n] rows after [skipped] rows. *)
Definition struct_reader (hn chn : bool) (svs cvs : list value) : res ctree :=
  let! (sb, sinfos, _) := writeColumn toy_deflate fl zl64 0 (newColW zl64 0 KStruct hn) svs in
  let! (cb, cinfos, _) := writeColumn toy_deflate fl zl64 0 (newColW zl64 1 KInt chn) cvs in
  let! rs := InitStreams (sb ++ cb) (newColR KStruct hn) (offsets 0 sinfos) in
  let! rc := InitStreams (sb ++ cb) (newColR KInt chn) (offsets (zlen sb) cinfos) in
  Ok (CStruct (cr_present rs) None [CLeaf rc]).
Definition blank_tree (n : nat) : vtree := VT (blank n) [VT (blank n) []].
Definition flat_rows (v : vtree) : list (list (option gval)) :=
  match v with VT _ cs => map (fun c => match c with VT vs _ => rows_of vs end) cs end.
Definition skip_then (hn chn : bool) svs cvs (k : Z) (n : nat) : res (list (list (option gval))) :=
  let! t := struct_reader hn chn svs cvs in
  let! t' := tree_Skip toy_inflate zl64 k t in
  let! (out, _) := tree_NextBatch toy_inflate zl64 t' (blank_tree n) in Ok (flat_rows out).
Definition read_then (hn chn : bool) svs cvs (k n : nat) : res (list (list (option gval))) :=
  let! t := struct_reader hn chn svs cvs in
  let! (_, t') := tree_NextBatch toy_inflate zl64 t (blank_tree k) in
  let! (out, _) := tree_NextBatch toy_inflate zl64 t' (blank_tree n) in Ok (flat_rows out).
Definition five_rows : list value := map (fun z => val (GInt32 z)) [5; 6; 7; 8; 9].
Definition two_of_five : list value := [vnull; val GNil; vnull; val GNil; val GNil].

Example C51_case : (exists t, struct_reader true false two_of_five [vnull; val (GInt32 6); vnull; val (GInt32 8); val (GInt32 9)] = Ok t /\
    room 3 t (blank_tree 3)) /\
  skip_then true false two_of_five [vnull; val (GInt32 6); vnull; val (GInt32 8); val (GInt32 9)] 3 2 = Ok [[Some (GInt32 8); Some (GInt32 9)]] /\
  skip_then false false five_rows five_rows 3 2 = Ok [[Some (GInt32 8); Some (GInt32 9)]].
Proof.
  split; [|split; vm_compute; reflexivity].
  destruct (struct_reader true false two_of_five [vnull; val (GInt32 6); vnull; val (GInt32 8); val (GInt32 9)]) as [t| |] eqn:E;
    [|exfalso; vm_compute in E; discriminate E..].
  exists t. split; [reflexivity|].
  match type of E with ?x = _ => let y := eval vm_compute in x in assert (Ey : x = y) by (vm_compute; reflexivity); rewrite Ey in E end.
  injection E as <-. constructor; [reflexivity|]. constructor; [|constructor].
  do 2 eexists. split; [reflexivity|]. split; [reflexivity|]. split; [reflexivity|]. split; [reflexivity|].
  repeat constructor.
Qed.

(** A column with nulls below a struct with nulls has a PRESENT bit for every row, but is
    skipped only where the struct is not null: the two get out of step, and rows that are
    not null are silently read as null. *)
Theorem C51_refuted : exists svs cvs,
  read_then true true svs cvs 1 2 = Ok [[Some (GInt32 6); Some (GInt32 7)]] /\
  skip_then true true svs cvs 1 2 = Ok [[None; Some (GInt32 6)]].
Proof.
  exists [vnull; val GNil; val GNil], [vnull; val (GInt32 6); val (GInt32 7)].
  split; vm_compute; reflexivity.
Qed.
Print Assumptions C51_refuted.

(** Seeking a struct without nulls seeks all columns below it, and nothing else. *)
Theorem C24_struct_partial : forall inflate o stride t t', solid t = true ->
  (tree_SeekStride inflate o stride t = Ok t' <-> leafwise (fun c c' => SeekStride inflate o stride c = Ok c') t t').
Proof. intros inflate o stride t t' H. exact (tree_seek inflate o stride t t' H). Qed.
Print Assumptions C24_struct_partial.
