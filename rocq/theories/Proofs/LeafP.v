(** What the reader of a primitive column hands out, whatever its kind. *)
From Coq Require Import ZifyBool ZifyNat.
From Verif.Model Require Import Go Codec ByteBool IntRle Chunk Stream Time File Column Nested Tree.
From Verif.Spec Require Import Session StreamSpec ChunkSpec ColumnSpec.
From Verif.Proofs Require Import Base SessionP ReadP ColumnP ColumnReadP ColumnFaultsP TreeP.

Section Leaves.
Variable inflate : list Z -> res (list Z).
Variable o : opts.
Notation leaf := readable.
Notation nv := (fun c => nextValue inflate o c GNil).
Notation rowNext := (rowNext inflate o).

(** Flags preset, values from the data streams. *)
Lemma NextBatch_preset vec : forall c col, leaf (cr_kind c) = true -> cr_present c = None ->
  (length vec <= length col)%nat -> map Null vec = map Null (firstn (length vec) col) ->
  Yields nv c (nonnull (rows_of col)) ->
  exists out c', NextBatch inflate o c vec = Ok (out, c') /\ rows_of out = rows_of (firstn (length vec) col) /\
    map Null out = map Null vec /\ Yields nv c' (nonnull (rows_of (skipn (length vec) col))) /\
    cr_kind c' = cr_kind c /\ cr_present c' = None.
Proof.
  induction vec as [|v t IH]; intros c col Hl Hp Hle Hm Hy; [exists [], c; cbn; auto 10|].
  destruct col as [|x col]; cbn [length] in *; [lia|]. cbn [firstn map] in Hm.
  assert (Hv : Null v = Null x) by congruence. assert (Hm' : map Null t = map Null (firstn (length t) col)) by congruence.
  cbn [NextBatch]. unfold nextRow, nextPresent. rewrite Hp. cbn [rbind].
  destruct (Null x) eqn:Ex.
  - rewrite Hv. cbn [rbind]. destruct (IH c col Hl Hp ltac:(lia) Hm') as (out & c' & H1 & H2 & H3 & H4 & H5).
    { revert Hy. unfold rows_of, nonnull. cbn [map flat_map]. unfold row_of at 1. rewrite Ex. auto. }
    rewrite H1. cbn [rbind]. eexists _, c'. split; [reflexivity|]. cbn [rows_of map firstn skipn Null] in *.
    split; [unfold row_of at 1 3; rewrite Ex; cbn [Null]; f_equal; exact H2|]. rewrite H3, Hv. auto.
  - rewrite Hv. cbn [rbind].
    assert (Hy2 : Yields nv c (V x :: nonnull (rows_of col))).
    { revert Hy. unfold rows_of, nonnull. cbn [map flat_map]. unfold row_of at 1. rewrite Ex. auto. }
    inversion Hy2 as [|? ? c1 ? Hn Hy']; subst. cbv beta in Hn.
    rewrite nextValue_old by exact Hl. rewrite Hn. cbn [rbind].
    destruct (nextValue_same _ _ _ _ _ _ Hn) as (Hk1 & Hp1 & _).
    destruct (IH c1 col) as (out & c' & H1 & H2 & H3 & H4 & H5 & H6); try congruence; [lia|].
    rewrite H1. cbn [rbind]. eexists _, c'. split; [reflexivity|]. cbn [rows_of map firstn skipn Null] in *.
    split; [unfold row_of at 1 3; rewrite Ex; cbn [Null V]; f_equal; exact H2|]. rewrite H3, Hv. split; [reflexivity|]. split; [exact H4|]. split; congruence.
Qed.


(** Binary columns are read as string columns are. *)
Definition bin (c : colR) : colR :=
  {| cr_kind := KBinary; cr_hasNulls := cr_hasNulls c; cr_present := cr_present c; cr_data := cr_data c;
     cr_second := cr_second c; cr_index := cr_index c |}.
Definition tob (g : gval) : gval := match g with GString s => GBytes s | _ => g end.
Definition tos (g : gval) : gval := match g with GBytes s => GString s | _ => g end.
Lemma nextRow_bin c v x c' : cr_kind c = KString -> nextRow inflate o c v = Ok (x, c') ->
  cr_kind c' = KString /\ exists y, nextRow inflate o (bin c) v = Ok (y, bin c') /\ row_of y = option_map tob (row_of x).
Proof.
  intros Hk H. unfold nextRow in *. apply rbind_inv in H. destruct H as ([n c1] & Hp & H).
  assert (Hp' : cr_kind c1 = KString /\ nextPresent inflate o (bin c) (Null v) = Ok (n, bin c1)).
  { unfold nextPresent in *. cbn [bin cr_present]. destruct (cr_present c) as [b|].
    - apply rbind_inv in Hp. destruct Hp as ([p b'] & -> & Hp). cbn [rbind].
      assert (n = negb p /\ c1 = setPresent b' c) as [-> ->] by (split; congruence). split; [exact Hk|reflexivity].
    - assert (n = Null v /\ c1 = c) as [-> ->] by (split; congruence). split; [exact Hk|reflexivity]. }
  destruct Hp' as [Hk1 ->]. cbn [rbind]. destruct n.
  - assert (x = {| Null := true; V := V v |} /\ c' = c1) as [-> ->] by (split; congruence). split; [exact Hk1|].
    eexists. split; [reflexivity|]. reflexivity.
  - apply rbind_inv in H. destruct H as ([g c2] & Hv & H). unfold nextValue in *. rewrite Hk1 in Hv. cbn [bin cr_kind cr_second cr_data].
    apply rbind_inv in Hv. destruct Hv as ([len s'] & -> & Hv). cbn [rbind].
    apply rbind_inv in Hv. destruct Hv as ([d s2] & -> & Hv). cbn [rbind].
    assert (g = GString d /\ c2 = setData s2 (setSecond s' c1)) as [-> ->] by (split; congruence).
    assert (x = {| Null := false; V := GString d |} /\ c' = setData s2 (setSecond s' c1)) as [-> ->] by (split; congruence).
    split; [exact Hk1|]. eexists. split; [reflexivity|]. reflexivity.
Qed.
Lemma NextBatch_bin vec : forall c out c', cr_kind c = KString -> NextBatch inflate o c vec = Ok (out, c') ->
  cr_kind c' = KString /\ exists out', NextBatch inflate o (bin c) vec = Ok (out', bin c') /\
    rows_of out' = map (option_map tob) (rows_of out).
Proof.
  induction vec as [|v t IH]; intros c out c' Hk H; cbn [NextBatch] in *.
  - assert (out = [] /\ c' = c) as [-> ->] by (split; congruence). split; [exact Hk|]. exists []. split; reflexivity.
  - apply rbind_inv in H. destruct H as ([x c1] & H1 & H). apply rbind_inv in H. destruct H as ([xs c2] & H2 & H).
    assert (out = x :: xs /\ c' = c2) as [-> ->] by (split; congruence).
    destruct (nextRow_bin c v x c1 Hk H1) as (Hk1 & y & -> & Hy). cbn [rbind].
    destruct (IH c1 xs c2 Hk1 H2) as (Hk2 & ys & -> & Hys). cbn [rbind]. split; [exact Hk2|].
    eexists. split; [reflexivity|]. unfold rows_of in *. cbn [map]. rewrite Hy, Hys. reflexivity.
Qed.

(** The reader [tr] of a primitive column stands before the values [col]; [h]: it has a
    PRESENT stream. *)
Definition tosV (v : value) : value := {| Null := Null v; V := tos (V v) |}.
Definition colAt (h : bool) (col : list value) (c : colR) : Prop :=
  if h then cr_present c <> None /\ Yields rowNext c (rows_of col)
  else cr_present c = None /\ Yields nv c (nonnull (rows_of col)).
Inductive LeafAt (h : bool) (col : list value) : ctree -> Prop :=
| LCol c : leaf (cr_kind c) = true -> colAt h col c -> LeafAt h col (CLeaf c)
| LBin c : cr_kind c = KString -> Forall (fun v => Null v = false -> exists s, V v = GBytes s) col ->
    colAt h (map tosV col) c -> LeafAt h col (CLeaf (bin c))
| LDict ss d : DictAt inflate o ss col d -> (dr_present d = None <-> h = false) -> LeafAt h col (CDict d).

Lemma col_step h col c vec : leaf (cr_kind c) = true -> colAt h col c -> (length vec <= length col)%nat ->
  (h = false -> map Null vec = map Null (firstn (length vec) col)) ->
  exists out c', NextBatch inflate o c vec = Ok (out, c') /\ rows_of out = rows_of (firstn (length vec) col) /\
    cr_kind c' = cr_kind c /\ colAt h (skipn (length vec) col) c'.
Proof.
  intros Hl Hc Hle Hn. destruct h; destruct Hc as [Hp Hy].
  - destruct (NextBatch_rows _ _ vec c _ Hl ltac:(intros; contradiction) Hy) as (out & c' & H1 & H2 & H3 & H4 & H5).
    { unfold rows_of. rewrite map_length. exact Hle. }
    exists out, c'. split; [exact H1|]. unfold rows_of in *. rewrite <- firstn_map. split; [exact H2|]. split; [exact H4|].
    split; [tauto|]. unfold rows_of. rewrite <- skipn_map. exact H3.
  - destruct (NextBatch_preset vec c col Hl Hp Hle (Hn eq_refl) Hy) as (out & c' & H1 & H2 & H3 & H4 & H5 & H6).
    exists out, c'. split; [exact H1|]. split; [exact H2|]. split; [exact H5|]. split; assumption.
Qed.
Lemma tosV_null l : map Null (map tosV l) = map Null l.
Proof. rewrite map_map. reflexivity. Qed.
Lemma back l : Forall (fun v => Null v = false -> exists s, V v = GBytes s) l ->
  map (option_map tob) (rows_of (map tosV l)) = rows_of l.
Proof.
  intros H. induction H as [|v t Hv Ht IH]; [reflexivity|]. unfold rows_of in *. cbn [map]. rewrite IH. f_equal.
  unfold row_of, tosV. cbn [Null V]. destruct (Null v); [reflexivity|]. destruct (Hv eq_refl) as (s & ->). reflexivity.
Qed.
Lemma Forall_sub {A} (P : A -> Prop) l n : Forall P l -> Forall P (firstn n l) /\ Forall P (skipn n l).
Proof. intros H. rewrite <- (firstn_skipn n l) in H. apply Forall_app in H. exact H. Qed.
Lemma rows_flags (out col : list value) : rows_of out = rows_of col -> map Null out = map Null col.
Proof.
  clear. revert col. induction out as [|v t IH]; intros [|x col] H; try discriminate; [reflexivity|]. cbn [map].
  unfold rows_of in H. cbn [map] in H. rewrite (IH col) by (unfold rows_of; congruence). f_equal.
  assert (E : row_of v = row_of x) by congruence. unfold row_of in E. destruct (Null v), (Null x); try reflexivity; discriminate.
Qed.
(** One batch from a primitive column. *)
Lemma leaf_step h col tr vec kids : LeafAt h col tr -> (length vec <= length col)%nat ->
  (h = false -> map Null vec = map Null (firstn (length vec) col)) ->
  exists out tr', tree_NextBatch inflate o tr (VT vec kids) = Ok (VT out kids, tr') /\
    rows_of out = rows_of (firstn (length vec) col) /\ LeafAt h (skipn (length vec) col) tr'.
Proof.
  intros Hat Hle Hn. destruct Hat as [c Hl Hc|c Hk Hb Hc|ss d Hd Hh].
  - destruct (col_step h col c vec Hl Hc Hle Hn) as (out & c' & H1 & H2 & H3 & H4). rewrite tree_NextBatch_leaf, H1. cbn [rbind].
    eexists _, _. split; [reflexivity|]. split; [exact H2|]. constructor; [congruence|exact H4].
  - destruct (col_step h (map tosV col) c vec) as (out & c' & H1 & H2 & H3 & H4); try assumption.
    { rewrite Hk. reflexivity. }
    { rewrite map_length. exact Hle. }
    { intros E. rewrite firstn_map, tosV_null. exact (Hn E). }
    destruct (NextBatch_bin vec c out c' Hk H1) as (Hk' & out' & H5 & H6). rewrite tree_NextBatch_leaf, H5. cbn [rbind].
    eexists _, _. split; [reflexivity|]. destruct (Forall_sub _ _ (length vec) Hb) as [Hb1 Hb2]. split.
    + rewrite H6, H2, firstn_map. apply back. exact Hb1.
    + apply LBin; [exact Hk'|exact Hb2|]. rewrite <- skipn_map. exact H4.
  - destruct (dict_batch inflate o ss col d vec Hd Hle) as (out & d' & H1 & H2 & H3 & H4 & H5).
    { intros E. apply Hn. apply Hh. exact E. }
    rewrite tree_NextBatch_dict, H1. cbn [rbind]. eexists _, _. split; [reflexivity|]. split; [exact H2|].
    apply (LDict _ _ ss); [exact H4|tauto].
Qed.
End Leaves.
