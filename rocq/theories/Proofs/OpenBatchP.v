(** Opening a file one stripe after the other succeeds exactly if reading all footers and
    then making all stripe readers does, with the same result. *)
From Verif.Model Require Import Go Codec Chunk Stream Schema Rows File Column Wire Assembled.
From Verif.Proofs Require Import Base.

Section S.
Context (inflate : list Z -> res (list Z)) (o : opts) (nodes : list node) (hasNulls : list bool) (bopt : batchOption).
Fixpoint newStripes (file : list Z) (l : list stripeInfo) (xs : list (list Z * list (strm * Z))) : res (list stripeRd) :=
  match l, xs with
  | i :: l', x :: xs' =>
      let! s := newStripeRd inflate o nodes hasNulls bopt file (NumberOfRows i) x in
      let! r := newStripes file l' xs' in Ok (s :: r)
  | _, _ => Ok []
  end.

Lemma openStripes_ok file l : forall ss, openStripes inflate o nodes hasNulls bopt file l = Ok ss <->
  exists xs, initStripes inflate unmarshalSF (CompressionKind o) file l = Ok xs /\ newStripes file l xs = Ok ss.
Proof.
  induction l as [|i l IH]; intros ss; cbn [openStripes initStripes].
  - split; [intros H; exists []; split; [reflexivity|exact H]|intros (xs & E & H)]. assert (xs = []) as -> by congruence. exact H.
  - destruct (NumberOfRows i =? 0); [split; [discriminate|intros (? & H & _); discriminate]|].
    destruct (openStripe inflate unmarshalSF (CompressionKind o) file i) as [x| |]; cbn [rbind]; try (split; [discriminate|intros (? & H & _); discriminate]).
    split.
    + intros H. apply rbind_inv in H. destruct H as (s & Hs & H). apply rbind_inv in H. destruct H as (r & Hr & H).
      apply IH in Hr. destruct Hr as (xs & Hxs & Hr). exists (x :: xs). rewrite Hxs. split; [reflexivity|].
      cbn [newStripes]. rewrite Hs, Hr. exact H.
    + intros (xs & Hxs & H). apply rbind_inv in Hxs. destruct Hxs as (y & Hy & E). assert (xs = x :: y) as -> by congruence.
      cbn [newStripes] in H. apply rbind_inv in H. destruct H as (s & Hs & H). apply rbind_inv in H. destruct H as (r & Hr & H).
      rewrite Hs. cbn [rbind]. rewrite (proj2 (IH r)) by eauto. exact H.
Qed.
(** A stripe without rows stops the loop, if nothing crashes before. *)
Lemma openStripes_empty file l : forall j, (exists i, nth_error l j = Some i /\ NumberOfRows i = 0) ->
  (forall k i, nth_error l k = Some i -> openStripe inflate unmarshalSF (CompressionKind o) file i <> Panic /\
     forall x, openStripe inflate unmarshalSF (CompressionKind o) file i = Ok x ->
       newStripeRd inflate o nodes hasNulls bopt file (NumberOfRows i) x <> Panic) ->
  openStripes inflate o nodes hasNulls bopt file l = Err.
Proof.
  induction l as [|i l IH]; intros [|j] (i0 & Hj & H0) H; try discriminate; cbn [nth_error openStripes] in *.
  - assert (i = i0) as -> by congruence. rewrite H0. reflexivity.
  - destruct (Z.eqb_spec (NumberOfRows i) 0) as [|Hi]; [reflexivity|].
    destruct (H O i eq_refl) as (H1 & H2). destruct (openStripe _ _ _ _ _) as [x| |]; cbn [rbind]; [|reflexivity|congruence].
    specialize (H2 x eq_refl). destruct (newStripeRd _ _ _ _ _ _ _ _) as [s| |]; cbn [rbind]; [|reflexivity|congruence].
    rewrite (IH j); [reflexivity|eauto|]. intros k. apply (H (S k)).
Qed.
End S.

Lemma openBatches_ok inflate bopt file q : openBatches inflate bopt file = Ok q <->
  (let! r := newFileReader inflate cs_hasNull unmarshalPS unmarshalFooter file in
   let! xs := CreateBatchReader inflate unmarshalSF (RowSize bopt) file r in
   let! ss := newStripes inflate (readerOpts r) (fr_nodes r) (fr_hasNulls r) bopt file (fr_stripes r) xs in
   Ok (r, {| br_stripes := ss; br_index := 0; br_total := fr_rows r; br_cursor := 0 |})) = Ok q.
Proof.
  unfold openBatches. destruct (newFileReader _ _ _ _ _) as [r| |]; cbn [rbind]; [|split; discriminate..].
  unfold CreateBatchReader. destruct (RowSize bopt =? 0); [split; discriminate|].
  split; intros H; apply rbind_inv in H.
  - destruct H as (ss & Hs & H). apply openStripes_ok in Hs. destruct Hs as (xs & Hxs & Hs). cbn [readerOpts CompressionKind] in Hxs.
    rewrite Hxs. cbn [rbind]. rewrite Hs. exact H.
  - destruct H as (xs & Hxs & H). apply rbind_inv in H. destruct H as (ss & Hs & H).
    rewrite (proj2 (openStripes_ok _ _ _ _ _ _ _ ss)) by (exists xs; split; [exact Hxs|exact Hs]). exact H.
Qed.
Lemma openBatches_reader inflate bopt file r x : openBatches inflate bopt file = Ok (r, x) ->
  newFileReader inflate cs_hasNull unmarshalPS unmarshalFooter file = Ok r.
Proof.
  unfold openBatches. intros H. apply rbind_inv in H. destruct H as (r' & E & H). destruct (RowSize bopt =? 0); [discriminate|].
  apply rbind_inv in H. destruct H as (ss & _ & H). rewrite E. congruence.
Qed.
