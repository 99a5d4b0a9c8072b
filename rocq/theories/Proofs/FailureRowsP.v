(** The rows failing Writes leave: a client that gives up, and one refused at once. *)
From Coq Require Import ZifyBool ZifyNat.
From Verif.Model Require Import Go Chunk Stream Schema Rows Time File Column Wire Assembled Failure.
From Verif.Spec Require Import ChunkSpec SchemaSpec RowsSpec FileSpec ColumnSpec AssemblySpec EndSpec FailureSpec.
From Verif.Proofs Require Import Base FileP BatchP EndP EndColP EndMainP FailureP FailureFileP.

Lemma column_of_app {V} x (a b : list (row V)) : column_of x (a ++ b) = column_of x a ++ column_of x b.
Proof. unfold column_of. rewrite concat_app, filter_app, map_app. reflexivity. Qed.

Section Rows.
Variable V : Type.
Variable refused : nat -> V -> Prop.
(** Every column of the stripe was given the cells of [rows]. *)
Definition same (cells rows : list (row V)) : Prop := forall x, column_of x cells = column_of x rows.
Definition solid (g : page V) (rows : list (row V)) : Prop := same (pg_cells g) rows /\ length rows = pg_rows g.
Lemma same_snoc a b p : same a b -> same (a ++ [p]) (b ++ [p]).
Proof. intros H x. rewrite !column_of_app, (H x). reflexivity. Qed.
Notation rowsOf v s rs := (Forall2 (fun i r => @cells V i v = Some r) (seq s (length rs)) rs).
Lemma rowsOf_snoc v s rs p : rowsOf v s rs -> cells (s + length rs) v = Some p -> rowsOf v s (rs ++ [p]).
Proof.
  intros H Hp. rewrite app_length. cbn [length]. replace (length rs + 1)%nat with (S (length rs)) by lia. rewrite seq_S.
  apply Forall2_app; [exact H|]. constructor; [exact Hp|constructor].
Qed.
Lemma rowsOf_app v s rs rs' : rowsOf v s rs -> rowsOf v (s + length rs) rs' -> rowsOf v s (rs ++ rs').
Proof. intros H1 H2. rewrite app_length, seq_app. apply Forall2_app; assumption. Qed.

Lemma Attempt_rows v i n q b q' : Attempt refused v i n q b q' -> forall s ls kept loose,
  Forall2 solid (fst q) ls -> same (pg_cells (snd q)) (kept ++ loose) -> pg_rows (snd q) = length kept ->
  length loose = n -> (s + n = i)%nat -> rowsOf v s loose ->
  exists ls' kept' extra rs, Forall2 solid (fst q') ls' /\ same (pg_cells (snd q')) (kept' ++ extra) /\ pg_rows (snd q') = length kept' /\
    concat ls' ++ kept' = concat ls ++ kept ++ rs /\
    (b = true -> extra = [] /\ (s + length rs)%nat = vlen v /\ rowsOf v s rs) /\
    (b = false -> exists more p id y, extra = more ++ [p] /\ rowsOf v s (rs ++ more) /\
       stops refused v (s + length (rs ++ more)) p id y /\ (rs = [] /\ kept' = kept \/ kept' = [])).
Proof.
  induction 1 as [n ps g|i n ps g p b q Hi Hc Hacc _ IH|i n ps g p b q Hi Hc Hacc _ IH|i n ps g a id l y rest p Hi Hv Ha Hacc Hy Hr];
    intros s ls kept loose H1 H2 H3 H4 H5 H6; cbn [fst snd] in *.
  - exists ls, (kept ++ loose), [], loose. rewrite app_nil_r. split; [exact H1|]. split; [exact H2|].
    split; [cbn [counting pg_rows]; rewrite app_length; lia|]. split; [reflexivity|]. split; [|discriminate].
    intros _. split; [reflexivity|]. split; [lia|exact H6].
  - apply (IH s ls kept (loose ++ [p])); auto.
    + cbn [with_row pg_cells]. rewrite app_assoc. apply same_snoc. exact H2.
    + rewrite app_length. cbn. lia.
    + lia.
    + apply rowsOf_snoc; [exact H6|]. replace (s + length loose)%nat with i by lia. exact Hc.
  - destruct (IH (S i) (ls ++ [kept ++ loose ++ [p]]) [] []) as (ls' & kept' & extra & rs & I1 & I2 & I3 & I4 & I5 & I6).
    + apply Forall2_app; [exact H1|]. constructor; [|constructor]. split.
      * cbn [counting with_row pg_cells]. rewrite app_assoc. apply same_snoc. exact H2.
      * cbn [counting with_row pg_rows]. rewrite !app_length. cbn [length]. lia.
    + intros x. reflexivity.
    + reflexivity.
    + reflexivity.
    + lia.
    + constructor.
    + assert (Hp : rowsOf v s (loose ++ [p])) by (apply rowsOf_snoc; [exact H6|]; replace (s + length loose)%nat with i by lia; exact Hc).
      assert (Hl : (s + length (loose ++ [p]) = S i)%nat) by (rewrite app_length; cbn [length]; lia).
      exists ls', kept', extra, ((loose ++ [p]) ++ rs). split; [exact I1|]. split; [exact I2|]. split; [exact I3|].
      split. { rewrite I4, concat_app. cbn [concat app]. rewrite app_nil_r, <- !app_assoc. reflexivity. }
      split.
      * intros Hb. destruct (I5 Hb) as (J1 & J2 & J3). split; [exact J1|]. split; [rewrite app_length; lia|].
        apply rowsOf_app; [exact Hp|]. rewrite Hl. exact J3.
      * intros Hb. destruct (I6 Hb) as (more & p' & id & y & J1 & J2 & J3 & J4). exists more, p', id, y. split; [exact J1|]. rewrite <- app_assoc.
        split; [apply rowsOf_app; [exact Hp|rewrite Hl; exact J2]|]. rewrite app_length.
        replace (s + (length (loose ++ [p]) + length (rs ++ more)))%nat with (S i + length (rs ++ more))%nat by lia. split; [exact J3|].
        right. destruct J4 as [[_ J4]|J4]; exact J4.
  - exists ls, kept, (loose ++ [p]), []. split; [exact H1|]. split; [cbn [with_row pg_cells]; rewrite app_assoc; apply same_snoc; exact H2|].
    split; [exact H3|]. split; [rewrite app_nil_r; reflexivity|]. split; [discriminate|]. intros _.
    exists loose, p, id, y. split; [reflexivity|]. cbn [app]. split; [exact H6|]. replace (s + length loose)%nat with i by lia.
    split; [|left; auto]. split; [exact Hi|]. split; [exists a, l, rest; auto|]. split; [exact Hacc|exact Hr].
Qed.

(** Refused at once: the page gets a row without cells. *)
Lemma Attempt_at_once v q q' : Attempt refused v 0 0 q false q' -> stops_at_once refused v ->
  exists p, q' = (fst q, with_row p (snd q)) /\ p = [].
Proof.
  intros H (id & y & l & rest & Hv & Hr).
  assert (Hno : forall p, cells 0 v = Some p -> accepted refused p -> False).
  { intros p Hp Hacc. pose proof (cells_across _ _ _ _ Hp) as Hx. rewrite Hv in Hx. inversion Hx as [|u w ? ? [E1 E2] ?]; subst.
    inversion Hacc as [|? ? Hn _]; subst. apply Hn. destruct w as [w1 w2]. cbn in *. assert (w2 = y) as -> by congruence. subst w1. exact Hr. }
  inversion H as [|i n ps g p b0 q0 Hi Hc Hacc _|i n ps g p b0 q0 Hi Hc Hacc _|i n ps g a id' l' y' rest' p Hi Hv' Ha Hacc Hy' Hr']; subst.
  - exfalso. eapply Hno; eassumption.
  - exfalso. eapply Hno; eassumption.
  - exists p. split; [reflexivity|]. destruct a as [|[i0 l0] a]; [inversion Ha; reflexivity|].
    exfalso. cbn [app] in Hv'. rewrite Hv in Hv'. injection Hv' as <- <- _. inversion Ha as [|u w ? ? [E1 E2] ?]; subst.
    inversion Hacc as [|? ? Hn _]; subst. apply Hn. destruct w as [w1 w2]. cbn in *. assert (w2 = y) as -> by congruence. subst w1. exact Hr.
Qed.

(** The state of a client none of whose rows is uncounted. *)
Definition Tidy (q : list (page V) * page V) (rows : list (row V)) : Prop :=
  exists ls last, Forall2 solid (fst q) ls /\ solid (snd q) last /\ concat ls ++ last = rows.
Lemma Attempt_tidy v q q' rows : Attempt refused v 0 0 q true q' -> Tidy q rows ->
  exists rs, Forall2 (fun i r => cells i v = Some r) (seq 0 (vlen v)) rs /\ Tidy q' (rows ++ rs).
Proof.
  intros H (ls & last & H1 & [H2 H2'] & <-). destruct (Attempt_rows _ _ _ _ _ _ H 0%nat ls last [] H1) as (ls' & kept' & extra & rs & I1 & I2 & I3 & I4 & I5 & _); auto.
  { rewrite app_nil_r. exact H2. } { constructor. }
  destruct (I5 eq_refl) as (-> & J2 & J3). rewrite app_nil_r in I2. cbn [Nat.add] in J2. exists rs. rewrite J2 in J3. split; [exact J3|].
  exists ls', kept'. split; [exact I1|]. split; [split; [exact I2|auto]|]. rewrite I4, app_assoc. reflexivity.
Qed.
(** Those of the batches that were written. *)
Definition done (l : list (cvec V * bool)) : list (cvec V) := map fst (filter snd l).
Lemma Attempts_tidy l q q' : Attempts refused l q q' -> Forall (fun x => snd x = true \/ stops_at_once refused (fst x)) l ->
  forall rows, Tidy q rows -> exists rows', FileSpec.Rows (done l) rows' /\ Tidy q' (rows ++ rows').
Proof.
  induction 1 as [q|v b l q q1 q2 H H2 IH]; intros Hl rows Ht.
  - exists []. rewrite app_nil_r. split; [constructor|exact Ht].
  - inversion Hl as [|? ? Hv Hr]; subst. destruct b.
    + destruct (Attempt_tidy _ _ _ _ H Ht) as (rs & Hrs & Ht'). destruct (IH Hr _ Ht') as (rows' & Hrows & Hq).
      exists (rs ++ rows'). rewrite app_assoc. split; [|exact Hq]. unfold done. cbn [filter snd map fst]. constructor; assumption.
    + destruct Hv as [Hv|Hv]; [discriminate|]. destruct (Attempt_at_once _ _ _ H Hv) as (p & -> & ->).
      apply (IH Hr). destruct Ht as (ls & last & T1 & [T2 T2'] & T3). exists ls, last. split; [exact T1|]. split; [|exact T3].
      split; [|exact T2']. intros x. cbn [snd with_row pg_cells]. rewrite column_of_app, (T2 x). unfold column_of at 2. cbn. apply app_nil_r.
Qed.
Lemma Rows_fun (vs : list (cvec V)) rows : FileSpec.Rows vs rows -> forall rows', FileSpec.Rows vs rows' -> rows' = rows.
Proof.
  induction 1 as [|v vs rs rows Hrs _ IH]; intros rows' H; inversion H as [|? ? rs' rows2 Hrs' Hr]; subst; [reflexivity|].
  rewrite (IH _ Hr). f_equal. clear - Hrs Hrs'. revert rs' Hrs'. induction Hrs as [|i r l l' Hi _ IH]; intros rs' H; inversion H; subst; [reflexivity|].
  f_equal; [congruence|auto].
Qed.
Lemma Attempts_app l1 l2 q q' : Attempts refused (l1 ++ l2) q q' -> exists q1, Attempts refused l1 q q1 /\ Attempts refused l2 q1 q'.
Proof.
  revert q. induction l1 as [|[v b] l1 IH]; intros q H; cbn [app] in H.
  - exists q. split; [constructor|exact H].
  - inversion H as [|? ? ? ? q1 ? H1 H2]; subst. destruct (IH _ H2) as (q2 & A & B). exists q2. split; [econstructor; eassumption|exact B].
Qed.
Lemma Tidy_empty : Tidy ([], empty_page) [].
Proof. exists [], []. split; [constructor|]. split; [split; [intros x; reflexivity|reflexivity]|reflexivity]. Qed.
Lemma same_reads g rows extra : same (pg_cells g) (rows ++ extra) -> length rows = pg_rows g -> reads_as g rows.
Proof. intros H Hl. split; [exact Hl|]. intros x. exists (column_of x extra). rewrite (H x), column_of_app. reflexivity. Qed.
Lemma solid_reads g rows : solid g rows -> reads_as g rows.
Proof. intros [H Hl]. apply (same_reads g rows []); [rewrite app_nil_r; exact H|exact Hl]. Qed.
End Rows.

Lemma given_same t a b : Forall2 (same value) a b -> given_ok t b -> given_ok t a.
Proof.
  intros H (H1 & H2 & H3). 
  assert (E : map (column_of (col t)) a = map (column_of (col t)) b) by (clear - H; induction H as [|x y ? ? Hx _ IH]; cbn [map]; [reflexivity|]; rewrite (Hx (col t)), IH; reflexivity).
  assert (T : forall (P : list value -> Prop) (c d : list (list (row value))), map (column_of (col t)) c = map (column_of (col t)) d ->
     Forall (fun rows => P (column_of (col t) rows)) d -> Forall (fun rows => P (column_of (col t) rows)) c).
  { intros P c d Ec Hd. rewrite <- (Forall_map (column_of (col t)) P), Ec, Forall_map. exact Hd. }
  assert (E' : map (column_of (col t)) (removelast a) = map (column_of (col t)) (removelast b)) by (rewrite <- !removelast_map, E; reflexivity).
  split; [|split].
  - intros k Hk Hs. apply (T (fun vs => let gs := nonnull (rows_of vs) in Forall (typed k) gs /\ carried k gs) _ _ E). exact (H1 k Hk Hs).
  - intros Hh. apply (T (fun vs => (length vs mod 8 = 0)%nat) _ _ E'). auto.
  - intros Hh. apply (T (fun vs => (length (nonnull (rows_of vs)) mod 8 = 0)%nat) _ _ E'). auto.
Qed.
Lemma storable_given x p rss : storable x p rss -> given_ok x rss.
Proof.
  intros (H1 & H2 & _ & H4 & H5). split; [exact H4|]. split; [|exact H5]. intros Hh. specialize (H2 Hh). rewrite Forall_forall in *. intros rows Hr.
  rewrite single_length by (eapply single_in; [apply Forall_forall; exact H1|apply In_removelast; exact Hr]). apply H2. exact Hr.
Qed.

Section Main.
Variable deflate : list (list Z) -> list Z -> res (list Z).
Variable inflate : list Z -> res (list Z).
Variable F : floats.
Variable o : opts.
Variables stride StripeSize : Z.
Hypothesis Hflate : flate_ok deflate inflate.
Hypothesis Hcs : 1 <= ChunkSize o < 2 ^ 23.
Variables (t0 schema : td) (file : list Z).
Hypothesis Hsize : size t0 <= 2 ^ 32.
Hypothesis Hnorm : NormalizeSchema t0 = Ok schema.
Hypothesis Hplain : plain_refusals schema.
Hypothesis Hfile : zlen file < 2 ^ 62.
Variable r : fileR colstats.
Hypothesis Hopen : newFileReader inflate cs_hasNull unmarshalPS unmarshalFooter file = Ok r.
Variable bopt : batchOption.
Hypothesis Hread : readable_schema bopt false schema = true.
Hypothesis Hinc : IsInclude bopt 0 = true.
Hypothesis Hrow : RowSize bopt <> 0.

(** All Writes succeed but the last, after which the client closes the file. *)
Lemma gives_up vs v rows : tried deflate F o stride StripeSize schema (map (fun v => (v, true)) vs ++ [(v, false)]) file ->
  Rows vs rows -> zlen rows + Z.of_nat (vlen v) < 2 ^ 62 ->
  exists rs more p id y ls last, Forall2 (fun i r => cells i v = Some r) (seq 0 (length (rs ++ more))) (rs ++ more) /\
    stops (refused_by schema) v (length (rs ++ more)) p id y /\
    rows ++ rs = concat (ls ++ [last]) /\ (rs = [] \/ last = []) /\
    comes_back inflate bopt schema file r ls last (ls ++ [last ++ more ++ [p]]).
Proof.
  intros Ht Hrows Hn.
  destruct (tried_read deflate inflate F o stride StripeSize Hflate Hcs t0 schema _ file Hsize Hnorm Hplain Ht Hfile r Hopen bopt Hread Hinc Hrow)
    as (ps & g & Ha & Hall).
  destruct (Attempts_app _ _ _ _ _ _ Ha) as (q1 & Ha1 & Ha2).
  destruct (Attempts_tidy _ _ _ _ _ Ha1) with (rows := @nil (row value)) as (rows' & Hr' & (ls0 & last0 & T1 & [T2 T2'] & T3)).
  { rewrite Forall_map. apply Forall_forall. intros x _. left. reflexivity. }
  { apply Tidy_empty. }
  assert (Hd : done value (map (fun v => (v, true)) vs) = vs).
  { unfold done. clear. induction vs as [|v vs IH]; [reflexivity|]. cbn [map filter snd fst]. rewrite IH. reflexivity. }
  rewrite Hd in Hr'. rewrite (Rows_fun _ _ _ Hrows _ Hr') in *. cbn [app] in T3.
  inversion Ha2 as [|? ? ? ? q2 ? Hat Hnil]; subst. inversion Hnil; subst.
  destruct (Attempt_rows _ _ _ _ _ _ _ _ Hat 0%nat ls0 last0 [] T1) as (ls & last & extra & rs & I1 & I2 & I3 & I4 & _ & I6); auto.
  { rewrite app_nil_r. exact T2. } { constructor. }
  destruct (I6 eq_refl) as (more & p & id & y & -> & J2 & J3 & J4). cbn [Nat.add fst snd] in *.
  exists rs, more, p, id, y, ls, last. split; [exact J2|]. split; [exact J3|].
  assert (Ec : (concat ls0 ++ last0) ++ rs = concat (ls ++ [last])).
  { rewrite concat_app. cbn [concat]. rewrite app_nil_r, I4, app_assoc. reflexivity. }
  split; [exact Ec|]. split; [destruct J4 as [[J4 _]|J4]; auto|].
  destruct (Hall ls last) as (B1 & B2 & B3).
  { apply Forall2_app; [|constructor; [eapply same_reads; [exact I2|auto]|constructor]].
    clear - I1. induction I1 as [|? ? ? ? H]; constructor; auto. apply solid_reads. exact H. }
  { rewrite <- Ec, zlen_app. destruct J3 as (Jlt & _). rewrite app_length in Jlt. unfold zlen at 2. lia. }
  split; [exact B1|]. split; [exact B2|]. intros N1 N2 N3. apply (B3 N1 N2). eapply Forall_impl; [|exact N3].
  intros q. apply given_same. rewrite map_app. apply Forall2_app; [|constructor; [exact I2|constructor]].
  clear - I1. induction I1 as [|? ? ? ? [H _]]; cbn [map]; constructor; auto.
Qed.

(** Writes fail only at their very first value: nothing is lost and nothing is left. *)
Lemma refused_at_once l rows : tried deflate F o stride StripeSize schema l file ->
  Forall (fun x => snd x = true \/ stops_at_once (refused_by schema) (fst x)) l ->
  Rows (map fst (filter snd l)) rows -> zlen rows < 2 ^ 62 ->
  exists ls last, rows = concat (ls ++ [last]) /\ comes_back inflate bopt schema file r ls last (ls ++ [last]).
Proof.
  intros Ht Hl Hrows Hn.
  destruct (tried_read deflate inflate F o stride StripeSize Hflate Hcs t0 schema _ file Hsize Hnorm Hplain Ht Hfile r Hopen bopt Hread Hinc Hrow)
    as (ps & g & Ha & Hall).
  destruct (Attempts_tidy _ _ _ _ _ Ha Hl [] (Tidy_empty _)) as (rows' & Hr' & (ls & last & T1 & T2 & T3)).
  unfold done in Hr'. rewrite (Rows_fun _ _ _ Hrows _ Hr') in *. cbn [app fst snd] in *.
  assert (Ec : rows = concat (ls ++ [last])) by (rewrite concat_app; cbn [concat]; rewrite app_nil_r; auto).
  exists ls, last. split; [exact Ec|]. destruct (Hall ls last) as (B1 & B2 & B3).
  { apply Forall2_app; [|constructor; [apply solid_reads; exact T2|constructor]].
    clear - T1. induction T1 as [|? ? ? ? H]; constructor; auto. apply solid_reads. exact H. }
  { rewrite <- Ec. exact Hn. }
  split; [exact B1|]. split; [exact B2|]. intros N1 N2 N3. apply (B3 N1 N2). eapply Forall_impl; [|exact N3].
  intros q. apply given_same. rewrite map_app. apply Forall2_app; [|constructor; [apply T2|constructor]].
  clear - T1. induction T1 as [|? ? ? ? [H _]]; cbn [map]; constructor; auto.
Qed.
End Main.

Lemma Batches_fun inflate r x v vs : Batches inflate r x v vs -> forall vs', Batches inflate r x v vs' -> vs' = vs.
Proof.
  induction 1 as [b v b' v' H|b v b' v' out H _ IH]; intros vs' H'; inversion H' as [? ? b1 v1 H1|? ? b1 v1 out1 H1 Hr]; subst; try congruence.
  assert (b1 = b') as -> by congruence. assert (v1 = v') as -> by congruence. rewrite (IH _ Hr). reflexivity.
Qed.
