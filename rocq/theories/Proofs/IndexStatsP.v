(** The statistics of row index entries, kind by kind. *)
From Coq Require Import ZifyBool ZifyNat.
From Verif.Model Require Import Go Codec ByteBool IntRle Chunk Stream Schema Time File Column.
From Verif.Spec Require Import Session ColumnSpec StatsSpec.
From Verif.Proofs Require Import Base ColumnP StatsP.

Section Kinds.
Variable deflate : list (list Z) -> list Z -> res (list Z).
Variable F : floats.
Variable o : opts.
Variable m : nat.
Hypothesis Hm : (1 <= m)%nat.
Hypothesis Hwi : WriteIndex o = true.
Notation writeRows := (writeRows deflate F o (Z.of_nat m)).

(** The values an entry describes. *)
Definition window (j : nat) (vs : list value) : list gval := values (slice (winStart m j) (S j * m - 1) vs).

Lemma entry_fold id k hn vs c : steady k = true -> writeRows (newColW o id k hn) vs = Ok c ->
  forall j, (j < length vs / m)%nat -> exists p st, nth_error (cw_index c) j = Some (p, st) /\
    foldM (addIndexStats F k) (window j vs) (start k hn j) = Ok st.
Proof.
  intros Hk H j Hj. destruct (index_entries deflate F o m Hm Hwi id k hn Hk vs c H) as (_ & _ & _ & _ & _ & He).
  destruct (He j Hj) as (cj & st & Hn & _ & Hf). exists (positions o cj), st. split; [exact Hn|exact Hf].
Qed.
Lemma entry_plain id k hn vs c : steady k = true -> plain k = true -> writeRows (newColW o id k hn) vs = Ok c ->
  forall j, (j < length vs / m)%nat -> exists p st d, nth_error (cw_index c) j = Some (p, st) /\
    cs_detail st = Some d /\ foldM (addDetail F k) (window j vs) (newDetail k) = Ok d.
Proof.
  intros Hk Hp H j Hj. destruct (entry_fold id k hn vs c Hk H j Hj) as (p & st & Hn & Hf).
  destruct (fold_index_detail F k _ Hp _ _ _ (start_detail k hn j Hp) Hf) as (d & Hd & Hs). exists p, st, d. auto.
Qed.

Lemma index_bytes id k hn vs c : (k = KByte \/ k = KBinary) -> writeRows (newColW o id k hn) vs = Ok c ->
  forall j, (j < length vs / m)%nat -> exists p st, nth_error (cw_index c) j = Some (p, st) /\
    cs_detail st = Some (DBinary (i64 (zlen (window j vs)))).
Proof.
  intros Hk H j Hj. assert (Hq : steady k = true /\ plain k = true /\ newDetail k = DBinary 0) by (destruct Hk as [->| ->]; auto).
  destruct Hq as (H1 & H2 & H3). destruct (entry_plain id k hn vs c H1 H2 H j Hj) as (p & st & d & Hn & Hs & Hd). rewrite H3 in Hd.
  apply (fold_count F k _ Hk) in Hd; [|unfold is_i64; lia]. rewrite Z.add_0_l in Hd. subst d. exists p, st. auto.
Qed.
Lemma index_doubles id hn vs c (rank : Z -> Z) : writeRows (newColW o id KDouble hn) vs = Ok c ->
  forall j, (j < length vs / m)%nat -> let xs := map (fval F) (window j vs) in
  (forall x y, In x (0 :: xs) -> In y (0 :: xs) -> f_lt F x y = (rank x <? rank y)) ->
  exists p st mn mx, nth_error (cw_index c) j = Some (p, st) /\
    cs_detail st = Some (DDouble mn mx (fold_left (f_add F) xs 0)) /\
    In mn (0 :: xs) /\ least (map rank (0 :: xs)) (rank mn) /\ In mx (0 :: xs) /\ greatest (map rank (0 :: xs)) (rank mx).
Proof.
  intros H j Hj xs Hr. destruct (entry_plain id KDouble hn vs c eq_refl eq_refl H j Hj) as (p & st & d & Hn & Hs & Hd).
  apply (fold_float F KDouble _ (or_intror eq_refl)) in Hd. subst d. do 4 eexists. split; [exact Hn|]. split; [exact Hs|].
  destruct (ranked_min F rank xs 0 Hr) as [H1 H2]. destruct (ranked_max F rank xs 0 Hr) as [H3 H4]. auto.
Qed.
Lemma index_strings id hn vs c : writeRows (newColW o id KString hn) vs = Ok c ->
  forall j, (j < length vs / m)%nat -> Forall (fun s => zlen s < 1024) (strings (window j vs)) ->
  exists p st mx, nth_error (cw_index c) j = Some (p, st) /\
    cs_detail st = Some (DString (Some []) (Some mx) (i64 (total (map int_of (window j vs)))) None None) /\
    greatestS ([] :: strings (window j vs)) mx.
Proof.
  intros H j Hj Hsh. destruct (entry_plain id KString hn vs c eq_refl eq_refl H j Hj) as (p & st & d & Hn & Hs & Hd).
  apply (fold_string F) in Hd; [|exact Hsh|unfold is_i64; lia]. destruct Hd as (mx & -> & Hmx). exists p, st, mx. auto.
Qed.

Lemma fold_index_bool gs : forall s s' n, cs_detail s = Some (DBucket n) -> is_u64 n -> foldM (addIndexStats F KBool) gs s = Ok s' ->
  cs_detail s' = Some (DBucket (u64 (n + zlen gs))).
Proof.
  induction gs as [|g t IH]; intros s s' n Hd Hn H; cbn [foldM] in H.
  - assert (s' = s) as -> by congruence. unfold zlen. cbn. rewrite Z.add_0_r, u64_id by exact Hn. exact Hd.
  - apply rbind_inv in H. destruct H as (s1 & H1 & H). unfold addIndexStats in H1. rewrite Hd in H1. cbn [addIndexDetail rbind] in H1.
    match type of H1 with Ok ?x = _ => assert (s1 = x) as -> by congruence end.
    apply (IH _ _ (u64 (n + 1))) in H; [|reflexivity|apply u64_range]. rewrite H, u64_add_l, zlen_cons. do 3 f_equal. lia.
Qed.
Lemma index_bools id hn vs c : writeRows (newColW o id KBool hn) vs = Ok c ->
  forall j, (j < length vs / m)%nat -> exists p st, nth_error (cw_index c) j = Some (p, st) /\
    cs_detail st = Some (DBucket (u64 (zlen (window j vs)))).
Proof.
  intros H j Hj. destruct (entry_fold id KBool hn vs c eq_refl H j Hj) as (p & st & Hn & Hf). exists p, st. split; [exact Hn|].
  apply (fold_index_bool _ _ _ 0) in Hf; [exact Hf|destruct j; reflexivity|unfold is_u64; lia].
Qed.
Lemma fold_index_date gs : forall s s', foldM (addIndexStats F KDate) gs s = Ok s' -> cs_detail s' = cs_detail s.
Proof.
  induction gs as [|g t IH]; intros s s' H; cbn [foldM] in H; [congruence|].
  apply rbind_inv in H. destruct H as (s1 & H1 & H). unfold addIndexStats in H1. cbn [addIndexDetail rbind] in H1.
  match type of H1 with Ok ?x = _ => assert (s1 = x) as -> by congruence end. rewrite (IH _ _ H). reflexivity.
Qed.
Lemma index_dates id hn vs c : writeRows (newColW o id KDate hn) vs = Ok c ->
  forall j, (j < length vs / m)%nat -> exists p st, nth_error (cw_index c) j = Some (p, st) /\ cs_detail st = Some (DDate 0 0).
Proof.
  intros H j Hj. destruct (entry_fold id KDate hn vs c eq_refl H j Hj) as (p & st & Hn & Hf). exists p, st. split; [exact Hn|].
  rewrite (fold_index_date _ _ _ Hf). destruct j; reflexivity.
Qed.

(** Float and decimal columns with a row index take no value. *)
Lemma c_Write_refused c v c' : (cw_kind c = KFloat \/ cw_kind c = KDecimal) -> Null v = false -> c_Write deflate F o (Z.of_nat m) c v <> Ok c'.
Proof.
  intros Hk Hv H. unfold c_Write in H. assert (E : isKStruct (cw_kind c) = false) by (destruct Hk as [->| ->]; reflexivity).
  rewrite E in H. cbn [andb] in H. apply rbind_inv in H. destruct H as (p & Hp & H). apply rbind_inv in H. destruct H as (d & Hd & H).
  apply rbind_inv in H. destruct H as (st & Hst & H).
  replace (WriteIndex o && indexes (cw_kind c) (Null v)) with true in H by (rewrite Hwi, Hv; destruct Hk as [->| ->]; reflexivity).
  unfold indexStep in H. cbn [cw_kind cw_indexInRows cw_index cw_indexStats] in H. rewrite Hv in H.
  destruct (Z.of_nat m <=? _); apply rbind_inv in H; destruct H as (is & His & _); unfold addIndexStats in His;
    apply rbind_inv in His; destruct His as (x & Hx & _); destruct Hk as [Ek|Ek]; rewrite Ek in Hx; cbn in Hx; destruct (V v); discriminate Hx.
Qed.
Lemma writeRows_kind vs : forall c c', active (cw_kind c) (hasNulls c) = true -> writeRows c vs = Ok c' -> cw_kind c' = cw_kind c /\ hasNulls c' = hasNulls c.
Proof.
  induction vs as [|v t IH]; intros c c' Ha H; cbn [ColumnSpec.writeRows] in H; [assert (c' = c) as -> by congruence; auto|].
  apply rbind_inv in H. destruct H as (c1 & H1 & H). pose proof (c_Write_streams deflate F o _ c v c1 Ha H1) as (_ & Hk & Hh & _).
  destruct (IH c1 c') as [-> ->]; [rewrite Hk, Hh; exact Ha|exact H|auto].
Qed.
Lemma refused_all id k hn vs c : (k = KFloat \/ k = KDecimal) -> writeRows (newColW o id k hn) vs = Ok c -> Forall (fun v => Null v = true) vs.
Proof.
  intros Hk. generalize (eq_refl : cw_kind (newColW o id k hn) = k). generalize (newColW o id k hn) as c0.
  intros c0 Hk0. revert c0 Hk0. induction vs as [|v t IH]; intros c0 Hk0 H; [constructor|].
  cbn [ColumnSpec.writeRows] in H. apply rbind_inv in H. destruct H as (c1 & H1 & H). constructor.
  - destruct (Null v) eqn:E; [reflexivity|]. exfalso. eapply c_Write_refused; [|exact E|exact H1]. rewrite Hk0. exact Hk.
  - assert (Ha : active (cw_kind c0) (hasNulls c0) = true) by (rewrite Hk0; destruct Hk as [->| ->]; reflexivity).
    pose proof (c_Write_streams deflate F o _ c0 v c1 Ha H1) as (_ & Hk1 & _). apply (IH c1); [congruence|exact H].
Qed.

(** Timestamps: strides of non-null values. *)
Lemma c_Write_time c v c' : cw_kind c = KTimestamp -> c_Write deflate F o (Z.of_nat m) c v = Ok c' ->
  cw_kind c' = KTimestamp /\ hasNulls c' = hasNulls c /\
  (if Null v then cw_index c' = cw_index c /\ cw_indexInRows c' = cw_indexInRows c /\ cw_indexStats c' = cw_indexStats c else
   if Z.of_nat m <=? cw_indexInRows c + 1
   then (exists p, cw_index c' = cw_index c ++ [(p, cw_indexStats c)]) /\ cw_indexInRows c' = 0 /\
        addIndexStats F KTimestamp (V v) (newStats KTimestamp (hasNulls c)) = Ok (cw_indexStats c')
   else cw_index c' = cw_index c /\ cw_indexInRows c' = cw_indexInRows c + 1 /\
        addIndexStats F KTimestamp (V v) (cw_indexStats c) = Ok (cw_indexStats c')).
Proof.
  intros Hk H. assert (Ha : active (cw_kind c) (hasNulls c) = true) by (rewrite Hk; reflexivity).
  pose proof (c_Write_streams deflate F o _ c v c' Ha H) as (_ & Hkd & Hhn & _). split; [congruence|]. split; [exact Hhn|].
  unfold c_Write in H. rewrite Hk in H. cbn [isKStruct andb] in H.
  apply rbind_inv in H. destruct H as (p & Hp & H). apply rbind_inv in H. destruct H as (d & Hd & H).
  apply rbind_inv in H. destruct H as (st & Hst & H).
  match type of H with (if _ then indexStep _ _ _ ?x _ else _) = _ => remember x as c0 eqn:Ec0 in H end.
  rewrite Hwi in H. cbn [andb indexes] in H.
  assert (E1 : cw_indexInRows c0 = cw_indexInRows c) by (subst c0; reflexivity).
  assert (E2 : cw_index c0 = cw_index c) by (subst c0; reflexivity).
  assert (E3 : cw_indexStats c0 = cw_indexStats c) by (subst c0; reflexivity).
  assert (E4 : cw_kind c0 = KTimestamp) by (subst c0; reflexivity).
  destruct (Null v) eqn:Ev; cbn [negb] in H.
  - assert (c' = c0) as -> by congruence. auto.
  - assert (E5 : hasNulls c0 = hasNulls c).
    { rewrite <- Hhn. pose proof (indexStep_same _ _ _ _ _ _ H) as (_ & _ & Hq & _). unfold hasNulls. rewrite Hq. reflexivity. }
    clear Ec0. unfold indexStep in H. rewrite E1, E2, E3, E4, E5, Ev in H.
    destruct (Z.leb_spec (Z.of_nat m) (cw_indexInRows c + 1)); apply rbind_inv in H; destruct H as (is & His & H);
      match type of H with Ok ?x = _ => assert (c' = x) as -> by congruence end; cbn; rewrite His; eauto.
Qed.
Lemma time_entries id hn : forall vs c, writeRows (newColW o id KTimestamp hn) vs = Ok c ->
  let gs := values vs in let n := length gs in
  cw_kind c = KTimestamp /\ hasNulls c = hn /\
  cw_indexInRows c = Z.of_nat (n mod m) /\ length (cw_index c) = (n / m)%nat /\
  foldM (addIndexStats F KTimestamp) (slice (winStart m (n / m)) n gs) (start KTimestamp hn (n / m)) = Ok (cw_indexStats c) /\
  forall j, (j < n / m)%nat -> exists p st, nth_error (cw_index c) j = Some (p, st) /\
    foldM (addIndexStats F KTimestamp) (slice (winStart m j) (S j * m - 1) gs) (start KTimestamp hn j) = Ok st.
Proof.
  intros vs. induction vs as [|v vs IH] using rev_ind; intros c H; cbv zeta.
  - cbn [ColumnSpec.writeRows] in H. assert (c = newColW o id KTimestamp hn) as -> by congruence. cbn [length values].
    change (length (values [])) with O. rewrite Nat.mod_0_l, Nat.div_0_l by lia. split; [reflexivity|]. split; [destruct hn; reflexivity|]. split; [reflexivity|]. split; [reflexivity|].
    split; [reflexivity|]. intros j Hj. lia.
  - rewrite writeRows_app in H. apply rbind_inv in H. destruct H as (c1 & H1 & H).
    cbn [ColumnSpec.writeRows] in H. apply rbind_inv in H. destruct H as (c2 & H2 & H).
    assert (c2 = c) as -> by congruence. clear H.
    destruct (IH c1 H1) as (Hk1 & Hn1 & Hr & Hl & Hcur & Hold). clear IH.
    apply c_Write_time in H2; [|exact Hk1]. destruct H2 as (Hk2 & Hn2 & H2). rewrite Hn1 in H2, Hn2. rewrite Hr in H2.
    split; [exact Hk2|]. split; [exact Hn2|].
    rewrite values_app. assert (Ev : values [v] = if Null v then [] else [V v]).
    { unfold values, rows_of, nonnull, row_of. cbn [map flat_map]. destruct (Null v); reflexivity. }
    rewrite Ev. destruct (Null v).
    { rewrite app_nil_r. destruct H2 as (-> & -> & ->). auto 6. }
    set (gs := values vs) in *. clearbody gs. remember (length gs) as n eqn:En.
    assert (Hdm : n = (m * (n / m) + n mod m)%nat) by (apply Nat.div_mod; lia).
    pose proof (Nat.mod_upper_bound n m) as Hub.
    assert (HlenS : length (gs ++ [V v]) = S n) by (rewrite app_length; cbn [length]; lia).
    rewrite HlenS.
    assert (Hw : (winStart m (n / m) <= n)%nat).
    { unfold winStart. destruct (n / m)%nat as [|q]; [lia|]. rewrite Nat.mul_comm. lia. }
    destruct (Z.leb_spec (Z.of_nat m) (Z.of_nat (n mod m) + 1)) as [Hle|Hgt].
    + destruct H2 as ((p & Hi) & Hz & Hf).
      assert (Hq : (S n / m = S (n / m))%nat).
      { symmetry. apply (Nat.div_unique (S n) m (S (n / m)) 0); [lia|]. lia. }
      assert (Hmod : (S n mod m = 0)%nat) by (symmetry; apply (Nat.mod_unique (S n) m (S (n / m)) 0); lia).
      rewrite Hq, Hmod, Hz, Hi, app_length. cbn [length]. split; [reflexivity|]. split; [lia|].
      assert (Hsn : (S (n / m) * m = S n)%nat) by lia.
      split.
      * cbn [winStart start]. rewrite Hsn. replace (S n - 1)%nat with n by lia.
        rewrite <- HlenS at 1. rewrite En at 1. rewrite (slice_one o m Hm Hwi). cbn [foldM]. rewrite Hf. reflexivity.
      * intros j Hj. destruct (Nat.eq_dec j (n / m)) as [->|Hne].
        -- exists p, (cw_indexStats c1). rewrite nth_error_app2 by lia. rewrite Hl, Nat.sub_diag. split; [reflexivity|].
           rewrite Hsn. replace (S n - 1)%nat with n by lia. rewrite (slice_prefix o m Hm Hwi) by lia. exact Hcur.
        -- destruct (Hold j ltac:(lia)) as (pj & st & Hnth & Hfold). exists pj, st.
           assert (Hjm : (S j * m <= n)%nat) by (assert (S j * m <= (n / m) * m)%nat by (apply Nat.mul_le_mono_r; lia); lia).
           rewrite nth_error_app1 by lia. split; [exact Hnth|]. rewrite (slice_prefix o m Hm Hwi) by lia. exact Hfold.
    + destruct H2 as (Hi & Hz & Hf).
      assert (Hq : (S n / m = n / m)%nat).
      { symmetry. apply (Nat.div_unique (S n) m (n / m) (S (n mod m))); lia. }
      assert (Hmod : (S n mod m = S (n mod m))%nat) by (symmetry; apply (Nat.mod_unique (S n) m (n / m) (S (n mod m))); lia).
      rewrite Hq, Hmod, Hz, Hi. split; [lia|]. split; [exact Hl|]. split.
      * rewrite <- HlenS, (slice_snoc o m Hm Hwi) by lia. rewrite foldM_app, <- En, Hcur. cbn [rbind foldM]. rewrite Hf. reflexivity.
      * intros j Hj. destruct (Hold j Hj) as (pj & st & Hnth & Hfold). exists pj, st.
        assert (Hjm : (S j * m <= n)%nat) by (assert (S j * m <= (n / m) * m)%nat by (apply Nat.mul_le_mono_r; lia); lia).
        split; [exact Hnth|]. rewrite (slice_prefix o m Hm Hwi) by lia. exact Hfold.
Qed.
(** The minimum of an entry: the UTC minimum never moves from 0, and a value before 1970
    in UTC overwrites the minimum found so far. *)
Fixpoint timeMin (mn : Z) (gs : list gval) : Z :=
  match gs with
  | [] => mn
  | g :: t => timeMin (if msUtc g <? 0 then msUtc g else Z.min mn (ms g)) t
  end.
Lemma timeMin_app a b : forall mn, timeMin mn (a ++ b) = timeMin (timeMin mn a) b.
Proof. induction a as [|g t IH]; intros mn; cbn [app timeMin]; auto. Qed.
Lemma timeMin_least gs : forall mn, Forall (fun g => 0 <= msUtc g) gs -> least (mn :: map ms gs) (timeMin mn gs).
Proof.
  induction gs as [|g t IH]; intros mn H; cbn [timeMin map].
  - split; [left; reflexivity|]. intros x [<-|[]]. lia.
  - inversion H as [|? ? Hg Ht]; subst. destruct (Z.ltb_spec (msUtc g) 0); [lia|].
    destruct (IH (Z.min mn (ms g)) Ht) as [Hin Hle]. split.
    + destruct Hin as [E|Hin]; [|right; right; exact Hin]. rewrite <- E.
      destruct (Z.min_spec mn (ms g)) as [[_ ->]|[_ ->]]; cbn; auto.
    + intros x [<-|[<-|Hx]]; [| |apply Hle; right; exact Hx];
        pose proof (Hle (Z.min mn (ms g)) ltac:(left; reflexivity)); lia.
Qed.
Lemma timeMin_last gs g mn : msUtc g < 0 -> timeMin mn (gs ++ [g]) = msUtc g.
Proof. intros H. rewrite timeMin_app. cbn [timeMin]. destruct (Z.ltb_spec (msUtc g) 0); [reflexivity|lia]. Qed.
(** The detail is absent for the statistics without a value (the first ones). *)
Lemma fold_index_time gs : forall s s' mn mx mxU, foldM (addIndexStats F KTimestamp) gs s = Ok s' -> gs <> [] ->
  (cs_detail s = Some (DTimestamp mn mx 0 mxU) \/ (cs_detail s = None /\ mn = 0 /\ mx = 0 /\ mxU = 0)) ->
  exists mx' mxU', cs_detail s' = Some (DTimestamp (timeMin mn gs) mx' 0 mxU') /\
    greatest (mx :: map ms gs) mx' /\ greatest (mxU :: map msUtc gs) mxU'.
Proof.
  induction gs as [|g t IH]; intros s s' mn mx mxU H Hne Hd; [contradiction|]. cbn [foldM] in H.
  apply rbind_inv in H. destruct H as (s1 & H1 & H). unfold addIndexStats in H1. apply rbind_inv in H1. destruct H1 as (d & Hx & H1).
  match type of H1 with Ok ?x = _ => assert (s1 = x) as -> by congruence end. clear H1.
  assert (E : d = Some (DTimestamp (if msUtc g <? 0 then msUtc g else Z.min mn (ms g)) (Z.max mx (ms g)) 0 (Z.max mxU (msUtc g)))).
  { destruct g; destruct Hd as [Hd|(Hd & -> & -> & ->)]; rewrite Hd in Hx; cbn [addIndexDetail] in Hx; try discriminate Hx; cbn [ms msUtc];
      assert (d = _) as -> by (symmetry in Hx; injection Hx; intros; eassumption); do 2 f_equal;
      repeat match goal with |- context[?a <? ?b] => destruct (Z.ltb_spec a b) end; lia. }
  subst d. cbn [timeMin]. set (mn1 := if msUtc g <? 0 then _ else _) in *.
  assert (G : forall a x l r, greatest (Z.max a x :: l) r -> greatest (a :: x :: l) r).
  { intros a x l r [Hin Hge]. split.
    - destruct Hin as [<-|Hin]; [|right; right; exact Hin]. destruct (Z.max_spec a x) as [[_ ->]|[_ ->]]; cbn; auto.
    - intros y Hy. pose proof (Hge (Z.max a x) ltac:(left; reflexivity)). destruct Hy as [<-|[<-|Hy]]; [lia|lia|apply Hge; right; exact Hy]. }
  destruct t as [|g' t].
  - cbn [foldM] in H. match type of H with Ok ?x = _ => assert (s' = x) as -> by congruence end. do 2 eexists. split; [reflexivity|].
    split; apply G, greatest_one.
  - destruct (IH _ s' mn1 (Z.max mx (ms g)) (Z.max mxU (msUtc g)) H ltac:(discriminate) ltac:(left; reflexivity)) as (b & d & E1 & E2 & E3).
    exists b, d. split; [exact E1|]. split; apply G; assumption.
Qed.
Lemma index_times id hn vs c : Z.of_nat m < W64 -> writeRows (newColW o id KTimestamp hn) vs = Ok c ->
  let gs := values vs in
  length (cw_index c) = (length gs / m)%nat /\
  forall j, (j < length gs / m)%nat -> let xs := slice (winStart m j) (S j * m - 1) gs in
    exists p st, nth_error (cw_index c) j = Some (p, st) /\ cs_values st = zlen xs /\
    (xs <> [] -> exists mn mx mxU, cs_detail st = Some (DTimestamp mn mx 0 mxU) /\
      greatest (0 :: map ms xs) mx /\ greatest (0 :: map msUtc xs) mxU /\
      (Forall (fun g => 0 <= msUtc g) xs -> least (0 :: map ms xs) mn) /\
      (forall ys g, xs = ys ++ [g] -> msUtc g < 0 -> mn = msUtc g)).
Proof.
  intros HmW H gs. destruct (time_entries id hn vs c H) as (_ & _ & _ & Hl & _ & He). fold gs in Hl, He. split; [exact Hl|].
  intros j Hj xs. destruct (He j Hj) as (p & st & Hn & Hf). fold xs in Hf. exists p, st. split; [exact Hn|]. split.
  - destruct (start_values KTimestamp hn j) as [Hu H0]. apply fold_index_count in Hf; [|exact Hu]. destruct Hf as [-> _]. rewrite H0, Z.add_0_l.
    apply u64_id. assert (zlen xs <= Z.of_nat m). { unfold xs, slice, zlen. rewrite firstn_length. unfold winStart. destruct j; nia. }
    pose proof (zlen_nonneg xs). unfold is_u64. lia.
  - intros Hne. destruct (fold_index_time xs _ st 0 0 0 Hf Hne) as (mx & mxU & E1 & E2 & E3).
    { destruct j; [right; auto|left; reflexivity]. }
    exists (timeMin 0 xs), mx, mxU. split; [exact E1|]. split; [exact E2|]. split; [exact E3|].
    split; [apply timeMin_least|]. intros ys g -> Hg. apply timeMin_last. exact Hg.
Qed.
End Kinds.
