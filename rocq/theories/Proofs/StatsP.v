(** Column statistics and row index entries: what they contain. *)
From Coq Require Import ZifyBool ZifyNat.
From Verif.Model Require Import Go Codec ByteBool IntRle Chunk Stream Time File Column.
From Verif.Spec Require Import BoolSpec Session StreamSpec ChunkSpec ColumnSpec StatsSpec.
From Verif.Proofs Require Import Base CodecP StreamP ReadP TimeP CodecClaimsP ColumnP ColumnReadP ColumnTotalP ColumnFaultsP.

Fixpoint foldM {A B} (f : B -> A -> res A) (l : list B) (a : A) : res A :=
  match l with [] => Ok a | x :: t => let! a' := f x a in foldM f t a' end.
Lemma foldM_app {A B} (f : B -> A -> res A) l1 : forall l2 a,
  foldM f (l1 ++ l2) a = (let! a' := foldM f l1 a in foldM f l2 a').
Proof.
  induction l1 as [|x t IH]; intros l2 a; cbn [app foldM rbind]; [reflexivity|].
  destruct (f x a) as [a'| |]; cbn [rbind]; [apply IH|reflexivity|reflexivity].
Qed.

Section Stats.
Variable deflate : list (list Z) -> list Z -> res (list Z).
Variable F : floats.
Variable o : opts.
Variable stride : Z.
Notation ops := (ops deflate F o stride).
Notation step := (step deflate F o stride).
Notation addDetail := (addDetail F).

Lemma c_Write_stats c v c' : isKStruct (cw_kind c) = false -> c_Write deflate F o stride c v = Ok c' ->
  cw_kind c' = cw_kind c /\ foldM (addStats F (cw_kind c)) (values [v]) (cw_stats c) = Ok (cw_stats c').
Proof.
  intros Hk H. unfold c_Write in H. rewrite Hk in H. cbn [andb] in H.
  apply rbind_inv in H. destruct H as (p & Hp & H).
  apply rbind_inv in H. destruct H as (d & Hd & H).
  apply rbind_inv in H. destruct H as (st & Hst & H).
  match type of H with (if _ then indexStep _ _ _ ?x _ else _) = _ => set (c0 := x) in * end.
  assert (Hc : cw_kind c' = cw_kind c /\ cw_stats c' = st).
  { destruct (WriteIndex o && indexes (cw_kind c) (Null v)).
    - apply indexStep_same in H. destruct H as (_ & H2 & _ & _ & _ & H3). rewrite H2, H3. split; reflexivity.
    - assert (c' = c0) as -> by congruence. split; reflexivity. }
  destruct Hc as [H1 H2]. split; [exact H1|]. unfold values, rows_of, nonnull. cbn [map flat_map]. unfold row_of.
  destruct (Null v); cbn [app foldM].
  - congruence.
  - rewrite Hst. cbn [rbind]. congruence.
Qed.
(** What a flush changes in the statistics is the number of bytes. *)
Definition sameButBytes (a b : colstats) : Prop :=
  cs_values a = cs_values b /\ cs_hasNull a = cs_hasNull b /\ cs_detail a = cs_detail b /\ cs_stray a = cs_stray b.
Lemma step_stats c p c' : isKStruct (cw_kind c) = false -> step c p = Ok c' ->
  cw_kind c' = cw_kind c /\
  exists s, foldM (addStats F (cw_kind c)) (values (written [p])) (cw_stats c) = Ok s /\ sameButBytes s (cw_stats c').
Proof.
  intros Hk H. destruct p as [v| | |]; cbn [StatsSpec.step written flat_map app] in *.
  - apply c_Write_stats in H; [|exact Hk]. destruct H as [H1 H2]. split; [exact H1|]. exists (cw_stats c').
    split; [exact H2|]. unfold sameButBytes. auto.
  - unfold c_Flush in H. apply rbind_inv in H. destruct H as (d0 & _ & H).
    apply rbind_inv in H. destruct H as (q & _ & H). apply rbind_inv in H. destruct H as (d & _ & H).
    match type of H with Ok ?x = _ => assert (c' = x) as -> by congruence end. split; [reflexivity|].
    exists (cw_stats c). split; [reflexivity|]. unfold sameButBytes. cbn. auto.
  - apply rbind_inv in H. destruct H as ([[bs n] c1] & H1 & H). assert (c' = c1) as -> by congruence.
    unfold c_WriteOut in H1. destruct (checksFlushed _ && _); [discriminate|].
    match type of H1 with Ok (_, _, ?x) = _ => assert (c1 = x) as -> by congruence end. split; [reflexivity|].
    exists (cw_stats c). split; [reflexivity|]. unfold sameButBytes. cbn. auto.
  - unfold c_Reset in H. apply rbind_inv in H. destruct H as (q & _ & H). apply rbind_inv in H. destruct H as (d & _ & H).
    match type of H with Ok ?x = _ => assert (c' = x) as -> by congruence end. split; [reflexivity|].
    exists (cw_stats c). split; [reflexivity|]. unfold sameButBytes. cbn. auto.
Qed.

(** Statistics with a detail part, as long as nothing else is compared. *)
Lemma foldM_addStats k gs : forall s s', foldM (addStats F k) gs s = Ok s' ->
  exists d d', (gs = [] -> cs_detail s' = cs_detail s) /\
    (gs <> [] -> cs_detail s = Some d /\ foldM (addDetail k) gs d = Ok d' /\ cs_detail s' = Some d') /\
    (is_u64 (cs_values s) -> cs_values s' = u64 (cs_values s + zlen gs)) /\
    cs_hasNull s' = cs_hasNull s.
Proof.
  induction gs as [|g t IH]; intros s s' H; cbn [foldM] in H.
  - assert (s' = s) as -> by congruence. exists (DBucket 0), (DBucket 0). split; [reflexivity|]. split; [congruence|].
    split; [|reflexivity]. intros Hu. unfold zlen. cbn. rewrite Z.add_0_r, u64_id by exact Hu. reflexivity.
  - apply rbind_inv in H. destruct H as (s1 & H1 & H). unfold addStats in H1.
    destruct (cs_detail s) as [d|] eqn:Ed; [|discriminate]. apply rbind_inv in H1. destruct H1 as (d1 & Hd & H1).
    match type of H1 with Ok ?x = _ => assert (s1 = x) as -> by congruence end.
    destruct (IH _ _ H) as (e & e' & E1 & E2 & E3 & E4). cbn [cs_detail cs_values cs_hasNull] in *.
    exists d. destruct t as [|g' t].
    + exists d1. split; [congruence|]. split; [intros _|split].
      * split; [reflexivity|]. cbn [foldM]. rewrite Hd. cbn [rbind foldM]. split; [reflexivity|]. apply E1. reflexivity.
      * intros _. rewrite E3 by apply u64_range. cbn [foldM] in H. unfold zlen. cbn. rewrite Z.add_0_r, u64_u64. reflexivity.
      * exact E4.
    + exists e'. destruct E2 as (E21 & E22 & E23); [discriminate|]. assert (e = d1) as -> by congruence.
      split; [congruence|]. split; [intros _|split].
      * split; [reflexivity|]. cbn [foldM] in *. rewrite Hd. cbn [rbind]. split; [exact E22|exact E23].
      * intros _. rewrite E3 by apply u64_range. rewrite u64_add_l. f_equal. unfold zlen. cbn [length]. lia.
      * exact E4.
Qed.

Lemma values_app a b : values (a ++ b) = values a ++ values b.
Proof. unfold values, rows_of, nonnull. rewrite map_app, flat_map_app. reflexivity. Qed.
Lemma written_app a b : written (a ++ b) = written a ++ written b.
Proof. unfold written. apply flat_map_app. Qed.

Lemma ops_stats ps : forall c c' d, isKStruct (cw_kind c) = false -> cs_detail (cw_stats c) = Some d ->
  is_u64 (cs_values (cw_stats c)) -> ops c ps = Ok c' ->
  exists d', foldM (addDetail (cw_kind c)) (values (written ps)) d = Ok d' /\ cs_detail (cw_stats c') = Some d' /\
    cs_values (cw_stats c') = u64 (cs_values (cw_stats c) + zlen (values (written ps))) /\
    cs_hasNull (cw_stats c') = cs_hasNull (cw_stats c) /\ cw_kind c' = cw_kind c.
Proof.
  induction ps as [|p t IH]; intros c c' d Hk Hd Hu H; cbn [StatsSpec.ops] in H.
  - assert (c' = c) as -> by congruence. exists d. cbn. unfold zlen. cbn. rewrite Z.add_0_r, u64_id by exact Hu. auto.
  - apply rbind_inv in H. destruct H as (c1 & H1 & H). apply step_stats in H1; [|exact Hk].
    destruct H1 as (Hk1 & s & Hs & Hv & Hn & Hdt & _).
    destruct (foldM_addStats _ _ _ _ Hs) as (a & a' & A1 & A2 & A3 & A4).
    assert (Hd1 : exists d1, foldM (addDetail (cw_kind c)) (values (written [p])) d = Ok d1 /\ cs_detail (cw_stats c1) = Some d1).
    { rewrite <- Hdt. destruct (values (written [p])) as [|g l]; [exists d; split; [reflexivity|rewrite A1 by reflexivity; exact Hd]|].
      destruct A2 as (A21 & A22 & A23); [discriminate|]. assert (a = d) as -> by congruence. exists a'. auto. }
    destruct Hd1 as (d1 & Hf1 & Hd1). rewrite <- Hk1 in Hk.
    assert (Hu1 : is_u64 (cs_values (cw_stats c1))) by (rewrite <- Hv, A3 by exact Hu; apply u64_range).
    destruct (IH c1 c' d1 Hk Hd1 Hu1 H) as (d' & Hf & Hd' & Hv' & Hn' & Hk'). rewrite Hk1 in Hf.
    exists d'. change (p :: t) with ([p] ++ t). rewrite written_app, values_app, foldM_app, Hf1. cbn [rbind].
    split; [exact Hf|]. split; [exact Hd'|]. split; [|split; congruence].
    rewrite Hv', <- Hv, A3 by exact Hu. rewrite u64_add_l. f_equal. rewrite zlen_app. lia.
Qed.
Lemma new_stats id k hn ps c : k <> KStruct -> ops (newColW o id k hn) ps = Ok c ->
  exists d, foldM (addDetail k) (values (written ps)) (newDetail k) = Ok d /\ cs_detail (cw_stats c) = Some d /\
    cs_values (cw_stats c) = u64 (zlen (values (written ps))) /\ cs_hasNull (cw_stats c) = hn.
Proof.
  intros Hk H. destruct (ops_stats ps (newColW o id k hn) c (newDetail k)) as (d & H1 & H2 & H3 & H4 & _); auto.
  - destruct k; try reflexivity. congruence.
  - cbn. unfold is_u64. lia.
  - exists d. auto.
Qed.
End Stats.

(** ** Kind by kind *)
Lemma least_cons m x xs : least xs m -> least (x :: xs) (Z.min x m).
Proof.
  intros [Hin Hle]. split.
  - destruct (Z.min_spec x m) as [[_ ->]|[_ ->]]; [left; reflexivity|right; exact Hin].
  - intros y [->|Hy]; [lia|]. specialize (Hle y Hy). lia.
Qed.
Lemma greatest_cons m x xs : greatest xs m -> greatest (x :: xs) (Z.max x m).
Proof.
  intros [Hin Hle]. split.
  - destruct (Z.max_spec x m) as [[_ ->]|[_ ->]]; [right; exact Hin|left; reflexivity].
  - intros y [->|Hy]; [lia|]. specialize (Hle y Hy). lia.
Qed.
Lemma least_swap m a b xs : least ((if b <? a then b else a) :: xs) m -> least (a :: b :: xs) m.
Proof.
  intros [Hin Hle]. destruct (Z.ltb_spec b a); split.
  - destruct Hin as [->|Hin]; cbn; auto.
  - pose proof (Hle b (or_introl eq_refl)). intros y [->|[->|Hy]]; try lia. apply Hle; right; exact Hy.
  - destruct Hin as [->|Hin]; cbn; auto.
  - pose proof (Hle a (or_introl eq_refl)). intros y [->|[->|Hy]]; try lia. apply Hle; right; exact Hy.
Qed.
Lemma greatest_swap m a b xs : greatest ((if a <? b then b else a) :: xs) m -> greatest (a :: b :: xs) m.
Proof.
  intros [Hin Hle]. destruct (Z.ltb_spec a b); split.
  - destruct Hin as [->|Hin]; cbn; auto.
  - pose proof (Hle b (or_introl eq_refl)). intros y [->|[->|Hy]]; try lia. apply Hle; right; exact Hy.
  - destruct Hin as [->|Hin]; cbn; auto.
  - pose proof (Hle a (or_introl eq_refl)). intros y [->|[->|Hy]]; try lia. apply Hle; right; exact Hy.
Qed.
Lemma least_one m : least [m] m. Proof. split; [left; reflexivity|]. intros x [->|[]]. lia. Qed.
Lemma greatest_one m : greatest [m] m. Proof. split; [left; reflexivity|]. intros x [->|[]]. lia. Qed.
(** A bound that starts at 0 is right exactly when some value lies on its side of 0. *)
Lemma least0_iff xs m : least (0 :: xs) m -> (least xs m <-> exists x, In x xs /\ x <= 0).
Proof.
  intros [Hin Hle]. pose proof (Hle 0 (or_introl eq_refl)) as H0. split.
  - intros [Hi Hl]. exists m. auto.
  - intros (x & Hx & Hx0). split; [|intros y Hy; apply Hle; right; exact Hy].
    destruct Hin as [<-|Hi]; [|exact Hi]. pose proof (Hle x (or_intror Hx)). assert (x = 0) as -> by lia. exact Hx.
Qed.
Lemma greatest0_iff xs m : greatest (0 :: xs) m -> (greatest xs m <-> exists x, In x xs /\ 0 <= x).
Proof.
  intros [Hin Hle]. pose proof (Hle 0 (or_introl eq_refl)) as H0. split.
  - intros [Hi Hl]. exists m. auto.
  - intros (x & Hx & Hx0). split; [|intros y Hy; apply Hle; right; exact Hy].
    destruct Hin as [<-|Hi]; [|exact Hi]. pose proof (Hle x (or_intror Hx)). assert (x = 0) as -> by lia. exact Hx.
Qed.

Section Kinds.
Variable F : floats.
Notation addDetail := (addDetail F).

Lemma fold_int k gs : (k = KShort \/ k = KInt \/ k = KLong) -> forall mn mx s d, is_i64 s ->
  foldM (addDetail k) gs (DInt mn mx s) = Ok d ->
  exists mn' mx', d = DInt mn' mx' (i64 (s + total (map int_of gs))) /\
    least (mn :: map int_of gs) mn' /\ greatest (mx :: map int_of gs) mx'.
Proof.
  intros Hk. induction gs as [|g t IH]; intros mn mx s d Hs H; cbn [foldM] in H.
  - assert (d = DInt mn mx s) as -> by congruence. exists mn, mx. cbn. rewrite Z.add_0_r, i64_id by exact Hs.
    split; [reflexivity|]. split; [apply least_one|apply greatest_one].
  - apply rbind_inv in H. destruct H as (d1 & H1 & H).
    assert (Hd : d1 = DInt (if int_of g <? mn then int_of g else mn) (if mx <? int_of g then int_of g else mx) (i64 (s + int_of g))).
    { destruct Hk as [->|[->| ->]]; destruct g; cbn [Column.addDetail] in H1; try discriminate; cbn [int_of]; congruence. }
    subst d1. destruct (IH _ _ _ _ (i64_range _) H) as (mn' & mx' & -> & Hl & Hg). exists mn', mx'. split.
    + f_equal. rewrite i64_add_l. f_equal. cbn [map total fold_right]. unfold total. lia.
    + cbn [map]. split; [apply least_swap; exact Hl|apply greatest_swap; exact Hg].
Qed.
Lemma fold_bool gs : forall n d, is_u64 n -> foldM (addDetail KBool) gs (DBucket n) = Ok d ->
  d = DBucket (u64 (n + trues gs)).
Proof.
  induction gs as [|g t IH]; intros n d Hn H; cbn [foldM] in H.
  - assert (d = DBucket n) as -> by congruence. cbn. rewrite Z.add_0_r, u64_id by exact Hn. reflexivity.
  - apply rbind_inv in H. destruct H as (d1 & H1 & H). destruct g as [| | | | | | |b| | | | | | |]; cbn [Column.addDetail] in H1; try discriminate.
    destruct b; match type of H1 with Ok ?x = _ => assert (d1 = x) as -> by congruence end; clear H1.
    + rewrite (IH _ _ (u64_range _) H), u64_add_l. f_equal. f_equal. cbn [trues fold_right]. unfold trues. lia.
    + rewrite (IH _ _ Hn H). reflexivity.
Qed.
Lemma fold_count k gs : (k = KByte \/ k = KBinary) -> forall n d, is_i64 n -> foldM (addDetail k) gs (DBinary n) = Ok d ->
  d = DBinary (i64 (n + zlen gs)).
Proof.
  intros Hk. induction gs as [|g t IH]; intros n d Hn H; cbn [foldM] in H.
  - assert (d = DBinary n) as -> by congruence. unfold zlen. cbn. rewrite Z.add_0_r, i64_id by exact Hn. reflexivity.
  - apply rbind_inv in H. destruct H as (d1 & H1 & H).
    assert (d1 = DBinary (i64 (n + 1))) as -> by (destruct Hk as [->| ->]; destruct g; cbn [Column.addDetail] in H1; congruence).
    rewrite (IH _ _ (i64_range _) H), i64_add_l. f_equal. f_equal. unfold zlen. cbn [length]. lia.
Qed.
Lemma fold_date gs : forall mn mx d, Forall (typed KDate) gs -> foldM (addDetail KDate) gs (DDate mn mx) = Ok d ->
  exists mn' mx', d = DDate mn' mx' /\ least (mn :: map int_of gs) mn' /\ greatest (mx :: map int_of gs) mx'.
Proof.
  induction gs as [|g t IH]; intros mn mx d Hty H; cbn [foldM] in H.
  - assert (d = DDate mn mx) as -> by congruence. exists mn, mx. split; [reflexivity|].
    split; [apply least_one|apply greatest_one].
  - apply rbind_inv in H. destruct H as (d1 & H1 & H). inversion Hty as [|? ? Hg Ht]; subst.
    destruct g; cbn [typed] in Hg; try contradiction. destruct Hg as (n & Hn & ->).
    destruct (ToDays_day (n * DayNs) n Hn eq_refl) as [E1 E2].
    cbn [Column.addDetail] in H1. rewrite E1 in H1.
    match type of H1 with Ok ?x = _ => assert (d1 = x) as -> by congruence end.
    destruct (IH _ _ _ Ht H) as (mn' & mx' & -> & Hl & Hg). exists mn', mx'. split; [reflexivity|].
    cbn [map]. change (int_of (GDate (n * DayNs))) with (n * DayNs / DayNs). rewrite E2.
    split; [apply least_swap; exact Hl|apply greatest_swap; exact Hg].
Qed.

(** Strings. *)
Lemma string_le_refl s : string_le s s. Proof. induction s; [apply sle_nil|apply sle_eq; assumption]. Qed.
Lemma slt_le a : forall b, slt a b = true -> string_le a b.
Proof.
  induction a as [|x a IH]; intros [|y b] H; cbn [slt] in H; try discriminate; [apply sle_nil|].
  destruct (Z.ltb_spec x y); [apply sle_lt; assumption|]. destruct (Z.ltb_spec y x); [discriminate|].
  assert (x = y) as -> by lia. apply sle_eq. apply IH. exact H.
Qed.
Lemma slt_ge a : forall b, slt a b = false -> string_le b a.
Proof.
  induction a as [|x a IH]; intros [|y b] H; cbn [slt] in H; try discriminate; try apply sle_nil.
  destruct (Z.ltb_spec x y); [discriminate|]. destruct (Z.ltb_spec y x); [apply sle_lt; assumption|].
  assert (x = y) as -> by lia. apply sle_eq. apply IH. exact H.
Qed.
Lemma string_le_trans a b : string_le a b -> forall c, string_le b c -> string_le a c.
Proof.
  induction 1 as [s|x y a b Hxy|x a b Hab IH]; intros c Hc; [apply sle_nil| |].
  - inversion Hc; subst; apply sle_lt; lia.
  - inversion Hc; subst; [apply sle_lt; assumption|]. apply sle_eq. apply IH. assumption.
Qed.
Lemma slt_nil s : slt s [] = false. Proof. destruct s; reflexivity. Qed.
Lemma greatestS_swap m a b xs : greatestS ((if slt a b then b else a) :: xs) m -> greatestS (a :: b :: xs) m.
Proof.
  intros [Hin Hle]. destruct (slt a b) eqn:E; (split; [destruct Hin as [->|Hin]; cbn; auto|]).
  - apply slt_le in E. pose proof (Hle b (or_introl eq_refl)). intros y [->|[->|Hy]]; auto.
    + eapply string_le_trans; eassumption.
    + apply Hle; right; exact Hy.
  - apply slt_ge in E. pose proof (Hle a (or_introl eq_refl)). intros y [->|[->|Hy]]; auto.
    + eapply string_le_trans; eassumption.
    + apply Hle; right; exact Hy.
Qed.
Lemma greatestS_one m : greatestS [m] m.
Proof. split; [left; reflexivity|]. intros x [->|[]]. apply string_le_refl. Qed.
(** The empty string only matters when there is nothing else. *)
Lemma greatestS_nil xs m : xs <> [] -> greatestS ([] :: xs) m -> greatestS xs m.
Proof.
  intros Hne [Hin Hle]. split; [|intros s Hs; apply Hle; right; exact Hs].
  destruct Hin as [<-|Hin]; [|exact Hin]. destruct xs as [|x t]; [congruence|].
  pose proof (Hle x (or_intror (or_introl eq_refl))) as H. inversion H; subst. left; reflexivity.
Qed.
Lemma fold_string gs : forall mx sum d, Forall (fun s => zlen s < 1024) (strings gs) -> is_i64 sum ->
  foldM (addDetail KString) gs (DString (Some []) (Some mx) sum None None) = Ok d ->
  exists mx', d = DString (Some []) (Some mx') (i64 (sum + total (map int_of gs))) None None /\
    greatestS (mx :: strings gs) mx'.
Proof.
  induction gs as [|g t IH]; intros mx sum d Hsh Hs H; cbn [foldM] in H.
  - match type of H with Ok ?x = _ => assert (d = x) as -> by congruence end. exists mx. cbn. rewrite Z.add_0_r, i64_id by exact Hs.
    split; [reflexivity|apply greatestS_one].
  - apply rbind_inv in H. destruct H as (d1 & H1 & H). destruct g; cbn [Column.addDetail] in H1; try discriminate.
    cbn [strings flat_map app] in *. inversion Hsh as [|? ? Hz Ht]; subst.
    unfold addString in H1. rewrite slt_nil in H1. replace (1024 <=? zlen s) with false in H1 by lia.
    assert (d1 = DString (Some []) (Some (if slt mx s then s else mx)) (i64 (sum + zlen s)) None None) as -> by (destruct (slt mx s); congruence).
    destruct (IH _ _ _ Ht (i64_range _) H) as (mx' & -> & Hg). exists mx'. split.
    + f_equal. rewrite i64_add_l. f_equal. cbn [map total fold_right int_of]. unfold total. lia.
    + apply greatestS_swap. exact Hg.
Qed.
(** The sum and nothing else, for strings of any length. *)
Lemma fold_string_sum gs : forall mn mx sum lo up d, is_i64 sum ->
  foldM (addDetail KString) gs (DString mn mx sum lo up) = Ok d ->
  exists mn' mx' lo' up', d = DString mn' mx' (i64 (sum + total (map int_of gs))) lo' up'.
Proof.
  induction gs as [|g t IH]; intros mn mx sum lo up d Hs H; cbn [foldM] in H.
  - match type of H with Ok ?x = _ => assert (d = x) as -> by congruence end. cbn. rewrite Z.add_0_r, i64_id by exact Hs. eauto.
  - apply rbind_inv in H. destruct H as (d1 & H1 & H). destruct g; cbn [Column.addDetail] in H1; try discriminate.
    unfold addString in H1. destruct (if 1024 <=? zlen s then _ else _) as [[[mn1 mx1] lo1] up1] in H1.
    match type of H1 with Ok ?x = _ => assert (d1 = x) as -> by congruence end.
    destruct (IH _ _ _ _ _ _ (i64_range _) H) as (mn' & mx' & lo' & up' & ->). do 4 eexists. f_equal.
    rewrite i64_add_l. f_equal. cbn [map total fold_right int_of]. unfold total. lia.
Qed.

(** Floating point: the folds of the comparison and the addition from 0. *)
Definition fmin (x m : Z) : Z := if f_lt F x m then x else m.
Definition fmax (x m : Z) : Z := if f_lt F m x then x else m.
Definition fval (g : gval) : Z := match g with GFloat x => f_widen F x | GDouble x => x | _ => 0 end.
Lemma fold_float k gs : (k = KFloat \/ k = KDouble) -> forall mn mx s d, foldM (addDetail k) gs (DDouble mn mx s) = Ok d ->
  d = DDouble (fold_left (fun m x => fmin x m) (map fval gs) mn) (fold_left (fun m x => fmax x m) (map fval gs) mx)
              (fold_left (f_add F) (map fval gs) s).
Proof.
  intros Hk. induction gs as [|g t IH]; intros mn mx s d H; cbn [foldM] in H.
  - cbn. congruence.
  - apply rbind_inv in H. destruct H as (d1 & H1 & H). cbn [map fold_left].
    apply IH. rewrite <- H. f_equal.
    destruct Hk as [->| ->]; destruct g; cbn [Column.addDetail] in H1; try discriminate; cbn [fval]; unfold fmin, fmax; congruence.
Qed.
(** Timestamps. *)
Definition ms (g : gval) : Z := match g with GTimestamp t => GetMilliSeconds t | _ => 0 end.
Definition msUtc (g : gval) : Z := match g with GTimestamp t => GetMilliSecondsUtc t | _ => 0 end.
(** The minimum ends up as the UTC number of the last timestamp before 0. *)
Definition lastNegative (gs : list gval) (m : Z) : Z := fold_left (fun m g => if ms g <? 0 then msUtc g else m) gs m.
Lemma fold_timestamp gs : forall mn mx d,
  foldM (addDetail KTimestamp) gs (DTimestamp mn mx 0 0) = Ok d ->
  exists mn' mx', d = DTimestamp mn' mx' 0 0 /\ greatest (mx :: map ms gs) mx' /\
    (Forall (fun g => ms g < 0 -> msUtc g <= 0) gs -> mn <= 0 -> mn' = lastNegative gs mn).
Proof.
  induction gs as [|g t IH]; intros mn mx d H; cbn [foldM] in H.
  - match type of H with Ok ?x = _ => assert (d = x) as -> by congruence end. exists mn, mx.
    split; [reflexivity|]. split; [apply greatest_one|reflexivity].
  - apply rbind_inv in H. destruct H as (d1 & H1 & H). destruct g; cbn [Column.addDetail] in H1; try discriminate.
    cbv zeta in H1. replace ((if mx <? GetMilliSeconds t0 then GetMilliSeconds t0 else mx) <? GetMilliSeconds t0) with false in H1
      by (destruct (Z.ltb_spec mx (GetMilliSeconds t0)); lia).
    match type of H1 with Ok ?x = _ => assert (d1 = x) as -> by congruence end.
    destruct (IH _ _ _ H) as (mn' & mx' & -> & Hg & Hm). exists mn', mx'. split; [reflexivity|]. split.
    + cbn [map ms]. apply greatest_swap. exact Hg.
    + intros Hf Hmn. inversion Hf as [|? ? Hf1 Hft]; subst. cbn [ms msUtc] in Hf1. unfold lastNegative. cbn [fold_left ms msUtc].
      rewrite (Hm Hft).
      * unfold lastNegative. f_equal. destruct (Z.ltb_spec (GetMilliSeconds t0) 0); [reflexivity|].
        destruct (Z.ltb_spec (GetMilliSeconds t0) mn); lia.
      * destruct (Z.ltb_spec (GetMilliSeconds t0) 0); [auto|]. destruct (Z.ltb_spec (GetMilliSeconds t0) mn); lia.
Qed.
End Kinds.

(** ** Row index entries *)
(** The columns that put an entry after every [stride] rows, nulls counted. *)
Definition steady (k : ckind) : bool :=
  match k with KStruct | KDict | KTimestamp | KDecimal => false | _ => true end.

Section Index.
Variable deflate : list (list Z) -> list Z -> res (list Z).
Variable F : floats.
Variable o : opts.
Variable m : nat.
Hypothesis Hm : (1 <= m)%nat.
Hypothesis Hwi : WriteIndex o = true.
Notation stride := (Z.of_nat m).
Notation writeRows := (writeRows deflate F o stride).
Notation c_Write := (c_Write deflate F o stride).
Notation addIndexStats := (addIndexStats F).

Lemma positions_same c c' : cw_present c' = cw_present c -> cw_data c' = cw_data c -> positions o c' = positions o c.
Proof. unfold positions. intros -> ->. reflexivity. Qed.
Lemma c_Write_index c v c' : steady (cw_kind c) = true -> c_Write c v = Ok c' ->
  cw_kind c' = cw_kind c /\ hasNulls c' = hasNulls c /\
  (if stride <=? cw_indexInRows c + 1
   then cw_index c' = cw_index c ++ [(positions o c', cw_indexStats c)] /\ cw_indexInRows c' = 0 /\
        foldM (addIndexStats (cw_kind c)) (values [v]) (newStats (cw_kind c) (hasNulls c)) = Ok (cw_indexStats c')
   else cw_index c' = cw_index c /\ cw_indexInRows c' = cw_indexInRows c + 1 /\
        foldM (addIndexStats (cw_kind c)) (values [v]) (cw_indexStats c) = Ok (cw_indexStats c')).
Proof.
  intros Hk H.
  assert (Ha : active (cw_kind c) (hasNulls c) = true) by (destruct (cw_kind c); try discriminate; reflexivity).
  pose proof (c_Write_streams deflate F o stride c v c' Ha H) as (_ & Hkd & Hhn & _).
  split; [exact Hkd|]. split; [exact Hhn|].
  unfold Column.c_Write in H.
  assert (Hs : isKStruct (cw_kind c) = false) by (destruct (cw_kind c); try discriminate; reflexivity).
  rewrite Hs in H. cbn [andb] in H.
  apply rbind_inv in H. destruct H as (p & Hp & H).
  apply rbind_inv in H. destruct H as (d & Hd & H).
  apply rbind_inv in H. destruct H as (st & Hst & H).
  match type of H with (if _ then indexStep _ _ _ ?x _ else _) = _ => remember x as c0 eqn:Ec0 in H end.
  replace (WriteIndex o && indexes (cw_kind c) (Null v)) with true in H
    by (rewrite Hwi; destruct (cw_kind c); try discriminate; reflexivity).
  assert (E1 : cw_indexInRows c0 = cw_indexInRows c) by (subst c0; reflexivity).
  assert (E2 : cw_index c0 = cw_index c) by (subst c0; reflexivity).
  assert (E3 : cw_indexStats c0 = cw_indexStats c) by (subst c0; reflexivity).
  assert (E4 : cw_kind c0 = cw_kind c) by (subst c0; reflexivity).
  assert (E5 : hasNulls c0 = hasNulls c).
  { rewrite <- Hhn. pose proof (indexStep_same _ _ _ _ _ _ H) as (_ & _ & Hq & _). unfold hasNulls. rewrite Hq. reflexivity. }
  clear Ec0 Hp Hd Hst. pose proof (indexStep_same _ _ _ _ _ _ H) as (_ & _ & Hq1 & Hq2 & _).
  unfold indexStep in H. rewrite E1, E2, E3, E4, E5, Hs in H.
  assert (Hval : forall s, foldM (addIndexStats (cw_kind c)) (values [v]) s
                           = (if Null v then Ok s else addIndexStats (cw_kind c) (V v) s)).
  { intros s. unfold values, rows_of, nonnull. cbn [map flat_map]. unfold row_of. destruct (Null v); cbn [app foldM]; [reflexivity|].
    destruct (addIndexStats (cw_kind c) (V v) s); reflexivity. }
  rewrite !Hval. destruct (Z.leb_spec stride (cw_indexInRows c + 1)); apply rbind_inv in H; destruct H as (is & His & H).
  - rewrite (positions_same c0 c') by assumption.
    match type of H with Ok ?x = _ => assert (c' = x) as -> by congruence end. cbn. rewrite His. auto.
  - match type of H with Ok ?x = _ => assert (c' = x) as -> by congruence end. cbn. rewrite His. auto.
Qed.
Lemma writeRows_app vs1 : forall c vs2, writeRows c (vs1 ++ vs2) = (let! c' := writeRows c vs1 in writeRows c' vs2).
Proof.
  induction vs1 as [|v t IH]; intros c vs2; [reflexivity|]. cbn [app ColumnSpec.writeRows].
  destruct (c_Write c v); cbn [rbind]; [apply IH|reflexivity|reflexivity].
Qed.

(** The first row an entry describes: one too early, except for the first entry. *)
Definition winStart (j : nat) : nat := match j with O => O | _ => (j * m - 1)%nat end.
Definition start (k : ckind) (hn : bool) (j : nat) : colstats :=
  match j with O => firstIndexStats k hn | _ => newStats k hn end.

Lemma slice_snoc {A} a (l : list A) x : (a <= length l)%nat ->
  slice a (length (l ++ [x])) (l ++ [x]) = slice a (length l) l ++ [x].
Proof.
  intros H. unfold slice. rewrite app_length. cbn [length]. rewrite !firstn_all2 by (rewrite skipn_length, ?app_length; cbn [length]; lia).
  rewrite skipn_app. replace (a - length l)%nat with O by lia. reflexivity.
Qed.
Lemma slice_prefix {A} a b (l t : list A) : (b <= length l)%nat -> slice a b (l ++ t) = slice a b l.
Proof.
  intros H. unfold slice. destruct (Nat.le_gt_cases b a); [replace (b - a)%nat with O by lia; reflexivity|].
  rewrite skipn_app, firstn_app. replace (b - a - length (skipn a l))%nat with O by (rewrite skipn_length; lia).
  rewrite firstn_O, app_nil_r. reflexivity.
Qed.
Lemma slice_one {A} (l : list A) x : slice (length l) (length (l ++ [x])) (l ++ [x]) = [x].
Proof.
  unfold slice. rewrite app_length. cbn [length]. rewrite skipn_app, skipn_all, Nat.sub_diag. cbn [skipn app].
  replace (length l + 1 - length l)%nat with 1%nat by lia. reflexivity.
Qed.

Lemma index_entries id k hn : steady k = true -> forall vs c, writeRows (newColW o id k hn) vs = Ok c ->
  let n := length vs in
  cw_kind c = k /\ hasNulls c = hn /\
  cw_indexInRows c = Z.of_nat (n mod m) /\ length (cw_index c) = (n / m)%nat /\
  foldM (addIndexStats k) (values (slice (winStart (n / m)) n vs)) (start k hn (n / m)) = Ok (cw_indexStats c) /\
  forall j, (j < n / m)%nat -> exists cj st, nth_error (cw_index c) j = Some (positions o cj, st) /\
    writeRows (newColW o id k hn) (firstn (S j * m) vs) = Ok cj /\
    foldM (addIndexStats k) (values (slice (winStart j) (S j * m - 1) vs)) (start k hn j) = Ok st.
Proof.
  intros Hk vs. induction vs as [|v vs IH] using rev_ind; intros c H; cbv zeta.
  - cbn [ColumnSpec.writeRows] in H. assert (c = newColW o id k hn) as -> by congruence. cbn [length].
    rewrite Nat.mod_0_l, Nat.div_0_l by lia. split; [reflexivity|]. split; [destruct hn; reflexivity|]. split; [reflexivity|]. split; [reflexivity|].
    split; [reflexivity|]. intros j Hj. lia.
  - rewrite writeRows_app in H. apply rbind_inv in H. destruct H as (c1 & H1 & H).
    cbn [ColumnSpec.writeRows] in H. apply rbind_inv in H. destruct H as (c2 & H2 & H).
    assert (c2 = c) as -> by congruence. clear H.
    destruct (IH c1 H1) as (Hk1 & Hn1 & Hr & Hl & Hcur & Hold). clear IH.
    assert (Hc : writeRows (newColW o id k hn) (vs ++ [v]) = Ok c) by (rewrite writeRows_app, H1; cbn [rbind ColumnSpec.writeRows]; rewrite H2; reflexivity).
    apply c_Write_index in H2; [|rewrite Hk1; exact Hk]. destruct H2 as (Hk2 & Hn2 & H2). rewrite Hk1, Hn1, Hr in H2.
    remember (length vs) as n eqn:En.
    assert (Hdm : n = (m * (n / m) + n mod m)%nat) by (apply Nat.div_mod; lia).
    pose proof (Nat.mod_upper_bound n m) as Hub.
    assert (HlenS : length (vs ++ [v]) = S n) by (rewrite app_length; cbn [length]; lia).
    split; [congruence|]. split; [congruence|]. rewrite HlenS.
    assert (Hw : (winStart (n / m) <= n)%nat).
    { unfold winStart. destruct (n / m)%nat as [|q]; [lia|]. rewrite Nat.mul_comm. lia. }
    destruct (Z.leb_spec stride (Z.of_nat (n mod m) + 1)) as [Hle|Hgt].
    + (* the row completes a stride *)
      destruct H2 as (Hi & Hz & Hf).
      assert (Hq : (S n / m = S (n / m))%nat).
      { symmetry. apply (Nat.div_unique (S n) m (S (n / m)) 0); [lia|]. lia. }
      assert (Hmod : (S n mod m = 0)%nat) by (symmetry; apply (Nat.mod_unique (S n) m (S (n / m)) 0); lia).
      rewrite Hq, Hmod, Hz, Hi, app_length. cbn [length]. split; [reflexivity|]. split; [lia|].
      assert (Hsn : (S (n / m) * m = S n)%nat) by lia.
      split.
      * cbn [winStart start]. rewrite Hsn. replace (S n - 1)%nat with n by lia.
        rewrite <- HlenS at 1. rewrite En at 1. rewrite slice_one. exact Hf.
      * intros j Hj. destruct (Nat.eq_dec j (n / m)) as [->|Hne].
        -- exists c, (cw_indexStats c1). rewrite nth_error_app2 by lia. rewrite Hl, Nat.sub_diag. split; [reflexivity|].
           rewrite Hsn. split; [rewrite firstn_all2 by lia; exact Hc|].
           replace (S n - 1)%nat with n by lia. rewrite slice_prefix by lia. exact Hcur.
        -- destruct (Hold j ltac:(lia)) as (cj & st & Hnth & Hwr & Hfold). exists cj, st.
           assert (Hjm : (S j * m <= n)%nat) by (assert (S j * m <= (n / m) * m)%nat by (apply Nat.mul_le_mono_r; lia); lia).
           rewrite nth_error_app1 by lia. split; [exact Hnth|].
           rewrite firstn_app. replace (S j * m - length vs)%nat with O by lia. rewrite firstn_O, app_nil_r.
           split; [exact Hwr|]. rewrite slice_prefix by lia. exact Hfold.
    + destruct H2 as (Hi & Hz & Hf).
      assert (Hq : (S n / m = n / m)%nat).
      { symmetry. apply (Nat.div_unique (S n) m (n / m) (S (n mod m))); lia. }
      assert (Hmod : (S n mod m = S (n mod m))%nat) by (symmetry; apply (Nat.mod_unique (S n) m (n / m) (S (n mod m))); lia).
      rewrite Hq, Hmod, Hz, Hi. split; [lia|]. split; [exact Hl|]. split.
      * rewrite <- HlenS, slice_snoc by lia. rewrite values_app, foldM_app, <- En, Hcur. cbn [rbind]. exact Hf.
      * intros j Hj. destruct (Hold j Hj) as (cj & st & Hnth & Hwr & Hfold). exists cj, st.
        assert (Hjm : (S j * m <= n)%nat) by (assert (S j * m <= (n / m) * m)%nat by (apply Nat.mul_le_mono_r; lia); lia).
        split; [exact Hnth|].
        rewrite firstn_app. replace (S j * m - length vs)%nat with O by lia. rewrite firstn_O, app_nil_r.
        split; [exact Hwr|]. rewrite slice_prefix by lia. exact Hfold.
Qed.
End Index.

(** ** What the folds say about an index entry *)
Lemma fold_index_count F k gs : forall s s', is_u64 (cs_values s) -> foldM (addIndexStats F k) gs s = Ok s' ->
  cs_values s' = u64 (cs_values s + zlen gs) /\ cs_hasNull s' = cs_hasNull s.
Proof.
  induction gs as [|g t IH]; intros s s' Hu H; cbn [foldM] in H.
  - assert (s' = s) as -> by congruence. unfold zlen. cbn. rewrite Z.add_0_r, u64_id by exact Hu. auto.
  - apply rbind_inv in H. destruct H as (s1 & H1 & H). unfold addIndexStats in H1. apply rbind_inv in H1. destruct H1 as (d & _ & H1).
    match type of H1 with Ok ?x = _ => assert (s1 = x) as -> by congruence end. clear H1.
    apply IH in H; [|apply u64_range]. destruct H as [-> ->]. cbn. split; [|reflexivity]. rewrite u64_add_l. f_equal. unfold zlen. cbn [length]. lia.
Qed.
(** Kinds whose index statistics are updated like the column statistics. *)
Definition plain (k : ckind) : bool :=
  match k with KShort | KInt | KLong | KByte | KDouble | KString | KBinary => true | _ => false end.
Lemma fold_index_detail F k gs : plain k = true -> forall s s' d, cs_detail s = Some d ->
  foldM (addIndexStats F k) gs s = Ok s' -> exists d', foldM (addDetail F k) gs d = Ok d' /\ cs_detail s' = Some d'.
Proof.
  intros Hk. induction gs as [|g t IH]; intros s s' d Hd H; cbn [foldM] in H.
  - assert (s' = s) as -> by congruence. exists d. auto.
  - apply rbind_inv in H. destruct H as (s1 & H1 & H). unfold addIndexStats in H1. apply rbind_inv in H1. destruct H1 as (d1 & Hd1 & H1).
    match type of H1 with Ok ?x = _ => assert (s1 = x) as -> by congruence end. clear H1.
    assert (E : exists e, addDetail F k g d = Ok e /\ d1 = Some e).
    { rewrite Hd in Hd1. destruct k; try discriminate; cbn [addIndexDetail] in Hd1; apply rbind_inv in Hd1; destruct Hd1 as (e & He & Hd1);
        exists e; (split; [exact He|congruence]). }
    destruct E as (e & He & ->). cbn [foldM]. rewrite He. cbn [rbind]. eapply IH; [|exact H]. reflexivity.
Qed.
Lemma start_values k hn j : is_u64 (cs_values (start k hn j)) /\ cs_values (start k hn j) = 0.
Proof. unfold is_u64. destruct j, k; cbn; lia. Qed.
Lemma start_detail k hn j : plain k = true -> cs_detail (start k hn j) = Some (newDetail k).
Proof. destruct j, k; intros; try discriminate; reflexivity. Qed.

(** Counting the rows of a stride. *)
Lemma values_one v : zlen (values [v]) = if Null v then 0 else 1.
Proof. unfold values, rows_of, nonnull. cbn. unfold row_of. destruct (Null v); reflexivity. Qed.
Lemma values_length l : zlen (values l) <= zlen l.
Proof.
  induction l as [|v t IH]; [cbn; lia|]. change (v :: t) with ([v] ++ t). rewrite values_app, !zlen_app, values_one.
  change (zlen [v]) with 1. destruct (Null v); lia.
Qed.
Lemma slice_split {A} a b c (l : list A) : (a <= b <= c)%nat -> slice a c l = slice a b l ++ slice b c l.
Proof.
  intros H. unfold slice. rewrite <- (firstn_skipn (b - a) (skipn a l)) at 1.
  assert (E : skipn b l = skipn (b - a) (skipn a l)).
  { revert l. destruct H as [Hab _]. revert b Hab. induction a as [|a IH]; intros b Hab l; [rewrite Nat.sub_0_r; reflexivity|].
    destruct b as [|b]; [lia|]. destruct l as [|x l]; [rewrite !skipn_nil; reflexivity|]. cbn [skipn]. apply IH. lia. }
  rewrite E. destruct (Nat.le_gt_cases (length (skipn a l)) (b - a)) as [Hs|Hl].
  - rewrite (skipn_all2 (skipn a l)) by exact Hs. rewrite app_nil_r, firstn_nil, app_nil_r.
    rewrite (firstn_all2 (n := b - a)) by exact Hs. rewrite firstn_all2 by lia. reflexivity.
  - rewrite firstn_app, firstn_firstn, firstn_length, Nat.min_r, Nat.min_l by lia.
    replace (c - a - (b - a))%nat with (c - b)%nat by lia. reflexivity.
Qed.
Lemma slice_nth {A} i (l : list A) x : nth_error l i = Some x -> slice i (S i) l = [x].
Proof.
  unfold slice. replace (S i - i)%nat with 1%nat by lia. revert l. induction i as [|i IH]; intros [|y l] H; try discriminate.
  - cbn in *. congruence.
  - cbn [skipn]. apply IH. exact H.
Qed.

(** ** Bytes on disk *)
Section Bytes.
Variable deflate : list (list Z) -> list Z -> res (list Z).
Variable F : floats.
Variable o : opts.
Variable stride : Z.

Lemma s_Flush_length w w' : s_Flush deflate o w = Ok w' -> w_length w' = zlen (StreamSpec.stored o w').
Proof.
  unfold s_Flush, w_Flush, StreamSpec.stored, w_WriteOut. intros H. apply rbind_inv in H. destruct H as ([e out] & _ & H).
  destruct (isNone (CompressionKind o)).
  - match type of H with Ok ?x = _ => assert (w' = x) as -> by congruence end. reflexivity.
  - apply rbind_inv in H. destruct H as ([c b] & _ & H).
    match type of H with Ok ?x = _ => assert (w' = x) as -> by congruence end. reflexivity.
Qed.
Lemma flushed_bytes d0 : forall d n, mapM (onWriter (s_Flush deflate o)) d0 = Ok d ->
  u64 (fold_left (fun n q => u64 (n + w_length (snd q))) d n) = u64 (n + zlen (concat (map (fun q => StreamSpec.stored o (snd q)) d))) /\
  (d <> [] -> is_u64 (fold_left (fun n q => u64 (n + w_length (snd q))) d n)).
Proof.
  induction d0 as [|[k w] r IH]; intros d n H; cbn [mapM] in H.
  - assert (d = []) as -> by congruence. cbn. rewrite Z.add_0_r. split; [reflexivity|congruence].
  - apply rbind_inv in H. destruct H as ([k' w'] & Hw & H). apply rbind_inv in H. destruct H as (r' & Hr & H).
    assert (d = (k', w') :: r') as -> by congruence. unfold onWriter in Hw. apply rbind_inv in Hw. destruct Hw as (w1 & Hw & Hk).
    assert (w1 = w') as -> by congruence. cbn [snd] in Hw. apply s_Flush_length in Hw.
    cbn [fold_left map concat snd]. destruct (IH r' (u64 (n + w_length w')) Hr) as [H1 H2]. split.
    + rewrite H1, zlen_app, u64_add_l, Hw. f_equal. lia.
    + intros _. destruct r' as [|q r']; [apply u64_range|]. apply H2. discriminate.
Qed.
Lemma writeRows_bytes vs : forall c c', writeRows deflate F o stride c vs = Ok c' ->
  cs_bytes (cw_stats c') = cs_bytes (cw_stats c) /\ hasNulls c' = hasNulls c.
Proof.
  induction vs as [|v t IH]; intros c c' H; cbn [writeRows] in H; [assert (c' = c) as -> by congruence; auto|].
  apply rbind_inv in H. destruct H as (c1 & H1 & H). apply IH in H. destruct H as [-> ->].
  unfold c_Write in H1. destruct (isKStruct (cw_kind c) && negb (hasNulls c)); [assert (c1 = c) as -> by congruence; auto|].
  apply rbind_inv in H1. destruct H1 as (p & Hp & H). apply rbind_inv in H. destruct H as (d & Hd & H).
  apply rbind_inv in H. destruct H as (st & Hst & H).
  assert (Hb : cs_bytes st = cs_bytes (cw_stats c)).
  { destruct (Null v).
    - match type of Hst with Ok ?x = _ => assert (st = x) as -> by congruence end. destruct (isKStruct (cw_kind c)); reflexivity.
    - unfold addStats in Hst. destruct (cs_detail (cw_stats c)); [|discriminate]. apply rbind_inv in Hst. destruct Hst as (d' & _ & Hst).
      match type of Hst with Ok ?x = _ => assert (st = x) as -> by congruence end. reflexivity. }
  assert (Hpn : (match p with Some _ => true | None => false end) = hasNulls c).
  { unfold hasNulls. destruct (cw_present c); cbn [optM] in Hp; [apply rbind_inv in Hp; destruct Hp as (q & _ & Hp)|];
      match type of Hp with Ok ?x = _ => assert (p = x) as -> by congruence end; reflexivity. }
  destruct (WriteIndex o && indexes (cw_kind c) (Null v)).
  - apply indexStep_same in H. destruct H as (_ & _ & H1 & _ & _ & H2). unfold hasNulls at 1. rewrite H1, H2. auto.
  - match type of H with Ok ?x = _ => assert (c1 = x) as -> by congruence end. auto.
Qed.
Lemma column_bytes c vs bs infos c3 : writeColumn deflate F o stride c vs = Ok (bs, infos, c3) -> zlen bs < W64 ->
  is_u64 (cs_bytes (cw_stats c)) ->
  cs_bytes (cw_stats c3) = u64 ((if hasNulls c then 0 else cs_bytes (cw_stats c)) + zlen bs) /\ hasNulls c3 = hasNulls c.
Proof.
  intros H Hz Hu. unfold writeColumn in H. apply rbind_inv in H. destruct H as (c1 & Hw & H). apply rbind_inv in H. destruct H as (c2 & Hfl & H).
  apply rbind_inv in H. destruct H as ([[bs' n] c3'] & Hwo & H). assert (bs' = bs /\ c3' = c3) as [-> ->] by (split; congruence). clear H.
  apply writeRows_bytes in Hw. destruct Hw as [Hb Hn].
  assert (Hst : cw_stats c3 = cw_stats c2).
  { unfold c_WriteOut in Hwo. destruct (checksFlushed _ && _); [discriminate|].
    match type of Hwo with Ok (_, _, ?x) = _ => assert (c3 = x) as -> by congruence end. reflexivity. }
  apply c_WriteOut_streams in Hwo. destruct Hwo as (Hbs & _ & _ & _ & Hn3 & _).
  unfold c_Flush in Hfl. apply rbind_inv in Hfl. destruct Hfl as (d0 & _ & Hfl). apply rbind_inv in Hfl. destruct Hfl as (p & Hp & Hfl).
  apply rbind_inv in Hfl. destruct Hfl as (d & Hd & Hfl).
  match type of Hfl with Ok ?x = _ => assert (c2 = x) as -> by congruence end. clear Hfl.
  rewrite Hst. unfold streams in Hbs. cbn [cw_stats cs_bytes cw_present cw_data] in *. unfold hasNulls in Hn3 at 2. cbn [cw_present] in Hn3.
  rewrite <- Hn. unfold hasNulls in Hn3 |- *. unfold hasNulls in Hn.
  destruct (cw_present c1) as [q|]; cbn [optM] in Hp.
  - apply rbind_inv in Hp. destruct Hp as (q' & Hq & Hp). assert (p = Some q') as -> by congruence. split; [|exact Hn3].
    apply s_Flush_length in Hq. cbn [app map concat snd] in Hbs. rewrite Hbs, zlen_app, <- Hq.
    destruct (flushed_bytes _ _ (w_length q') Hd) as [H1 H2]. rewrite Z.add_0_l, <- H1.
    destruct d as [|x d]; [|rewrite u64_id; [reflexivity|apply H2; discriminate]].
    cbn [fold_left]. rewrite u64_id; [reflexivity|]. rewrite Hbs, zlen_app in Hz. pose proof (zlen_nonneg (concat (map (fun q : Z * writer enc => StreamSpec.stored o (snd q)) []))). pose proof (zlen_nonneg (StreamSpec.stored o q')). unfold is_u64. lia.
  - assert (p = None) as -> by congruence. split; [|exact Hn3]. cbn [app] in Hbs. rewrite Hb. subst bs.
    destruct (flushed_bytes _ _ (cs_bytes (cw_stats c)) Hd) as [H1 H2]. rewrite <- H1.
    destruct d as [|x d]; [cbn [fold_left]; rewrite u64_id by exact Hu; reflexivity|rewrite u64_id; [reflexivity|apply H2; discriminate]].
Qed.
Lemma c_Reset_stats c c' : c_Reset o c = Ok c' -> cw_stats c' = cw_stats c /\ hasNulls c' = hasNulls c.
Proof.
  intros H. pose proof (c_Reset_streams o c c' H) as (_ & _ & Hn & _). split; [|exact Hn].
  unfold c_Reset in H. apply rbind_inv in H. destruct H as (p & _ & H). apply rbind_inv in H. destruct H as (d & _ & H).
  match type of H with Ok ?x = _ => assert (c' = x) as -> by congruence end. reflexivity.
Qed.
Lemma last_cons_ne {A} (x y : A) l d : last (x :: y :: l) d = last (y :: l) d. Proof. reflexivity. Qed.
Lemma stripes_bytes segs : forall c out c', stripes deflate F o stride c segs = Ok (out, c') ->
  zlen (concat out) < W64 -> is_u64 (cs_bytes (cw_stats c)) -> segs <> [] ->
  cs_bytes (cw_stats c') = (if hasNulls c then zlen (last out []) else u64 (cs_bytes (cw_stats c) + zlen (concat out))).
Proof.
  induction segs as [|vs t IH]; intros c out c' H Hz Hu Hne; [congruence|]. clear Hne. cbn [stripes] in H.
  apply rbind_inv in H. destruct H as ([[bs infos] c1] & H1 & H). apply rbind_inv in H. destruct H as (c2 & H2 & H).
  apply rbind_inv in H. destruct H as ([r c3] & H3 & H). assert (out = bs :: r /\ c3 = c') as [-> ->] by (split; congruence). clear H.
  cbn [concat] in Hz. rewrite zlen_app in Hz. pose proof (zlen_nonneg bs). pose proof (zlen_nonneg (concat r)).
  apply column_bytes in H1; [|lia|exact Hu]. destruct H1 as [Hb Hn]. apply c_Reset_stats in H2. destruct H2 as [Hs2 Hn2].
  destruct t as [|vs' t].
  - cbn [stripes] in H3. assert (r = [] /\ c2 = c') as [-> ->] by (split; congruence). rewrite Hs2, Hb. cbn [last concat]. rewrite app_nil_r.
    destruct (hasNulls c); [|reflexivity]. rewrite Z.add_0_l, u64_id; [reflexivity|]. unfold is_u64. lia.
  - assert (Hr : r <> []).
    { cbn [stripes] in H3. apply rbind_inv in H3. destruct H3 as ([[? ?] ?] & _ & H3). apply rbind_inv in H3. destruct H3 as (? & _ & H3).
      apply rbind_inv in H3. destruct H3 as ([? ?] & _ & H3). intros ->. discriminate. }
    rewrite (IH c2 r c' H3 ltac:(lia)); [|rewrite Hs2, Hb; apply u64_range|discriminate].
    rewrite Hn2, Hn. destruct r as [|x r]; [congruence|]. cbn [concat last]. rewrite last_cons_ne || idtac.
    destruct (hasNulls c); [reflexivity|]. rewrite Hs2, Hb, u64_add_l, !zlen_app. f_equal. lia.
Qed.
End Bytes.

(** ** The second stripe of an indexed column *)
Lemma second_stripe deflate F o stride c c' v : WriteIndex o = true -> 1 < stride -> c_Reset o c = Ok c' ->
  steady (cw_kind c) = true -> cw_kind c <> KDate -> Null v = false ->
  forall c2, c_Write deflate F o stride c' v <> Ok c2.
Proof.
  intros Hwi Hs Hr Hk Hd Hn c2 H.
  pose proof (c_Reset_streams o c c' Hr) as (_ & Hkd & _ & _).
  unfold c_Reset in Hr. apply rbind_inv in Hr. destruct Hr as (p & _ & Hr). apply rbind_inv in Hr. destruct Hr as (d & _ & Hr).
  assert (Hi : cw_indexInRows c' = 0 /\ cs_detail (cw_indexStats c') = None).
  { match type of Hr with Ok ?x = _ => assert (c' = x) as -> by congruence end. cbn. rewrite Hwi. auto. }
  destruct Hi as [Hi1 Hi2]. clear Hr. rewrite <- Hkd in Hk, Hd.
  unfold c_Write in H.
  assert (Hst : isKStruct (cw_kind c') = false) by (destruct (cw_kind c'); try discriminate; reflexivity).
  rewrite Hst in H. cbn [andb] in H.
  apply rbind_inv in H. destruct H as (p' & _ & H). apply rbind_inv in H. destruct H as (d' & _ & H). apply rbind_inv in H. destruct H as (st & _ & H).
  replace (WriteIndex o && indexes (cw_kind c') (Null v)) with true in H by (rewrite Hwi, Hn; destruct (cw_kind c'); try discriminate; reflexivity).
  unfold indexStep in H. cbn [cw_indexInRows cw_indexStats cw_kind cw_index] in H. rewrite Hi1, Hn in H.
  replace (stride <=? 0 + 1) with false in H by lia.
  apply rbind_inv in H. destruct H as (is & His & _). unfold addIndexStats in His. rewrite Hi2 in His.
  apply rbind_inv in His. destruct His as (dd & Hdd & _).
  destruct (cw_kind c'); try discriminate; try congruence; cbn [addIndexDetail] in Hdd; destruct (V v); discriminate.
Qed.

(** What a column with a row index can still take after the reset. *)
Lemma reset_index o c c' : WriteIndex o = true -> c_Reset o c = Ok c' ->
  cw_kind c' = cw_kind c /\ cw_indexInRows c' = 0 /\ cs_detail (cw_indexStats c') = None /\ cw_index c' = [].
Proof.
  intros Hwi Hr. pose proof (c_Reset_streams o c c' Hr) as (_ & Hkd & _ & _). split; [exact Hkd|].
  unfold c_Reset in Hr. apply rbind_inv in Hr. destruct Hr as (p & _ & Hr). apply rbind_inv in Hr. destruct Hr as (d & _ & Hr).
  match type of Hr with Ok ?x = _ => assert (c' = x) as -> by congruence end. cbn. rewrite Hwi. auto.
Qed.
Lemma no_detail F k x st st' : steady k = true -> k <> KDate -> cs_detail st = None -> addIndexStats F k x st <> Ok st'.
Proof.
  intros Hk Hd Hn H. unfold addIndexStats in H. rewrite Hn in H. apply rbind_inv in H. destruct H as (dd & Hdd & _).
  destruct k; try discriminate; try congruence; cbn [addIndexDetail] in Hdd; destruct x; discriminate.
Qed.
Lemma reset_rows deflate F o m : (1 <= m)%nat -> WriteIndex o = true -> forall vs c c2, steady (cw_kind c) = true ->
  0 <= cw_indexInRows c < Z.of_nat m -> writeRows deflate F o (Z.of_nat m) c vs = Ok c2 ->
  length (cw_index c2) = (length (cw_index c) + (Z.to_nat (cw_indexInRows c) + length vs) / m)%nat /\
  (cw_kind c <> KDate -> cs_detail (cw_indexStats c) = None ->
   Forall (fun v => Null v = true) (firstn (m - 1 - Z.to_nat (cw_indexInRows c)) vs)).
Proof.
  intros Hm Hwi. induction vs as [|v vs IH]; intros c c2 Hk Hr H; cbn [ColumnSpec.writeRows] in H.
  - assert (c2 = c) as -> by congruence. cbn [length]. rewrite Nat.add_0_r, (Nat.div_small _ m) by lia. rewrite firstn_nil. auto.
  - apply rbind_inv in H. destruct H as (c1 & H1 & H). apply (c_Write_index deflate F o m Hwi) in H1; [|exact Hk].
    destruct H1 as (K1 & _ & H1). cbn [length].
    destruct (Z.leb_spec (Z.of_nat m) (cw_indexInRows c + 1)) as [Hle|Hgt]; destruct H1 as (E1 & E2 & Hf).
    + assert (Hi : Z.to_nat (cw_indexInRows c) = (m - 1)%nat) by lia.
      destruct (IH c1 c2) as [L _]; [rewrite K1; exact Hk|lia|exact H|]. rewrite L, E1, E2, app_length, Hi. cbn [length Z.to_nat Nat.add].
      split; [|intros _ _; replace (m - 1 - (m - 1))%nat with O by lia; constructor].
      replace (m - 1 + S (length vs))%nat with (length vs + 1 * m)%nat by lia. rewrite Nat.div_add by lia. lia.
    + destruct (IH c1 c2) as [L N]; [rewrite K1; exact Hk|lia|exact H|]. rewrite L, E1, E2. split.
      * replace (Z.to_nat (cw_indexInRows c + 1) + length vs)%nat with (Z.to_nat (cw_indexInRows c) + S (length vs))%nat by lia. reflexivity.
      * intros Hd Hn. replace (m - 1 - Z.to_nat (cw_indexInRows c))%nat with (S (m - 1 - Z.to_nat (cw_indexInRows c1)))%nat by lia. cbn [firstn].
        assert (Hv : Null v = true).
        { destruct (Null v) eqn:Ev; [reflexivity|exfalso]. unfold values, rows_of, nonnull, row_of in Hf. cbn [map flat_map] in Hf. rewrite Ev in Hf. cbn [app foldM] in Hf.
          apply rbind_inv in Hf. destruct Hf as (st & Hst & _). exact (no_detail _ _ _ _ _ Hk Hd Hn Hst). }
        constructor; [exact Hv|]. apply N; [rewrite K1; exact Hd|].
        unfold values, rows_of, nonnull, row_of in Hf. cbn [map flat_map] in Hf. rewrite Hv in Hf. cbn [app foldM] in Hf.
        assert (cw_indexStats c1 = cw_indexStats c) as -> by congruence. exact Hn.
Qed.
Lemma second_stripe_rows deflate F o m c c' vs c2 : (1 <= m)%nat -> WriteIndex o = true -> c_Reset o c = Ok c' ->
  steady (cw_kind c) = true -> writeRows deflate F o (Z.of_nat m) c' vs = Ok c2 ->
  length (cw_index c2) = (length vs / m)%nat /\
  (cw_kind c <> KDate -> Forall (fun v => Null v = true) (firstn (m - 1) vs)).
Proof.
  intros Hm Hwi Hr Hk H. destruct (reset_index o c c' Hwi Hr) as (E1 & E2 & E3 & E4).
  destruct (reset_rows deflate F o m Hm Hwi vs c' c2) as [L N]; [rewrite E1; exact Hk|lia|exact H|].
  rewrite E4, E2 in L. split; [exact L|]. intros Hd. rewrite E2, Nat.sub_0_r in N. apply N; [rewrite E1; exact Hd|exact E3].
Qed.

(** ** The claims about entries *)
Definition isKBool (k : ckind) : bool := match k with KBool => true | _ => false end.
Lemma index_count deflate F o m id k hn vs c : (1 <= m)%nat -> Z.of_nat m < W64 -> WriteIndex o = true -> steady k = true ->
  writeRows deflate F o (Z.of_nat m) (newColW o id k hn) vs = Ok c ->
  length (cw_index c) = (length vs / m)%nat /\
  forall j, (j < length vs / m)%nat -> exists p st, nth_error (cw_index c) j = Some (p, st) /\
    cs_hasNull st = match j with O => hn && isKBool k | _ => hn end /\
    cs_values st = zlen (values (slice (winStart m j) (S j * m - 1) vs)) /\
    (cs_values st = zlen (values (slice (j * m) (S j * m) vs)) <->
     exists last, nth_error vs (S j * m - 1) = Some last /\
       match j with
       | O => Null last = true
       | _ => exists prev, nth_error vs (j * m - 1) = Some prev /\ Null prev = Null last
       end).
Proof.
  intros Hm HmW Hwi Hk H. destruct (index_entries deflate F o m Hm Hwi id k hn Hk vs c H) as (_ & _ & _ & Hl & _ & He).
  split; [exact Hl|]. intros j Hj. destruct (He j Hj) as (cj & st & Hn & _ & Hf). exists (positions o cj), st.
  split; [exact Hn|]. destruct (start_values k hn j) as [Hsu Hs0].
  apply fold_index_count in Hf; [|exact Hsu]. rewrite Hs0, Z.add_0_l in Hf. destruct Hf as [Hv Hnl].
  assert (Hb : (S j * m <= length vs)%nat).
  { pose proof (Nat.div_mod (length vs) m ltac:(lia)). nia. }
  split. { rewrite Hnl. destruct j; [|reflexivity]. destruct k, hn; try discriminate; reflexivity. }
  assert (Hv' : cs_values st = zlen (values (slice (winStart m j) (S j * m - 1) vs))).
  { rewrite Hv, u64_id; [reflexivity|]. pose proof (values_length (slice (winStart m j) (S j * m - 1) vs)) as Hle.
    pose proof (zlen_nonneg (values (slice (winStart m j) (S j * m - 1) vs))).
    assert (zlen (slice (winStart m j) (S j * m - 1) vs) <= Z.of_nat m).
    { unfold slice, zlen. rewrite firstn_length. unfold winStart. destruct j; nia. }
    unfold is_u64. lia. }
  split; [exact Hv'|]. rewrite Hv'. clear Hv Hv'.
  destruct (nth_error vs (S j * m - 1)) as [lst|] eqn:El; [|apply nth_error_None in El; nia].
  assert (Hs1 : slice (j * m) (S j * m) vs = slice (j * m) (S j * m - 1) vs ++ [lst]).
  { rewrite (slice_split (j * m) (S j * m - 1) (S j * m)) by nia. f_equal.
    rewrite <- (slice_nth _ _ _ El). f_equal. nia. }
  rewrite Hs1, values_app, zlen_app, values_one. destruct j as [|j].
  - cbn [winStart]. replace (0 * m)%nat with O by lia. split.
    + intros Hq. exists lst. split; [reflexivity|]. destruct (Null lst); [reflexivity|lia].
    + intros (l & E & Hq). assert (l = lst) as -> by congruence. rewrite Hq. lia.
  - destruct (nth_error vs (S j * m - 1)) as [prv|] eqn:Ep; [|apply nth_error_None in Ep; nia].
    unfold winStart. rewrite (slice_split (S j * m - 1) (S j * m) (S (S j) * m - 1)) by nia.
    assert (Hs2 : slice (S j * m - 1) (S j * m) vs = [prv]).
    { rewrite <- (slice_nth _ _ _ Ep). f_equal. nia. }
    rewrite Hs2, values_app, zlen_app, values_one. split.
    + intros Hq. exists lst. split; [reflexivity|]. exists prv. split; [reflexivity|]. destruct (Null prv), (Null lst); lia || reflexivity.
    + intros (l & E & p & E' & Hq). assert (l = lst) as -> by congruence. assert (p = prv) as -> by congruence. rewrite Hq. lia.
Qed.
Lemma index_ints deflate F o m id k hn vs c : (1 <= m)%nat -> WriteIndex o = true -> (k = KShort \/ k = KInt \/ k = KLong) ->
  writeRows deflate F o (Z.of_nat m) (newColW o id k hn) vs = Ok c ->
  forall j, (j < length vs / m)%nat -> exists p st mn mx, nth_error (cw_index c) j = Some (p, st) /\
    let xs := map int_of (values (slice (winStart m j) (S j * m - 1) vs)) in
    cs_detail st = Some (DInt mn mx (i64 (total xs))) /\ least (0 :: xs) mn /\ greatest (0 :: xs) mx.
Proof.
  intros Hm Hwi Hk H j Hj. assert (Hst : steady k = true /\ plain k = true /\ newDetail k = DInt 0 0 0) by (destruct Hk as [->|[->| ->]]; auto).
  destruct Hst as (Hst & Hpl & Hnd). destruct (index_entries deflate F o m Hm Hwi id k hn Hst vs c H) as (_ & _ & _ & Hl & _ & He).
  destruct (He j Hj) as (cj & st & Hn & _ & Hf).
  destruct (fold_index_detail F k _ Hpl _ _ _ (start_detail k hn j Hpl) Hf) as (d' & Hd & Hs). rewrite Hnd in Hd.
  apply (fold_int F k _ Hk) in Hd; [|unfold is_i64; lia]. destruct Hd as (mn & mx & -> & Hmn & Hmx).
  exists (positions o cj), st, mn, mx. auto.
Qed.

Lemma ranked_min F (r : Z -> Z) xs : forall m, (forall x y, In x (m :: xs) -> In y (m :: xs) -> f_lt F x y = (r x <? r y)) ->
  let w := fold_left (fun m x => fmin F x m) xs m in In w (m :: xs) /\ least (map r (m :: xs)) (r w).
Proof.
  induction xs as [|x t IH]; intros m Hr; cbn [fold_left].
  - split; [left; reflexivity|]. apply least_one.
  - assert (Hsub : forall a b, In a (fmin F x m :: t) -> In b (fmin F x m :: t) -> f_lt F a b = (r a <? r b)).
    { intros a b Ha Hb. apply Hr; (unfold fmin in Ha, Hb; destruct (f_lt F x m); cbn in Ha, Hb |- *; tauto). }
    specialize (IH _ Hsub). cbn zeta in IH. destruct IH as [Hin [Hm1 Hm2]]. cbn zeta.
    set (w := fold_left _ t _) in *. assert (Hw : In w (m :: x :: t)).
    { destruct Hin as [<-|Hin]; [|cbn; tauto]. unfold fmin. destruct (f_lt F x m); cbn; tauto. }
    split; [exact Hw|]. split; [apply in_map; exact Hw|]. intros y Hy. cbn [map] in Hy.
    pose proof (Hr x m ltac:(cbn; tauto) ltac:(cbn; tauto)) as Hxm.
    pose proof (Hm2 (r (fmin F x m)) ltac:(cbn; tauto)) as H0. unfold fmin in H0.
    destruct Hy as [<-|[<-|Hy]]; [| |apply Hm2; cbn; tauto]; destruct (f_lt F x m); lia.
Qed.
Lemma ranked_max F (r : Z -> Z) xs : forall m, (forall x y, In x (m :: xs) -> In y (m :: xs) -> f_lt F x y = (r x <? r y)) ->
  let w := fold_left (fun m x => fmax F x m) xs m in In w (m :: xs) /\ greatest (map r (m :: xs)) (r w).
Proof.
  induction xs as [|x t IH]; intros m Hr; cbn [fold_left].
  - split; [left; reflexivity|]. apply greatest_one.
  - assert (Hsub : forall a b, In a (fmax F x m :: t) -> In b (fmax F x m :: t) -> f_lt F a b = (r a <? r b)).
    { intros a b Ha Hb. apply Hr; (unfold fmax in Ha, Hb; destruct (f_lt F m x); cbn in Ha, Hb |- *; tauto). }
    specialize (IH _ Hsub). cbn zeta in IH. destruct IH as [Hin [Hm1 Hm2]]. cbn zeta.
    set (w := fold_left _ t _) in *. assert (Hw : In w (m :: x :: t)).
    { destruct Hin as [<-|Hin]; [|cbn; tauto]. unfold fmax. destruct (f_lt F m x); cbn; tauto. }
    split; [exact Hw|]. split; [apply in_map; exact Hw|]. intros y Hy. cbn [map] in Hy.
    pose proof (Hr m x ltac:(cbn; tauto) ltac:(cbn; tauto)) as Hxm.
    pose proof (Hm2 (r (fmax F x m)) ltac:(cbn; tauto)) as H0. unfold fmax in H0.
    destruct Hy as [<-|[<-|Hy]]; [| |apply Hm2; cbn; tauto]; destruct (f_lt F m x); lia.
Qed.
Lemma first_entry deflate F o m id k hn vs c : (1 <= m)%nat -> Z.of_nat m < W64 ->
  WriteIndex o = true -> steady k = true -> (m <= length vs)%nat -> Forall (fun v => Null v = false) vs ->
  writeRows deflate F o (Z.of_nat m) (newColW o id k hn) vs = Ok c ->
  exists p st, nth_error (cw_index c) 0 = Some (p, st) /\ cs_values st = Z.of_nat m - 1 /\
    zlen (values (slice 0 m vs)) = Z.of_nat m.
Proof.
  intros Hm HmW Hwi Hk Hl Hn H. destruct (index_count deflate F o m id k hn vs c Hm HmW Hwi Hk H) as [_ He].
  destruct (He O) as (p & st & Hp & _ & Hv & _); [apply Nat.div_str_pos; lia|]. exists p, st. split; [exact Hp|].
  assert (Hall : forall l, Forall (fun v => Null v = false) l -> zlen (values l) = zlen l).
  { clear. induction l as [|v t IH]; intros Hf; [reflexivity|]. inversion Hf; subst. change (v :: t) with ([v] ++ t).
    rewrite values_app, !zlen_app, values_one, IH by assumption. rewrite H1. reflexivity. }
  assert (Hs : forall b, (b <= length vs)%nat -> zlen (values (slice 0 b vs)) = Z.of_nat b).
  { intros b Hb. rewrite Hall. - unfold slice, zlen. cbn [skipn]. rewrite firstn_length. lia.
    - unfold slice. cbn [skipn]. apply Forall_forall. intros x Hx. rewrite Forall_forall in Hn. apply Hn. rewrite <- (firstn_skipn (b - 0) vs). apply in_or_app. left. exact Hx. }
  split; [|apply Hs; exact Hl]. rewrite Hv. cbn [winStart]. rewrite Hs by lia. lia.
Qed.
Lemma new_bytes deflate F o stride id k hn segs out c : stripes deflate F o stride (newColW o id k hn) segs = Ok (out, c) ->
  segs <> [] -> zlen (concat out) < W64 ->
  cs_bytes (cw_stats c) = if hn then zlen (last out []) else zlen (concat out).
Proof.
  intros H Hne Hz. apply stripes_bytes in H; [|exact Hz|unfold is_u64; cbn; lia|exact Hne]. rewrite H. unfold hasNulls.
  destruct hn; cbn; [reflexivity|]. apply u64_id. pose proof (zlen_nonneg (concat out)). unfold is_u64. lia.
Qed.
