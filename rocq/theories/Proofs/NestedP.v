(** List and map readers. *)
From Coq Require Import ZifyBool ZifyNat.
From Verif.Model Require Import Go Codec ByteBool IntRle Chunk Stream Time File Column Nested Tree.
From Verif.Spec Require Import Session IntSpec ColumnSpec SeekSpec NestedSpec.
From Verif.Proofs Require Import Base StreamP ReadP ColumnP ColumnReadP SeekP TreeP BatchP SkipP.

Section Session.
Variable inflate : list Z -> res (list Z).
Variable o : opts.
Notation listHead := (listHead inflate o).
Notation shows := (shows inflate o).

(** ** The streams of the list itself *)
Inductive heads : listR -> list (option Z) -> listR -> Prop :=
| heads_nil r : heads r [] r
| heads_cons r n r1 t r' : listHead r false = Ok (n, r1) -> heads r1 t r' -> heads r (n :: t) r'.

Lemma listHead_flag r old : (ls_present r = None -> old = false) -> listHead r old = listHead r false.
Proof. intros H. unfold Nested.listHead. destruct (ls_present r); [reflexivity|]. rewrite (H eq_refl). reflexivity. Qed.
Lemma listHead_none r n r1 : listHead r false = Ok (n, r1) -> (ls_present r1 = None <-> ls_present r = None).
Proof.
  unfold Nested.listHead. destruct (ls_present r) as [b|].
  - destruct (bool_Next inflate o b) as [[[] b']| |]; cbn [rbind negb]; try discriminate.
    + destruct (nextSecond inflate o DecodeUInt (ls_length r)) as [[x l]| |]; cbn [rbind]; try discriminate.
      intros [= <- <-]. cbn. split; discriminate.
    + intros [= <- <-]. cbn. split; discriminate.
  - cbn [rbind]. destruct (nextSecond inflate o DecodeUInt (ls_length r)) as [[x l]| |]; cbn [rbind]; try discriminate.
    intros [= <- <-]. cbn. tauto.
Qed.
Lemma listHead_some r n r1 : listHead r false = Ok (n, r1) -> ls_present r = None -> n <> None.
Proof.
  unfold Nested.listHead. intros H E. rewrite E in H. cbn [rbind] in H.
  destruct (nextSecond inflate o DecodeUInt (ls_length r)) as [[x l]| |]; cbn [rbind] in H; congruence.
Qed.

Lemma counts_cons x rows : counts (x :: rows) = match x with Some n => n :: counts rows | None => counts rows end.
Proof. destruct x; reflexivity. Qed.

Lemma heads_shows rows : forall r r', heads r rows r' <-> shows r rows r'.
Proof.
  induction rows as [|n t IH]; intros [p l] [p' l'].
  - split.
    + intros H. inversion H; subst. unfold NestedSpec.shows. cbn. split; [destruct p'; [reflexivity|intros []]|reflexivity].
    + unfold NestedSpec.shows. cbn. intros [Hp Hl]. assert (l = l') as -> by congruence.
      destruct p as [b|], p' as [b'|]; try contradiction; [assert (b = b') as -> by congruence|]; constructor.
  - split.
    + intros H. inversion H as [|? ? r1 ? ? Hh Ht]; subst. apply IH in Ht. unfold NestedSpec.shows in *. cbn [ls_present ls_length] in *.
      rewrite counts_cons. unfold Nested.listHead in Hh. cbn [ls_present ls_length] in Hh. destruct p as [b|].
      * cbn [length bits map]. destruct (bool_Next inflate o b) as [[[] b1]| |] eqn:Eb; cbn [rbind negb] in *; try discriminate Hh.
        -- destruct (nextSecond inflate o DecodeUInt l) as [[x l1]| |] eqn:El; cbn [rbind] in Hh; try discriminate Hh.
           injection Hh as <- <-. cbn [ls_present ls_length] in Ht. destruct Ht as [Hp Hl]. destruct p' as [b'|]; [|contradiction].
           split; [rewrite Hp; reflexivity|]. cbn [length numbers]. rewrite El. cbn [rbind]. rewrite Hl. reflexivity.
        -- injection Hh as <- <-. cbn [ls_present ls_length] in Ht. destruct Ht as [Hp Hl]. destruct p' as [b'|]; [|contradiction].
           split; [rewrite Hp; reflexivity|exact Hl].
      * cbn [rbind] in Hh. destruct (nextSecond inflate o DecodeUInt l) as [[x l1]| |] eqn:El; cbn [rbind] in Hh; try discriminate Hh.
        injection Hh as <- <-. cbn [ls_present ls_length] in Ht. destruct Ht as [Hp Hl]. destruct p' as [b'|]; [contradiction|].
        split; [intros [E|E]; [discriminate E|auto]|]. cbn [length numbers]. rewrite El. cbn [rbind]. rewrite Hl. reflexivity.
    + unfold NestedSpec.shows. cbn [ls_present ls_length]. rewrite counts_cons. intros [Hp Hl]. destruct p as [b|].
      * destruct p' as [b'|]; [|contradiction]. cbn [length bits map] in Hp.
        destruct (bool_Next inflate o b) as [[q b1]| |] eqn:Eb; cbn [rbind] in Hp; try discriminate Hp.
        destruct (bits inflate o (length t) b1) as [[ps b2]| |] eqn:Ep; cbn [rbind] in Hp; try discriminate Hp.
        injection Hp as -> -> ->. destruct n as [x|].
        -- cbn [length numbers] in Hl. destruct (nextSecond inflate o DecodeUInt l) as [[y l1]| |] eqn:El; cbn [rbind] in Hl; try discriminate Hl.
           destruct (numbers inflate o (length (counts t)) (Some l1)) as [[xs l2]| |] eqn:En; cbn [rbind] in Hl; try discriminate Hl.
           injection Hl as -> -> ->. econstructor.
           ++ unfold Nested.listHead. cbn [ls_present ls_length]. rewrite Eb. cbn [rbind negb some_bit]. rewrite El. reflexivity.
           ++ apply IH. unfold NestedSpec.shows. cbn [ls_present ls_length]. split; assumption.
        -- econstructor.
           ++ unfold Nested.listHead. cbn [ls_present ls_length]. rewrite Eb. reflexivity.
           ++ apply IH. unfold NestedSpec.shows. cbn [ls_present ls_length]. split; assumption.
      * destruct p' as [b'|]; [contradiction|]. destruct n as [x|]; [|exfalso; apply Hp; left; reflexivity].
        cbn [length numbers] in Hl. destruct (nextSecond inflate o DecodeUInt l) as [[y l1]| |] eqn:El; cbn [rbind] in Hl; try discriminate Hl.
        destruct (numbers inflate o (length (counts t)) (Some l1)) as [[xs l2]| |] eqn:En; cbn [rbind] in Hl; try discriminate Hl.
        injection Hl as -> -> ->. econstructor.
        -- unfold Nested.listHead. cbn [ls_present ls_length rbind]. rewrite El. reflexivity.
        -- apply IH. unfold NestedSpec.shows. cbn [ls_present ls_length]. split; [intros H; apply Hp; right; exact H|assumption].
Qed.

(** ** Batches, for children that deliver rows *)
Definition given (out : list value) (f : Z -> gval) (rows : list (option Z)) : Prop := rows_of out = map (option_map f) rows.

(** [D c es]: the child gives the elements [es] from here on. *)
Definition child_ok {C} (next : C -> vtree -> res (vtree * C)) (D : C -> list (option gval) -> Prop) (nulls : bool) : Prop :=
  (forall c es n cs, D c es -> (n <= length es)%nat -> exists w c',
     next c (VT (repeat zeroValue n) cs) = Ok (VT w cs, c') /\ rows_of w = firstn n es /\ D c' (skipn n es)) /\
  (nulls = true -> forall c es cs, D c es -> exists w c',
     next c (VT [{| Null := true; V := GNil |}] cs) = Ok (VT w cs, c') /\ rows_of w = [None] /\ D c' es).

Lemma elements_none : elements None = [{| Null := true; V := GNil |}]. Proof. reflexivity. Qed.
Lemma elements_some n : 0 <= n < W63 -> elements (Some n) = repeat zeroValue (Z.to_nat n).
Proof. intros H. unfold elements. rewrite i64_id by (unfold is_i64; lia). reflexivity. Qed.

Lemma total_cons n l : total (n :: l) = (n + total l)%nat. Proof. reflexivity. Qed.

Lemma child_row {C} next D nulls (H : @child_ok C next D nulls) x rows c es w cs :
  (nulls = false -> ~ In None (x :: rows)) -> lengths_ok (x :: rows) -> (total (sizes (x :: rows)) <= length es)%nat -> D c es ->
  exists w' c' es', next c (setVals (VT w cs) (elements x)) = Ok (VT w' cs, c') /\
    shares (x :: rows) es = rows_of w' :: shares rows es' /\ (total (sizes rows) <= length es')%nat /\ D c' es' /\
    skipn (total (sizes (x :: rows))) es = skipn (total (sizes rows)) es'.
Proof.
  destruct H as [H1 H2]. intros Hn Hl Ht Hd. cbn [setVals]. unfold lengths_ok, sizes in *. rewrite counts_cons in *. destruct x as [n|].
  - inversion Hl as [|? ? Hx Hl']; subst. cbn [map] in *. rewrite total_cons in *. rewrite elements_some by exact Hx.
    destruct (H1 c es (Z.to_nat n) cs Hd ltac:(lia)) as (w' & c' & E & Er & Hd'). exists w', c', (skipn (Z.to_nat n) es).
    split; [exact E|]. cbn [shares]. rewrite Er. split; [reflexivity|]. rewrite skipn_length. split; [lia|]. split; [exact Hd'|].
    clear. revert es. induction (Z.to_nat n) as [|k IH]; intros es; [reflexivity|]. destruct es as [|e es]; [rewrite !skipn_nil; reflexivity|]. cbn [Nat.add skipn]. apply IH.
  - destruct nulls; [|exfalso; apply (Hn eq_refl); left; reflexivity]. rewrite elements_none.
    destruct (H2 eq_refl c es cs Hd) as (w' & c' & E & Er & Hd'). exists w', c', es.
    split; [exact E|]. cbn [shares]. rewrite Er. split; [reflexivity|]. split; [exact Ht|]. split; [exact Hd'|reflexivity].
Qed.

Lemma space_cons r n r1 rows v vec : listHead r false = Ok (n, r1) -> space r (n :: rows) (v :: vec) ->
  (ls_present r = None -> Null v = false) /\ space r1 rows vec.
Proof.
  intros Hh [Hl Hf]. split.
  - intros E. specialize (Hf E). inversion Hf; assumption.
  - split; [cbn in Hl; lia|]. intros E. apply (listHead_none _ _ _ Hh) in E. specialize (Hf E). inversion Hf; assumption.
Qed.

Lemma last_cons {A} (x : A) l d : last (x :: l) d = last l x.
Proof. revert x d. induction l as [|y l IH]; intros x d; [reflexivity|]. change (last (x :: y :: l) d) with (last (y :: l) d). rewrite !IH. reflexivity. Qed.

Lemma list_batch {C} next D nulls (H : @child_ok C next D nulls) rows : forall r r' c es vec w cs,
  shows r rows r' -> space r rows vec -> lengths_ok rows -> (nulls = false -> ~ In None rows) ->
  (total (sizes rows) <= length es)%nat -> D c es ->
  exists out w' c', list_NextBatch inflate o C next r c vec (VT w cs) = Ok (out, VT w' cs, r', c') /\
    given out GUint64 rows /\ rows_of w' = last (shares rows es) (rows_of w) /\ D c' (skipn (total (sizes rows)) es).
Proof.
  intros r r' c es vec w cs Hs. apply heads_shows in Hs. revert c es vec w. induction Hs as [r|r n r1 rows r' Hh Hs IH]; intros c es vec w Hsp Hl Hn Ht Hd.
  - destruct Hsp as [Hv _]. destruct vec; [|discriminate Hv]. exists [], w, c. split; [reflexivity|]. split; [reflexivity|]. split; [reflexivity|exact Hd].
  - destruct vec as [|v vec]; [destruct Hsp as [Hv _]; discriminate Hv|]. destruct (space_cons _ _ _ _ _ _ Hh Hsp) as [Hf Hsp'].
    destruct (child_row next D nulls H n rows c es w cs Hn Hl Ht Hd) as (w1 & c1 & es1 & E1 & Es & Ht1 & Hd1 & Ek).
    destruct (IH c1 es1 vec w1 Hsp') as (out & w' & c' & E & Hg & Hw & Hd'); [| |exact Ht1|exact Hd1|].
    { unfold lengths_ok in *. rewrite counts_cons in Hl. destruct n; [inversion Hl; assumption|exact Hl]. }
    { intros En Hi. apply (Hn En). right. exact Hi. }
    cbn [list_NextBatch]. rewrite (listHead_flag r (Null v) Hf), Hh. cbn [rbind]. rewrite E1. cbn [rbind]. rewrite E. cbn [rbind].
    eexists _, w', c'. split; [reflexivity|]. split; [|split].
    + unfold given in *. cbn [rows_of map] in *. fold (rows_of out). rewrite Hg. destruct n; reflexivity.
    + rewrite Es, last_cons. exact Hw.
    + rewrite Ek. exact Hd'.
Qed.

Lemma map_batch {K W} nextK nextW DK DW nulls (HK : @child_ok K nextK DK nulls) (HW : @child_ok W nextW DW nulls) rows :
  forall r r' k w ks ws vec kv wv kcs wcs,
  shows r rows r' -> space r rows vec -> lengths_ok rows -> (nulls = false -> ~ In None rows) ->
  (total (sizes rows) <= length ks)%nat -> (total (sizes rows) <= length ws)%nat -> DK k ks -> DW w ws ->
  exists out kv' wv' k' w', map_NextBatch inflate o K W nextK nextW r k w vec (VT kv kcs) (VT wv wcs) = Ok (out, VT kv' kcs, VT wv' wcs, r', k', w') /\
    given out GInt rows /\ rows_of kv' = last (shares rows ks) (rows_of kv) /\ rows_of wv' = last (shares rows ws) (rows_of wv) /\
    DK k' (skipn (total (sizes rows)) ks) /\ DW w' (skipn (total (sizes rows)) ws).
Proof.
  intros r r' k w ks ws vec kv wv kcs wcs Hs. apply heads_shows in Hs. revert k w ks ws vec kv wv.
  induction Hs as [r|r n r1 rows r' Hh Hs IH]; intros k w ks ws vec kv wv Hsp Hl Hn Htk Htw Hdk Hdw.
  - destruct Hsp as [Hv _]. destruct vec; [|discriminate Hv]. exists [], kv, wv, k, w. split; [reflexivity|]. split; [reflexivity|]. split; [reflexivity|]. split; [reflexivity|]. split; assumption.
  - destruct vec as [|v vec]; [destruct Hsp as [Hv _]; discriminate Hv|]. destruct (space_cons _ _ _ _ _ _ Hh Hsp) as [Hf Hsp'].
    destruct (child_row nextK DK nulls HK n rows k ks kv kcs Hn Hl Htk Hdk) as (kv1 & k1 & ks1 & Ek1 & Eks & Htk1 & Hdk1 & Ekk).
    destruct (child_row nextW DW nulls HW n rows w ws wv wcs Hn Hl Htw Hdw) as (wv1 & w1 & ws1 & Ew1 & Ews & Htw1 & Hdw1 & Ekw).
    assert (Hl' : lengths_ok rows) by (unfold lengths_ok in *; rewrite counts_cons in Hl; destruct n; [inversion Hl; assumption|exact Hl]).
    assert (Hn' : nulls = false -> ~ In None rows) by (intros En Hi; apply (Hn En); right; exact Hi).
    destruct (IH k1 w1 ks1 ws1 vec kv1 wv1 Hsp' Hl' Hn' Htk1 Htw1 Hdk1 Hdw1) as (out & kv' & wv' & k' & w' & E & Hg & Hkv & Hwv & Hdk' & Hdw').
    cbn [map_NextBatch]. rewrite (listHead_flag r (Null v) Hf), Hh. cbn [rbind]. rewrite Ek1. cbn [rbind]. rewrite Ew1. cbn [rbind]. rewrite E. cbn [rbind].
    eexists _, kv', wv', k', w'. split; [reflexivity|]. split; [|split; [|split; [|split]]].
    + unfold given in *. cbn [rows_of map] in *. fold (rows_of out). rewrite Hg. destruct n as [x|]; [|reflexivity]. cbn. rewrite i64_id; [reflexivity|].
      unfold lengths_ok in Hl. rewrite counts_cons in Hl. inversion Hl; subst. unfold is_i64. lia.
    + rewrite Eks, last_cons. exact Hkv.
    + rewrite Ews, last_cons. exact Hwv.
    + rewrite Ekk. exact Hdk'.
    + rewrite Ekw. exact Hdw'.
Qed.

(** ** Leaf columns as children *)
Lemma cut_one {A B} (v : list B) (l : list A) vecs : cut (v :: vecs) l = firstn (length v) l :: cut vecs (skipn (length v) l).
Proof. reflexivity. Qed.
Lemma delivers_step hn c es v : delivers_from inflate o hn c es -> (length v <= length es)%nat ->
  (hn = false -> Forall (fun x => Null x = false) v) ->
  exists x c1, NextBatch inflate o c v = Ok (x, c1) /\ rows_of x = firstn (length v) es /\ delivers_from inflate o hn c1 (skipn (length v) es).
Proof.
  intros H Hl Hv. destruct (H [v]) as (outs & c' & E & Er).
  { cbn [concat]. rewrite app_nil_r. exact Hl. } { cbn [concat]. rewrite app_nil_r. exact Hv. }
  cbn [readBatches] in E. destruct (NextBatch inflate o c v) as [[x c1]| |] eqn:En; cbn [rbind] in E; try discriminate E.
  injection E as <- <-. rewrite cut_one in Er. cbn [map] in Er. injection Er as Er. exists x, c1. split; [reflexivity|]. split; [exact Er|].
  intros vecs Hl2 Hf. rewrite skipn_length in Hl2. destruct (H (v :: vecs)) as (outs & c2 & E & Er2).
  { cbn [concat]. rewrite app_length. lia. } { intros Hh. cbn [concat]. apply Forall_app. auto. }
  cbn [readBatches] in E. rewrite En in E. cbn [rbind] in E. destruct (readBatches inflate o c1 vecs) as [[xs c3]| |] eqn:Eb; cbn [rbind] in E; try discriminate E.
  injection E as <- <-. exists xs, c3. split; [reflexivity|]. rewrite cut_one in Er2. cbn [map] in Er2. injection Er2 as _ Er2. exact Er2.
Qed.

Lemma rows_of_repeat_len (n : nat) : length (repeat zeroValue n) = n. Proof. apply repeat_length. Qed.
Definition leafD (hn nulls : bool) (c : colR) (es : list (option gval)) : Prop :=
  delivers_from inflate o hn c es /\ (nulls = true -> cr_present c = None).
Lemma leaf_ok hn nulls : child_ok (leaf_next inflate o) (leafD hn nulls) nulls.
Proof.
  split.
  - intros c es n cs [Hd Hp] Hl. destruct (delivers_step hn c es (repeat zeroValue n) Hd) as (x & c1 & E & Er & Hd').
    { rewrite repeat_length. exact Hl. }
    { intros _. apply Forall_forall. intros y Hy. apply repeat_spec in Hy. subst y. reflexivity. }
    rewrite repeat_length in *. exists x, c1. unfold leaf_next. rewrite E. cbn [rbind]. split; [reflexivity|]. split; [exact Er|]. split; [exact Hd'|].
    intros Hn. apply (Same_none c c1); [eapply NextBatch_base; exact E|auto].
  - intros -> c es cs [Hd Hp]. exists [{| Null := true; V := GNil |}], c. split; [|split; [reflexivity|split; assumption]].
    unfold leaf_next. cbn [NextBatch]. unfold nextRow, nextPresent. rewrite (Hp eq_refl). reflexivity.
Qed.

(** ** Skipping *)
Lemma skipRows_add n m : forall c, skipRows inflate o (n + m) c = let! c' := skipRows inflate o n c in skipRows inflate o m c'.
Proof.
  induction n as [|n IH]; intros c; [reflexivity|]. change (S n + m)%nat with (S (n + m)). rewrite (skipRows_S inflate o (n + m) c), (skipRows_S inflate o n c).
  destruct (skipRows inflate o 1 c) as [c1| |]; cbn [rbind]; [apply IH|reflexivity..].
Qed.
Lemma blanks_fit c n : accepts (cr_kind c) GNil ->
  Forall (fun v => (cr_present c = None -> Null v = false) /\ accepts (cr_kind c) (V v)) (repeat zeroValue n).
Proof. intros H. apply Forall_forall. intros y Hy. apply repeat_spec in Hy. subst y. split; [reflexivity|exact H]. Qed.
(** Reading [n] new elements is skipping [n] rows. *)
Lemma leaf_read c n cs : accepts (cr_kind c) GNil ->
  after (leaf_next inflate o c (VT (repeat zeroValue n) cs)) = skipRows inflate o n c.
Proof.
  intros H. rewrite <- (repeat_length zeroValue n) at 2. rewrite (skip_is_next inflate o (repeat zeroValue n) c (blanks_fit c n H)).
  unfold leaf_next, after. destruct (NextBatch inflate o c (repeat zeroValue n)) as [[x c']| |]; reflexivity.
Qed.
Lemma leaf_null c cs : cr_present c = None ->
  leaf_next inflate o c (VT [{| Null := true; V := GNil |}] cs) = Ok (VT [{| Null := true; V := GNil |}] cs, c).
Proof. intros H. unfold leaf_next. cbn [NextBatch]. unfold nextRow, nextPresent. rewrite H. reflexivity. Qed.
Lemma leaf_shape c v v' c' : leaf_next inflate o c v = Ok (v', c') -> Same c c' /\ exists w, v' = VT w (match v with VT _ cs => cs end).
Proof.
  destruct v as [vals cs]. unfold leaf_next. destruct (NextBatch inflate o c vals) as [[x c1]| |] eqn:E; cbn [rbind]; try discriminate.
  intros [= <- <-]. split; [eapply NextBatch_base; exact E|eauto].
Qed.

Definition states {A B C D} (r : res (A * B * C * D)) : res (C * D) := match r with Ok (_, _, c, d) => Ok (c, d) | Err => Err | Panic => Panic end.
Lemma Same_kind c c' : Same c c' -> cr_kind c' = cr_kind c.
Proof. intros [H _ _ _ _ _]. congruence. Qed.
Lemma list_skip vec : forall r c cv, accepts (cr_kind c) GNil -> cr_present c = None \/ ls_present r = None ->
  (ls_present r = None -> Forall (fun v => Null v = false) vec) ->
  listSkip inflate o colR (leaf_skip inflate o) (length vec) r c =
    states (list_NextBatch inflate o colR (leaf_next inflate o) r c vec cv).
Proof.
  induction vec as [|v vec IH]; intros r c cv Ha Hp Hf; [reflexivity|]. cbn [length listSkip list_NextBatch].
  rewrite (listHead_flag r (Null v)) by (intros E; specialize (Hf E); inversion Hf; assumption).
  destruct (listHead r false) as [[n r1]| |] eqn:Eh; try reflexivity. cbn [rbind].
  assert (E : match n with Some l => leaf_skip inflate o l c | None => Ok c end = after (leaf_next inflate o c (setVals cv (elements n)))).
  { destruct cv as [w cs]. cbn [setVals]. destruct n as [l|].
    - unfold elements. rewrite leaf_read by exact Ha. reflexivity.
    - rewrite elements_none, leaf_null; [reflexivity|]. destruct Hp as [Hp|Hp]; [exact Hp|]. destruct (listHead_some _ _ _ Eh Hp eq_refl). }
  rewrite E. destruct (leaf_next inflate o c (setVals cv (elements n))) as [[cv1 c1]| |] eqn:El; try reflexivity. cbn [after rbind].
  destruct (leaf_shape _ _ _ _ El) as [Hs _].
  rewrite (IH r1 c1 cv1).
  - destruct (list_NextBatch inflate o colR (leaf_next inflate o) r1 c1 vec cv1) as [[[[xs cv2] r2] c2]| |]; reflexivity.
  - rewrite (Same_kind _ _ Hs). exact Ha.
  - destruct Hp as [Hp|Hp]; [left; apply (Same_none c c1 Hs); exact Hp|right; apply (listHead_none _ _ _ Eh); exact Hp].
  - intros Er. apply (listHead_none _ _ _ Eh) in Er. specialize (Hf Er). inversion Hf; assumption.
Qed.

Lemma skipEntries_rows l m : forall k w k' w',
  skipEntries colR colR (leaf_skip inflate o) (leaf_skip inflate o) m l k w = Ok (k', w') <->
  skipRows inflate o (m * Z.to_nat (i64 l)) k = Ok k' /\ skipRows inflate o (m * Z.to_nat (i64 l)) w = Ok w'.
Proof.
  induction m as [|m IH]; intros k w k' w'; cbn [skipEntries].
  - cbn [Nat.mul skipRows]. split; [intros [= -> ->]; auto|intros [[= ->] [= ->]]; reflexivity].
  - change (S m * Z.to_nat (i64 l))%nat with (Z.to_nat (i64 l) + m * Z.to_nat (i64 l))%nat. rewrite (skipRows_add _ _ k), (skipRows_add _ _ w).
    unfold leaf_skip at 1 2, Skip.
    destruct (skipRows inflate o (Z.to_nat (i64 l)) k) as [k1| |] eqn:Ek; cbn [rbind]; [|split; [discriminate|intros [? _]; discriminate]..].
    destruct (skipRows inflate o (Z.to_nat (i64 l)) w) as [w1| |] eqn:Ew; cbn [rbind]; [|split; [discriminate|intros [_ ?]; discriminate]..].
    exact (IH k1 w1 k' w').
Qed.

Lemma sizes_cons x rows : sizes (x :: rows) = match x with Some n => Z.to_nat n :: sizes rows | None => sizes rows end.
Proof. unfold sizes. rewrite counts_cons. destruct x; reflexivity. Qed.
Lemma lengths_cons x rows : lengths_ok (x :: rows) -> lengths_ok rows /\ match x with Some n => i64 n = n | None => True end.
Proof.
  unfold lengths_ok. rewrite counts_cons. destruct x as [n|]; intros H; [|auto]. inversion H; subst. split; [assumption|]. apply i64_id. unfold is_i64. lia.
Qed.
Lemma skip_two n m c c' : skipRows inflate o (n + m) c = Ok c' <-> exists c1, skipRows inflate o n c = Ok c1 /\ skipRows inflate o m c1 = Ok c'.
Proof.
  rewrite skipRows_add. destruct (skipRows inflate o n c) as [c1| |]; cbn [rbind]; split; intros H; try discriminate H; try (destruct H as (d & Hd & _); discriminate Hd).
  - eauto.
  - destruct H as (d & Hd & H). congruence.
Qed.
(** Skipping map rows skips the squares of their lengths. *)
Lemma map_skip rows : forall r r' k w, shows r rows r' -> lengths_ok rows -> forall r2 k' w',
  mapSkip inflate o colR colR (leaf_skip inflate o) (leaf_skip inflate o) (length rows) r k w = Ok (r2, k', w') <->
  r2 = r' /\ skipRows inflate o (total (squares (sizes rows))) k = Ok k' /\ skipRows inflate o (total (squares (sizes rows))) w = Ok w'.
Proof.
  intros r r' k w Hs. apply heads_shows in Hs. revert k w. induction Hs as [r|r n r1 rows r' Hh Hs IH]; intros k w Hl r2 k' w'.
  - cbn. split; [intros [= -> -> ->]; auto|intros (-> & [= ->] & [= ->]); reflexivity].
  - destruct (lengths_cons _ _ Hl) as [Hl' Hn]. cbn [length mapSkip]. rewrite Hh. cbn [rbind]. rewrite sizes_cons. destruct n as [n|].
    + cbn [squares map]. fold (squares (sizes rows)). rewrite total_cons, !skip_two.
      destruct (skipEntries colR colR (leaf_skip inflate o) (leaf_skip inflate o) (Z.to_nat (i64 n)) n k w) as [[k1 w1]| |] eqn:E.
      * cbn [rbind]. rewrite (IH k1 w1 Hl'). apply skipEntries_rows in E. rewrite Hn in E. destruct E as [Ek Ew]. split.
        -- intros (-> & H1 & H2). split; [reflexivity|]. split; eauto.
        -- intros (-> & (k2 & H1 & H2) & (w2 & H3 & H4)). split; [reflexivity|]. assert (k2 = k1) as -> by congruence. assert (w2 = w1) as -> by congruence. auto.
      * cbn [rbind]. split; [discriminate|]. intros (_ & (k2 & H1 & _) & (w2 & H2 & _)). exfalso.
        assert (X : Err = Ok (k2, w2)) by (rewrite <- E; apply skipEntries_rows; rewrite Hn; auto). discriminate X.
      * cbn [rbind]. split; [discriminate|]. intros (_ & (k2 & H1 & _) & (w2 & H2 & _)). exfalso.
        assert (X : Panic = Ok (k2, w2)) by (rewrite <- E; apply skipEntries_rows; rewrite Hn; auto). discriminate X.
    + cbn [rbind]. apply (IH k w Hl').
Qed.
(** Reading them goes on by their lengths. *)
Lemma leaf_row c n rows w cs v' c' : (In None (n :: rows) -> cr_present c = None) -> accepts (cr_kind c) GNil -> lengths_ok (n :: rows) ->
  leaf_next inflate o c (setVals (VT w cs) (elements n)) = Ok (v', c') ->
  skipRows inflate o (match n with Some n => Z.to_nat n | None => O end) c = Ok c' /\ (exists w', v' = VT w' cs) /\
  (In None rows -> cr_present c' = None) /\ accepts (cr_kind c') GNil.
Proof.
  intros Hp Ha Hl E. destruct (leaf_shape _ _ _ _ E) as [Hs (w' & Hv)]. cbn [setVals] in *. destruct (lengths_cons _ _ Hl) as [_ Hn]. split; [|split; [|split]].
  - destruct n as [n|].
    + unfold elements in E. rewrite Hn in E. rewrite <- (leaf_read c (Z.to_nat n) cs Ha). rewrite E. reflexivity.
    + rewrite elements_none, leaf_null in E by (apply Hp; left; reflexivity). cbn. congruence.
  - eauto.
  - intros Hi. apply (Same_none c c' Hs). apply Hp. right. exact Hi.
  - rewrite (Same_kind _ _ Hs). exact Ha.
Qed.
Lemma leaf_row_ok c n rows w cs c' : (In None (n :: rows) -> cr_present c = None) -> accepts (cr_kind c) GNil -> lengths_ok (n :: rows) ->
  skipRows inflate o (match n with Some n => Z.to_nat n | None => O end) c = Ok c' ->
  exists w', leaf_next inflate o c (setVals (VT w cs) (elements n)) = Ok (VT w' cs, c').
Proof.
  intros Hp Ha Hl E. cbn [setVals]. destruct (lengths_cons _ _ Hl) as [_ Hn]. destruct n as [n|].
  - unfold elements. rewrite Hn. rewrite <- (leaf_read c (Z.to_nat n) cs Ha) in E. apply after_ok in E. destruct E as (v' & E).
    destruct (leaf_shape _ _ _ _ E) as [_ (w' & ->)]. eauto.
  - rewrite elements_none, leaf_null by (apply Hp; left; reflexivity). cbn in E. assert (c' = c) as -> by congruence. eauto.
Qed.
Lemma sizes_total x rows : total (sizes (x :: rows)) = ((match x with Some n => Z.to_nat n | None => O end) + total (sizes rows))%nat.
Proof. rewrite sizes_cons. destruct x; reflexivity. Qed.

Lemma map_read rows : forall r r' k w vec kv wv kcs wcs, shows r rows r' -> lengths_ok rows -> space r rows vec ->
  (In None rows -> cr_present k = None /\ cr_present w = None) -> accepts (cr_kind k) GNil -> accepts (cr_kind w) GNil -> forall r2 k' w',
  (exists out kv' wv', map_NextBatch inflate o colR colR (leaf_next inflate o) (leaf_next inflate o) r k w vec (VT kv kcs) (VT wv wcs) = Ok (out, kv', wv', r2, k', w')) <->
  r2 = r' /\ skipRows inflate o (total (sizes rows)) k = Ok k' /\ skipRows inflate o (total (sizes rows)) w = Ok w'.
Proof.
  intros r r' k w vec kv wv kcs wcs Hs. apply heads_shows in Hs. revert k w vec kv wv.
  induction Hs as [r|r n r1 rows r' Hh Hs IH]; intros k w vec kv wv Hl Hsp Hp Hak Haw r2 k' w'.
  - destruct Hsp as [Hv _]. destruct vec; [|discriminate Hv]. cbn. split; [intros (? & ? & ? & [= _ _ _ -> -> ->]); auto|intros (-> & [= ->] & [= ->]); eauto].
  - destruct vec as [|v vec]; [destruct Hsp as [Hv _]; discriminate Hv|]. destruct (space_cons _ _ _ _ _ _ Hh Hsp) as [Hf Hsp'].
    destruct (lengths_cons _ _ Hl) as [Hl' _]. rewrite sizes_total, !skip_two.
    cbn [map_NextBatch]. rewrite (listHead_flag r (Null v) Hf), Hh. cbn [rbind].
    assert (Hpk : In None (n :: rows) -> cr_present k = None) by (intros X; apply (Hp X)).
    assert (Hpw : In None (n :: rows) -> cr_present w = None) by (intros X; apply (Hp X)).
    split.
    + intros (out & kv' & wv' & E).
      destruct (leaf_next inflate o k (setVals (VT kv kcs) (elements n))) as [[kv1 k1]| |] eqn:Ek; cbn [rbind] in E; try discriminate E.
      destruct (leaf_next inflate o w (setVals (VT wv wcs) (elements n))) as [[wv1 w1]| |] eqn:Ew; cbn [rbind] in E; try discriminate E.
      destruct (leaf_row _ _ _ _ _ _ _ Hpk Hak Hl Ek) as (Sk & (kv2 & ->) & Hpk1 & Hak1).
      destruct (leaf_row _ _ _ _ _ _ _ Hpw Haw Hl Ew) as (Sw & (wv2 & ->) & Hpw1 & Haw1).
      match type of E with rbind ?m _ = _ => destruct m as [[[[[[xs kv3] wv3] r3] k3] w3]| |] eqn:Em end; cbn [rbind] in E; try discriminate E.
      injection E as <- <- <- <- <- <-.
      destruct (proj1 (IH k1 w1 vec kv2 wv2 Hl' Hsp' (fun X => conj (Hpk1 X) (Hpw1 X)) Hak1 Haw1 r3 k3 w3) ltac:(eauto)) as (-> & H1 & H2).
      split; [reflexivity|]. split; eauto.
    + intros (-> & (k1 & Sk & Hk) & (w1 & Sw & Hw)).
      destruct (leaf_row_ok _ _ _ kv kcs _ Hpk Hak Hl Sk) as (kv1 & Ek). destruct (leaf_row_ok _ _ _ wv wcs _ Hpw Haw Hl Sw) as (wv1 & Ew).
      destruct (leaf_row _ _ _ _ _ _ _ Hpk Hak Hl Ek) as (_ & _ & Hpk1 & Hak1).
      destruct (leaf_row _ _ _ _ _ _ _ Hpw Haw Hl Ew) as (_ & _ & Hpw1 & Haw1).
      destruct (proj2 (IH k1 w1 vec kv1 wv1 Hl' Hsp' (fun X => conj (Hpk1 X) (Hpw1 X)) Hak1 Haw1 r' k' w') (conj eq_refl (conj Hk Hw))) as (out & kv' & wv' & E).
      rewrite Ek. cbn [rbind]. rewrite Ew. cbn [rbind]. rewrite E. cbn [rbind]. eauto.
Qed.
Lemma squares_small l : Forall (fun n => (n <= 1)%nat) l -> squares l = l.
Proof. intros H. unfold squares. rewrite <- (map_id l) at 2. apply map_ext_in. intros n Hn. rewrite Forall_forall in H. specialize (H n Hn). destruct n as [|[|n]]; lia. Qed.
Lemma squares_iff l : total (squares l) = total l <-> Forall (fun n => (n <= 1)%nat) l.
Proof.
  split; [|intros H; rewrite squares_small by exact H; reflexivity].
  assert (G : forall l, (total l <= total (squares l))%nat) by (intros m; induction m as [|n m IH]; [cbn; lia|cbn [squares map]; fold (squares m); rewrite !total_cons; nia]).
  induction l as [|n l IH]; [constructor|]. cbn [squares map]. fold (squares l). rewrite !total_cons. intros H. specialize (G l).
  constructor; [nia|]. apply IH. nia.
Qed.

(** ** What is left of a batch *)
Lemma last_share {A} (rows : list (option Z)) : forall (es : list (option A)) d, rows <> [] -> ~ In None rows -> (total (sizes rows) <= length es)%nat ->
  (last (shares rows es) d = firstn (total (sizes rows)) es <-> Forall (fun n => n = O) (removelast (sizes rows))).
Proof.
  assert (L : forall (rows : list (option Z)) (es : list (option A)) d, rows <> [] -> ~ In None rows -> (total (sizes rows) <= length es)%nat ->
             length (last (shares rows es) d) = last (sizes rows) O).
  { clear. induction rows as [|x rows IH]; intros es d Hr Hn Ht; [contradiction|].
    destruct x as [n|]; [|exfalso; apply Hn; left; reflexivity]. rewrite sizes_cons in *. cbn [shares]. rewrite total_cons in Ht. rewrite last_cons.
    destruct rows as [|y rows]; [cbn; rewrite firstn_length; lia|].
    rewrite IH; [|discriminate|intros Hi; apply Hn; right; exact Hi|rewrite skipn_length; lia].
    destruct y as [y|]; [|exfalso; apply Hn; right; left; reflexivity]. rewrite sizes_cons. reflexivity. }
  intros es d Hr Hn Ht.
  assert (G : forall l : list nat, l <> [] -> (last l O = total l <-> Forall (fun n => n = O) (removelast l))).
  { clear. induction l as [|n l IH]; [contradiction|]. intros _. destruct l as [|m l]; [cbn; split; [constructor|lia]|].
    change (removelast (n :: m :: l)) with (n :: removelast (m :: l)). rewrite total_cons. change (last (n :: m :: l) O) with (last (m :: l) O).
    assert (B : (last (m :: l) O <= total (m :: l))%nat).
    { clear. revert m. induction l as [|k l IH]; intros m; [cbn; lia|]. change (last (m :: k :: l) O) with (last (k :: l) O). rewrite total_cons. specialize (IH k). lia. }
    split.
    - intros H. assert (n = O) as -> by lia. constructor; [reflexivity|]. apply IH; [discriminate|lia].
    - intros H. inversion H as [|? ? H1 H2]; subst. apply IH in H2; [lia|discriminate]. }
  assert (Hs : sizes rows <> []) by (destruct rows as [|[n|] rows]; [contradiction|rewrite sizes_cons; discriminate|exfalso; apply Hn; left; reflexivity]).
  split.
  - intros E. apply G; [exact Hs|]. rewrite <- (L rows es d Hr Hn Ht), E, firstn_length. lia.
  - revert es d Hr Hn Ht Hs. clear -G. induction rows as [|x rows IH]; intros es d Hr Hn Ht Hs H; [contradiction|].
    destruct x as [n|]; [|exfalso; apply Hn; left; reflexivity]. rewrite sizes_cons in *. cbn [shares]. rewrite last_cons.
    destruct rows as [|y rows]; [cbn; rewrite Nat.add_0_r; reflexivity|].
    assert (Hs' : sizes (y :: rows) <> []) by (destruct y; [rewrite sizes_cons; discriminate|exfalso; apply Hn; right; left; reflexivity]).
    assert (Er : removelast (Z.to_nat n :: sizes (y :: rows)) = Z.to_nat n :: removelast (sizes (y :: rows))) by (destruct (sizes (y :: rows)); [contradiction|reflexivity]).
    rewrite Er in H. inversion H as [|? ? H1 H2]; subst. rewrite total_cons, H1 in *. cbn [Nat.add skipn] in *.
    apply IH; [discriminate|intros Hi; apply Hn; right; exact Hi|lia|exact Hs'|exact H2].
Qed.

(** ** Elements that are structs *)
Lemma nextL_empty ls : nextKids (tree_NextBatch inflate o) (map CLeaf ls) (map (fun _ => VT [] []) ls) = Ok (map (fun _ => VT [] []) ls, map CLeaf ls).
Proof. induction ls as [|c ls IH]; [reflexivity|]. cbn [map nextKids]. rewrite tree_NextBatch_leaf. cbn [NextBatch rbind]. rewrite IH. reflexivity. Qed.
Lemma struct_empty index ls vals : tree_NextBatch inflate o (CStruct None index (map CLeaf ls)) (VT vals (map (fun _ => VT [] []) ls)) =
  Ok (VT vals (map (fun _ => VT [] []) ls), CStruct None index (map CLeaf ls)).
Proof. rewrite tree_NextBatch_struct. cbn [rbind]. rewrite nextL_empty. reflexivity. Qed.
Lemma list_of_structs index ls rows : forall r r' vec w, shows r rows r' -> space r rows vec ->
  exists out w', list_NextBatch inflate o ctree (tree_NextBatch inflate o) r (CStruct None index (map CLeaf ls)) vec (VT w (map (fun _ => VT [] []) ls)) =
    Ok (out, VT w' (map (fun _ => VT [] []) ls), r', CStruct None index (map CLeaf ls)) /\ given out GUint64 rows.
Proof.
  intros r r' vec w Hs. apply heads_shows in Hs. revert vec w. induction Hs as [r|r n r1 rows r' Hh Hs IH]; intros vec w Hsp.
  - destruct Hsp as [Hv _]. destruct vec; [|discriminate Hv]. exists [], w. split; reflexivity.
  - destruct vec as [|v vec]; [destruct Hsp as [Hv _]; discriminate Hv|]. destruct (space_cons _ _ _ _ _ _ Hh Hsp) as [Hf Hsp'].
    destruct (IH vec (elements n) Hsp') as (out & w' & E & Hg).
    cbn [list_NextBatch]. rewrite (listHead_flag r (Null v) Hf), Hh. cbn [rbind setVals]. rewrite struct_empty. cbn [rbind]. rewrite E. cbn [rbind].
    eexists _, w'. split; [reflexivity|]. unfold given in *. cbn [rows_of map] in *. fold (rows_of out). rewrite Hg. destruct n; reflexivity.
Qed.

(** ** Elements that are timestamps or decimals *)
Lemma leaf_refuses c n cs : (cr_kind c = KTimestamp \/ cr_kind c = KDecimal) -> cr_present c = None -> n <> O ->
  forall q, leaf_next inflate o c (VT (repeat zeroValue n) cs) <> Ok q.
Proof.
  intros Hk Hp Hn q. destruct n as [|n]; [contradiction|]. cbn [repeat]. unfold leaf_next. cbn [NextBatch]. unfold nextRow, nextPresent. rewrite Hp.
  cbn [rbind zeroValue Null V]. unfold nextValue. destruct Hk as [-> | ->].
  - destruct (nextRun inflate o DecodeInt (cr_data c)) as [[x d]| |]; cbn [rbind]; try discriminate.
    destruct (nextSecond inflate o DecodeUInt (cr_second c)) as [[y s]| |]; cbn [rbind]; discriminate.
  - destruct (nextRaw inflate o DecodeVarInt64 (cr_data c)) as [[x d]| |]; cbn [rbind]; try discriminate.
    destruct (nextSecond inflate o DecodeInt (cr_second c)) as [[y s]| |]; cbn [rbind]; discriminate.
Qed.
Lemma list_refuses rows : forall r r' c vec cv, shows r rows r' -> space r rows vec -> lengths_ok rows ->
  (cr_kind c = KTimestamp \/ cr_kind c = KDecimal) -> cr_present c = None -> (total (sizes rows) > 0)%nat ->
  forall q, list_NextBatch inflate o colR (leaf_next inflate o) r c vec cv <> Ok q.
Proof.
  intros r r' c vec cv Hs. apply heads_shows in Hs. revert c vec cv. induction Hs as [r|r n r1 rows r' Hh Hs IH]; intros c vec cv Hsp Hl Hk Hp Ht q.
  - cbn in Ht. lia.
  - destruct vec as [|v vec]; [destruct Hsp as [Hv _]; discriminate Hv|]. destruct (space_cons _ _ _ _ _ _ Hh Hsp) as [Hf Hsp'].
    destruct (lengths_cons _ _ Hl) as [Hl' Hn]. cbn [list_NextBatch]. rewrite (listHead_flag r (Null v) Hf), Hh. cbn [rbind].
    destruct (leaf_next inflate o c (setVals cv (elements n))) as [[cv1 c1]| |] eqn:El; cbn [rbind]; try discriminate.
    destruct (leaf_shape _ _ _ _ El) as [HS _].
    assert (H : forall q, list_NextBatch inflate o colR (leaf_next inflate o) r1 c1 vec cv1 <> Ok q).
    { apply IH; [exact Hsp'|exact Hl'|rewrite (Same_kind _ _ HS); exact Hk|apply (Same_none c c1 HS); exact Hp|].
      rewrite sizes_total in Ht. destruct n as [n|]; [|exact Ht]. destruct (Z.to_nat n) as [|m] eqn:Em; [exact Ht|].
      exfalso. destruct cv as [w cs]. cbn [setVals] in El. unfold elements in El. rewrite Hn, Em in El.
      exact (leaf_refuses c (S m) cs Hk Hp ltac:(discriminate) _ El). }
    destruct (list_NextBatch inflate o colR (leaf_next inflate o) r1 c1 vec cv1) as [q1| |]; [destruct (H q1 eq_refl)|cbn [rbind]; discriminate..].
Qed.
End Session.
