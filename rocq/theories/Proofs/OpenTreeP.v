(** Opening a stripe: from its bytes to the tree of column readers. *)
From Coq Require Import ZifyBool ZifyNat.
From Verif.Model Require Import Go Codec ByteBool IntRle Chunk Stream Schema Rows Time File Column Wire Nested Tree Assembled.
From Verif.Spec Require Import BoolSpec Session StreamSpec ChunkSpec SchemaSpec RowsSpec FileSpec ColumnSpec AssemblySpec EndSpec.
From Verif.Proofs Require Import Base SchemaP SessionP ReadP FileP ColumnP ColumnReadP StatsP TreeP LeafP BatchP EndP EndColP.

(** ** Reading does not look at WriteIndex *)
Definition sameReading (o o' : opts) : Prop := CompressionKind o = CompressionKind o' /\ ChunkSize o = ChunkSize o'.
Lemma bool_Next_same inflate o o' : sameReading o o' -> bool_Next inflate o = bool_Next inflate o'.
Proof. destruct o, o'. intros [H1 H2]. cbn in H1, H2. subst. reflexivity. Qed.
Lemma nextValue_opts inflate o o' : sameReading o o' -> nextValue inflate o = nextValue inflate o'.
Proof. destruct o, o'. intros [H1 H2]. cbn in H1, H2. subst. reflexivity. Qed.
Lemma rowNext_same inflate o o' : sameReading o o' -> rowNext inflate o = rowNext inflate o'.
Proof. destruct o, o'. intros [H1 H2]. cbn in H1, H2. subst. reflexivity. Qed.
Lemma colReads_same inflate o o' k h vs r : sameReading o o' -> colReads inflate o k h vs r -> colReads inflate o' k h vs r.
Proof.
  intros H [H1 H2]. split; [exact H1|]. unfold colReads in *. rewrite <- (bool_Next_same inflate o o' H).
  rewrite <- (rowNext_same inflate o o' H). rewrite <- (nextValue_opts inflate o o' H). exact H2.
Qed.

(** ** Where the streams of a column are *)
Lemma Consecutive_offsets file from l bs to : Consecutive file from l bs to -> l = offsets from (map fst l).
Proof.
  induction 1 as [|from s b l bs to H1 H2 H3 IH]; [reflexivity|]. cbn [map fst offsets]. rewrite H1. f_equal. exact IH.
Qed.
Lemma offsets_app a : forall n b, offsets n (a ++ b) = offsets n a ++ offsets (n + fold_right Z.add 0 (map st_length a)) b.
Proof.
  induction a as [|s a IH]; intros n b; cbn [app offsets map fold_right]; [rewrite Z.add_0_r; reflexivity|].
  rewrite IH, Z.add_assoc. reflexivity.
Qed.
Definition ofCol (j : nat) (x : strm * Z) : bool := st_column (fst x) =? Z.of_nat j.
Lemma filter_offsets j i l : Forall (fun s => st_column s = Z.of_nat i) l -> forall n,
  filter (ofCol j) (offsets n l) = if (i =? j)%nat then offsets n l else [].
Proof.
  induction 1 as [|s l Hs Hl IH]; intros n; cbn [offsets filter]; [destruct (_ =? _)%nat; reflexivity|].
  unfold ofCol at 1. cbn [fst]. rewrite Hs, IH. destruct (Nat.eqb_spec i j) as [->|Hn]; [rewrite Z.eqb_refl; reflexivity|].
  destruct (Z.eqb_spec (Z.of_nat i) (Z.of_nat j)); [lia|reflexivity].
Qed.
Definition colsFrom (i : nat) (cols : list colimage) : Prop :=
  forall j x, nth_error cols j = Some x -> Forall (fun s => st_column s = Z.of_nat (i + j)) (ci_infos x) /\
    map st_length (ci_infos x) = map zlen (ci_streams x).
Lemma colsFrom_tail i x l : colsFrom i (x :: l) -> colsFrom (S i) l.
Proof. intros H j y Hy. replace (S i + j)%nat with (i + S j)%nat by lia. apply H. exact Hy. Qed.
Lemma filter_none i j cols : forall n, colsFrom i cols -> (j < i)%nat -> filter (ofCol j) (offsets n (concat (map ci_infos cols))) = [].
Proof.
  revert i. induction cols as [|x l IH]; intros i n H Hj; [reflexivity|]. cbn [map concat]. rewrite offsets_app, filter_app.
  pose proof (H O x eq_refl) as [H0 _]. rewrite (filter_offsets j _ _ H0). destruct (Nat.eqb_spec (i + 0) j); [lia|].
  apply (IH (S i)); [eapply colsFrom_tail; exact H|lia].
Qed.
Lemma zlen_concat {A} (l : list (list A)) : zlen (concat l) = fold_right Z.add 0 (map zlen l).
Proof. induction l as [|a l IH]; [reflexivity|]. cbn [concat map fold_right]. rewrite zlen_app, IH. reflexivity. Qed.
Lemma placed cols : forall i pre post j x, colsFrom i cols -> nth_error cols j = Some x ->
  exists a b, pre ++ concat (concat (map ci_streams cols)) ++ post = a ++ concat (ci_streams x) ++ b /\
    filter (ofCol (i + j)) (offsets (zlen pre) (concat (map ci_infos cols))) = offsets (zlen a) (ci_infos x).
Proof.
  induction cols as [|y l IH]; intros i pre post j x H Hx; [destruct j; discriminate|].
  pose proof (H O y eq_refl) as [H0 Hl0]. cbn [map concat]. rewrite offsets_app, filter_app, concat_app.
  rewrite (filter_offsets _ _ _ H0). destruct j as [|j].
  - assert (y = x) as -> by (cbn in Hx; congruence). rewrite Nat.eqb_refl.
    exists pre, (concat (concat (map ci_streams l)) ++ post). split; [rewrite <- !app_assoc; reflexivity|].
    rewrite (filter_none (S i)); [apply app_nil_r|eapply colsFrom_tail; exact H|lia].
  - destruct (Nat.eqb_spec (i + 0) (i + S j)); [lia|]. cbn [app].
    rewrite Hl0, <- zlen_concat, <- zlen_app.
    destruct (IH (S i) (pre ++ concat (ci_streams y)) post j x (colsFrom_tail _ _ _ H) Hx) as (a & b & E1 & E2).
    exists a, b. replace (i + S j)%nat with (S i + j)%nat by lia. split; [|exact E2]. rewrite <- E1, <- !app_assoc. reflexivity.
Qed.

(** ** The readers *)
Section Open.
Variable inflate : list Z -> res (list Z).
Variable o : opts.
Variable nodes : list node.
Variable bopt : batchOption.
Notation initAll := (initAll inflate o).

Lemma set_nth_length {A} (l : list A) : forall i x, length (set_nth l i x) = length l.
Proof. induction l as [|y l IH]; intros [|i] x; cbn; auto. Qed.
Lemma set_nth_same {A} (l : list A) : forall i x, (i < length l)%nat -> nth_error (set_nth l i x) i = Some x.
Proof. induction l as [|y l IH]; intros [|i] x H; cbn in *; try lia; auto. apply IH. lia. Qed.
Lemma set_nth_other {A} (l : list A) : forall i j x, i <> j -> nth_error (set_nth l i x) j = nth_error l j.
Proof. induction l as [|y l IH]; intros [|i] [|j] x H; cbn in *; try congruence; auto. Qed.

(** The streams of one column, in the order of the stripe. *)
Definition initStrm (file : list Z) (r : colR) (s : strm) (st : Z) : res colR :=
  if st_kind s =? 6 then InitIndex inflate o file r st (st_length s) else InitStream file r s st.
Fixpoint initCol (file : list Z) (r : colR) (l : list (strm * Z)) : res colR :=
  match l with
  | [] => Ok r
  | (s, st) :: t => let! r' := initStrm file r s st in initCol file r' t
  end.
Lemma initCol_streams file l : Forall (fun q => st_kind (fst q) <> 6) l -> forall r, initCol file r l = InitStreams file r l.
Proof.
  induction 1 as [|[s st] l Hk Hl IH]; intros r; [reflexivity|]. cbn [initCol InitStreams]. unfold initStrm. cbn [fst] in Hk.
  destruct (Z.eqb_spec (st_kind s) 6); [contradiction|]. destruct (InitStream file r s st); cbn [rbind]; auto.
Qed.
Definition initOne (file : list Z) (r : anyR) (s : strm) (st : Z) : res anyR :=
  if st_kind s =? 6 then any_InitIndex inflate o file r st (st_length s) else any_InitStream file r s st.
Fixpoint initAny (file : list Z) (r : anyR) (l : list (strm * Z)) : res anyR :=
  match l with
  | [] => Ok r
  | (s, st) :: t => let! r' := initOne file r s st in initAny file r' t
  end.
Lemma initAny_col file l : forall c, initAny file (RCol c) l = let! c' := initCol file c l in Ok (RCol c').
Proof.
  induction l as [|[s st] l IH]; intros c; [reflexivity|]. cbn [initAny initCol]. unfold initOne, initStrm. cbn [any_InitIndex any_InitStream].
  destruct (st_kind s =? 6).
  - destruct (InitIndex inflate o file c st (st_length s)); cbn [rbind]; auto.
  - destruct (InitStream file c s st); cbn [rbind]; auto.
Qed.
Lemma initAll_spec file l : forall rs,
  (forall s st, In (s, st) l -> 0 <= st_column s < zlen rs) ->
  (forall j r, nth_error rs j = Some (Some r) -> exists r', initAny file r (filter (ofCol j) l) = Ok r') ->
  exists rs', initAll file rs l = Ok rs' /\ length rs' = length rs /\
    forall j, match nth_error rs j with
      | Some (Some r) => exists r', nth_error rs' j = Some (Some r') /\ initAny file r (filter (ofCol j) l) = Ok r'
      | Some None => nth_error rs' j = Some None
      | None => True
      end.
Proof.
  induction l as [|[s st] l IH]; intros rs Hin Hok.
  - exists rs. split; [reflexivity|]. split; [reflexivity|]. intros j. destruct (nth_error rs j) as [[r|]|]; auto. exists r. auto.
  - cbn [Assembled.initAll]. pose proof (Hin s st (or_introl eq_refl)) as Hc.
    assert (Hlt : (Z.to_nat (st_column s) < length rs)%nat) by (unfold zlen in Hc; lia).
    destruct (nth_error rs (Z.to_nat (st_column s))) as [[r|]|] eqn:E.
    3: { apply nth_error_None in E. lia. }
    + fold (initOne file r s st).
      assert (Hfc : filter (ofCol (Z.to_nat (st_column s))) ((s, st) :: l) = (s, st) :: filter (ofCol (Z.to_nat (st_column s))) l).
      { cbn [filter]. unfold ofCol at 1. cbn [fst]. rewrite Z2Nat.id by lia. rewrite Z.eqb_refl. reflexivity. }
      destruct (Hok _ _ E) as (rf & Hrf). rewrite Hfc in Hrf. cbn [initAny] in Hrf.
      apply rbind_inv in Hrf. destruct Hrf as (r1 & Hr1 & Hrf). rewrite Hr1. cbn [rbind].
      set (rs1 := set_nth rs (Z.to_nat (st_column s)) (Some r1)).
      assert (Hother : forall j, j <> Z.to_nat (st_column s) -> nth_error rs1 j = nth_error rs j /\ filter (ofCol j) ((s, st) :: l) = filter (ofCol j) l).
      { intros j Hj. split; [apply set_nth_other; congruence|]. cbn [filter]. unfold ofCol at 1. cbn [fst].
        destruct (Z.eqb_spec (st_column s) (Z.of_nat j)); [lia|reflexivity]. }
      assert (Hself : nth_error rs1 (Z.to_nat (st_column s)) = Some (Some r1)) by (apply set_nth_same; exact Hlt).
      destruct (IH rs1) as (rs' & H1 & H2 & H3).
      * intros s' st' H'. pose proof (Hin s' st' (or_intror H')). unfold rs1, zlen. rewrite set_nth_length. assumption.
      * intros j r' Hj. destruct (Nat.eq_dec j (Z.to_nat (st_column s))) as [->|Hne].
        { rewrite Hself in Hj. assert (r' = r1) as -> by congruence. eauto. }
        destruct (Hother j Hne) as [E1 E2]. rewrite E1 in Hj. destruct (Hok j r' Hj) as (r2 & Hr2). rewrite E2 in Hr2. eauto.
      * exists rs'. split; [exact H1|]. split; [rewrite H2; apply set_nth_length|]. intros j. specialize (H3 j).
        destruct (Nat.eq_dec j (Z.to_nat (st_column s))) as [->|Hne].
        { rewrite Hself in H3. rewrite E, Hfc. destruct H3 as (r' & H3 & H4). exists r'. split; [exact H3|]. cbn [initAny]. rewrite Hr1. exact H4. }
        destruct (Hother j Hne) as [E1 E2]. rewrite E1 in H3. rewrite E2. exact H3.
    + destruct (IH rs) as (rs' & H1 & H2 & H3).
      * intros s' st' H'. apply (Hin s' st'). right. exact H'.
      * intros j r' Hj. destruct (Hok j r' Hj) as (r2 & Hr2). exists r2. rewrite <- Hr2. f_equal. cbn [filter]. unfold ofCol at 2. cbn [fst].
        destruct (Z.eqb_spec (st_column s) (Z.of_nat j)) as [Ec|]; [|reflexivity]. rewrite Ec, Nat2Z.id in E. congruence.
      * exists rs'. split; [exact H1|]. split; [exact H2|]. intros j. specialize (H3 j).
        destruct (nth_error rs j) as [[r'|]|] eqn:Ej; auto. destruct H3 as (r2 & H3 & H4). exists r2. split; [exact H3|]. rewrite <- H4. f_equal.
        cbn [filter]. unfold ofCol at 1. cbn [fst].
        destruct (Z.eqb_spec (st_column s) (Z.of_nat j)) as [Ec|]; [|reflexivity]. rewrite Ec, Nat2Z.id in E. congruence.
Qed.

(** *** Readers made for the schema *)
Variable ok : ckind -> bool.
Hypothesis Hok : ok KStruct = false.
Definition okKind (t : td) : Prop := exists k, readerKind (td_kind t) (td_enc t) = Ok k /\ (ok k = true \/ k = KStruct).
Lemma readable_included t : forall par, schema_of_kinds bopt ok par t = true ->
  forall x, In x (flatten t) ->
    (IsInclude bopt (td_id x) = true -> okKind x) /\
    (existsb (IsInclude bopt) (map td_id (td_children x)) = true -> td_kind x = STRUCT /\ IsInclude bopt (td_id x) = true).
Proof.
  induction t as [id k ns e h cs IH] using td_rect'. intros par H x Hx. cbn [schema_of_kinds] in H.
  destruct (IsInclude bopt id) eqn:Ei.
  - destruct (readerKind k e) as [c| |] eqn:Ek; try discriminate.
    assert (Hleaf : ok c = true -> cs = [] ->
      (IsInclude bopt (td_id x) = true -> okKind x) /\
      (existsb (IsInclude bopt) (map td_id (td_children x)) = true -> td_kind x = STRUCT /\ IsInclude bopt (td_id x) = true)).
    { intros Hl ->. rewrite flatten_eq in Hx. cbn [flat_map] in Hx. destruct Hx as [<-|[]]. split; [|discriminate].
      intros _. exists c. cbn [td_kind td_enc]. auto. }
    destruct (ok c) eqn:El.
    { assert (Hc : true && match cs with [] => true | _ => false end = true) by (destruct c; first [rewrite Hok in El; discriminate El|exact H]).
      cbn [andb] in Hc. destruct cs; [apply Hleaf; reflexivity|discriminate Hc]. }
    destruct c; try discriminate H. apply andb_true_iff in H. destruct H as [_ H].
    rewrite forallb_forall in H. rewrite flatten_eq in Hx. destruct Hx as [<-|Hx].
    + cbn [td_id td_kind td_children]. split.
      * intros _. exists KStruct. cbn [td_kind td_enc]. auto.
      * intros _. split; [|exact Ei]. unfold readerKind in Ek. destruct k; try discriminate; try reflexivity; destruct (e =? _); try discriminate; destruct (e =? _); discriminate.
    + apply in_flat_map in Hx. destruct Hx as (d & Hd & Hx). rewrite Forall_forall in IH. eapply IH; eauto.
  - rewrite forallb_forall in H.
    assert (Hno : forall y, In y (flatten (Td id k ns e h cs)) -> IsInclude bopt (td_id y) = false).
    { intros y Hy. apply negb_true_iff. apply H. exact Hy. }
    split; [intros E; rewrite Hno in E by exact Hx; discriminate|]. intros E. exfalso.
    apply existsb_exists in E. destruct E as (i & Hi & E). apply in_map_iff in Hi. destruct Hi as (d & <- & Hd).
    rewrite Hno in E; [discriminate|]. clear - Hx Hd.
    apply flatten_Column. apply flatten_Column in Hx. destruct Hx as [p Hp]. destruct (In_nth_error _ _ Hd) as [j Hj]. exists (p ++ [j]).
    revert Hp. generalize (Td id k ns e h cs). induction p as [|q p IH]; intros t Hp; cbn [app at_path] in *.
    + assert (t = x) as -> by congruence. rewrite Hj. reflexivity.
    + destruct (nth_error (td_children t) q); [auto|discriminate].
Qed.

Definition nodeFor (t : td) (n : node) : Prop := n_kind n = td_kind t /\ n_sub n = map td_id (td_children t).
Definition newAny (k : ckind) (h : bool) : anyR := match k with KDict => RDict (newDictR h) | _ => RCol (newColR k h) end.
Lemma newAnyR_kind k e h c : readerKind k e = Ok c -> newAnyR k e h = Ok (newAny c h).
Proof.
  intros H. unfold newAnyR. destruct k; try (rewrite H; destruct c; reflexivity); discriminate H.
Qed.
Definition mk (t : td) : option anyR :=
  if IsInclude bopt (td_id t)
  then match readerKind (td_kind t) (td_enc t) with Ok k => Some (newAny k (td_hasNulls t)) | _ => None end else None.
Lemma newReaders_ok l : forall ns i, Forall2 nodeFor l ns -> map td_id l = count_up i (length l) ->
  Forall (fun t => IsInclude bopt (td_id t) = true -> okKind t) l ->
  newReaders bopt i ns (map td_hasNulls l) (map td_enc l) = Ok (map mk l).
Proof.
  induction l as [|t l IH]; intros ns i Hn Hi Hk; inversion Hn as [|? n ? ns' [Hnk _] Hn']; subst; [reflexivity|].
  cbn [length count_up map] in Hi. inversion Hk as [|? ? Hkt Hkl]; subst. assert (Hid : td_id t = i) by congruence. assert (Hi' : map td_id l = count_up (i + 1) (length l)) by congruence.
  cbn [map newReaders tl]. unfold mk at 1. rewrite Hid in *. rewrite Hnk. destruct (IsInclude bopt i).
  - destruct (Hkt eq_refl) as (k & Ek & _). rewrite Ek, (newAnyR_kind _ _ _ _ Ek). cbn [rbind]. rewrite IH by assumption. reflexivity.
  - cbn [rbind]. rewrite IH by assumption. reflexivity.
Qed.
Lemma checkChildren_ok k p l : forall j, (existsb (IsInclude bopt) l = true -> k = STRUCT /\ p = true) -> checkChildren bopt k p j l = Ok tt.
Proof.
  induction l as [|c l IH]; intros j H; [reflexivity|]. cbn [checkChildren]. cbn [existsb] in H. destruct (IsInclude bopt c).
  - destruct (H eq_refl) as [-> ->]. apply IH. auto.
  - apply IH. exact H.
Qed.
Lemma checkParents_ok l : forall ns i, Forall2 nodeFor l ns -> map td_id l = count_up i (length l) ->
  Forall (fun x => existsb (IsInclude bopt) (map td_id (td_children x)) = true -> td_kind x = STRUCT /\ IsInclude bopt (td_id x) = true) l ->
  checkParents bopt i ns = Ok tt.
Proof.
  induction l as [|t l IH]; intros ns i Hn Hi Hk; inversion Hn as [|? n ? ns' [Hnk Hns] Hn']; subst; [reflexivity|].
  cbn [length count_up map] in Hi. inversion Hk as [|? ? Hkt Hkl]; subst. assert (Hid : td_id t = i) by congruence. assert (Hi' : map td_id l = count_up (i + 1) (length l)) by congruence.
  cbn [checkParents]. rewrite Hns, Hnk, Hid in *. rewrite checkChildren_ok by exact Hkt. apply (IH ns' (i + 1)); assumption.
Qed.

(** *** The tree *)
Definition goTree (f : nat) (rs : list (option anyR)) : list Z -> res (list ctree) :=
  fix go (l : list Z) : res (list ctree) :=
    match l with
    | [] => Ok []
    | c :: t => if IsInclude bopt c
                then let! x := buildTree nodes bopt f rs c in let! y := go t in Ok (x :: y)
                else go t
    end.
Lemma buildTree_struct f rs i n c : nth_error nodes (Z.to_nat i) = Some n -> nth_error rs (Z.to_nat i) = Some (Some (RCol c)) ->
  cr_kind c = KStruct -> buildTree nodes bopt (S f) rs i = let! kids := goTree f rs (n_sub n) in Ok (CStruct (cr_present c) (cr_index c) kids).
Proof. intros H1 H2 H3. cbn [buildTree]. rewrite H1, H2, H3. reflexivity. Qed.
(** The readers of primitive columns are leaves. *)
Definition leafOf (r : anyR) : option ctree :=
  match r with
  | RCol c => match cr_kind c with KStruct => None | _ => Some (CLeaf c) end
  | RDict d => Some (CDict d)
  | _ => None
  end.
Lemma buildTree_leaf f rs i n r t : nth_error nodes (Z.to_nat i) = Some n -> nth_error rs (Z.to_nat i) = Some (Some r) ->
  leafOf r = Some t -> buildTree nodes bopt (S f) rs i = Ok t.
Proof.
  intros H1 H2 H3. cbn [buildTree]. rewrite H1, H2. destruct r as [c|d|x ix|h x ix]; cbn [leafOf] in H3; try discriminate; [|congruence].
  destruct (cr_kind c); congruence.
Qed.

Lemma readerKind_struct k e : readerKind k e = Ok KStruct -> k = STRUCT.
Proof. unfold readerKind. destruct k; try discriminate; try reflexivity; destruct (e =? _); try discriminate; destruct (e =? _); discriminate. Qed.
Lemma readerKind_leaf k e c : readerKind k e = Ok c -> c <> KStruct -> isCompound k = false.
Proof. unfold readerKind. destruct k; try discriminate; try reflexivity. destruct (e =? _); [|discriminate]. intros H Hc. congruence. Qed.

Variable rows : list (row value).
Variable rs : list (option anyR).
(** What a reader of kind [k] gives in one stripe: the values, or for a struct the
    presence bits. *)
Definition anyReads (k : ckind) (h : bool) (vs : list value) (r : anyR) : Prop :=
  match k with
  | KStruct => exists c, r = RCol c /\ colReads inflate o KStruct h vs c
  | _ => exists t, leafOf r = Some t /\ LeafAt inflate o h vs t
  end.
Lemma anyReads_col k h vs c : readable k = true -> colReads inflate o k h vs c -> anyReads k h vs (RCol c).
Proof.
  intros Hl [Hk Hr]. assert (Hx : exists t, leafOf (RCol c) = Some t /\ LeafAt inflate o h vs t).
  { exists (CLeaf c). cbn [leafOf]. rewrite Hk. split; [destruct k; try discriminate; reflexivity|]. apply LCol; [rewrite Hk; exact Hl|].
    unfold colAt. destruct k; try discriminate Hl; exact Hr. }
  destruct k; try discriminate Hl; exact Hx.
Qed.
Definition columnOk (x : td) : Prop :=
  (exists n, nth_error nodes (Z.to_nat (td_id x)) = Some n /\ nodeFor x n) /\
  (IsInclude bopt (td_id x) = true -> exists k r, readerKind (td_kind x) (td_enc x) = Ok k /\
     nth_error rs (Z.to_nat (td_id x)) = Some (Some r) /\
     anyReads k (td_hasNulls x) (column_of (col x) rows) r).
Definition flagsOk (x : td * option Z) : Prop :=
  td_hasNulls (fst x) = false -> flags_match (snd x) (col (fst x)) rows.
Lemma leaf_in x par : IsInclude bopt (td_id x) = true -> isCompound (td_kind x) = false -> columns_read bopt par x = [(x, par)].
Proof. destruct x as [id k ns e h cs]. cbn. intros -> H. destruct k; try reflexivity; discriminate. Qed.

Lemma buildTree_ok t : forall par fuel, IsInclude bopt (td_id t) = true ->
  schema_of_kinds bopt ok (match par with Some _ => true | None => false end) t = true ->
  Forall columnOk (flatten t) -> Forall flagsOk (columns_read bopt par t) ->
  size t <= Z.of_nat fuel -> exists tr, buildTree nodes bopt fuel rs (td_id t) = Ok tr /\ gives inflate o bopt rows par t tr.
Proof.
  induction t as [id k ns e h cs IH] using td_rect'. intros par fuel Hinc Hr Hco Hfl Hf.
  rewrite size_eq in Hf. pose proof (sizes_nonneg cs) as Hsz. destruct fuel as [|f]; [lia|].
  rewrite flatten_eq in Hco. inversion Hco as [|? ? [(n & Hn & Hnk & Hns) Hrd] Hco']; subst. cbn [td_id td_kind td_enc td_hasNulls td_children] in *.
  destruct (Hrd Hinc) as (c & r & Hk & Hrn & Hreads). cbn [schema_of_kinds] in Hr. rewrite Hinc, Hk in Hr.
  destruct (ok c) eqn:El.
  { assert (Hc : c <> KStruct) by (intros ->; congruence).
    assert (Hcs : cs = []).
    { assert (Hc2 : true && match cs with [] => true | _ => false end = true) by (destruct c; first [congruence|exact Hr]).
      cbn [andb] in Hc2. destruct cs; [reflexivity|discriminate Hc2]. }
    subst cs. pose proof (readerKind_leaf _ _ _ Hk Hc) as Hcomp.
    assert (Hread : exists t, leafOf r = Some t /\ LeafAt inflate o h (column_of (Z.to_nat id) rows) t) by (destruct c; first [congruence|exact Hreads]).
    destruct Hread as (tr & Ht & Hat). exists tr. split; [exact (buildTree_leaf f rs id n r tr Hn Hrn Ht)|].
    apply gLeaf; [exact Hcomp|exact Hat|]. rewrite leaf_in in Hfl by assumption. inversion Hfl as [|? ? H0 _]; subst. exact H0. }
  destruct c; try discriminate Hr. apply andb_true_iff in Hr. destruct Hr as [_ Hr].
  pose proof (readerKind_struct _ _ Hk) as ->. rewrite forallb_forall in Hr. clear El.
  destruct Hreads as (cr & -> & Hck & Hread). rewrite (buildTree_struct f rs id n cr Hn Hrn Hck).
  cbn [columns_read] in Hfl. rewrite Hinc in Hfl. apply Forall_app in Hfl. destruct Hfl as [_ Hfl].
  assert (Hkids : exists kids, goTree f rs (map td_id cs) = Ok kids /\
      Forall2 (gives inflate o bopt rows (if h then Some id else None)) (kept bopt cs) kids).
  { clear Hn Hrn Hnk Hns Hck Hread Hrd Hco Hk. assert (Hle : sizes cs <= Z.of_nat f) by lia. clear Hf Hsz.
    induction cs as [|d cs IHc]; [exists []; split; [reflexivity|constructor]|].
    cbn [flat_map] in Hco', Hfl. apply Forall_app in Hco'. apply Forall_app in Hfl. destruct Hco' as [Hc1 Hc2], Hfl as [Hf1 Hf2].
    inversion IH as [|? ? IHd IHcs]; subst. rewrite sizes_cons in Hle. pose proof (sizes_nonneg cs). pose proof (size_pos d).
    destruct IHc as (kids & E1 & E2); auto; [intros x Hx; apply Hr; right; exact Hx|lia|].
    cbn [map goTree]. unfold kept. cbn [filter]. destruct (IsInclude bopt (td_id d)) eqn:Ed.
    - destruct (IHd (if h then Some id else None) f) as (tr & E3 & E4); auto.
      { replace (match (if h then Some id else None) with Some _ => true | None => false end) with h by (destruct h; reflexivity). apply Hr. left. reflexivity. }
      { lia. }
      exists (tr :: kids). rewrite E3. cbn [rbind]. fold (goTree f rs). rewrite E1. cbn [rbind]. split; [reflexivity|]. constructor; assumption.
    - exists kids. split; [exact E1|exact E2]. }
  destruct Hkids as (kids & E1 & E2). rewrite Hns, E1. cbn [rbind].
  eexists. split; [reflexivity|]. constructor; [|exact E2]. destruct h; [|exact Hread].
  destruct Hread as (p & Hp & Hy). exists p. split; [exact Hp|]. exact Hy.
Qed.
End Open.
