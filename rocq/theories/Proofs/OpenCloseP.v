(** Handles opened and handles closed. *)
From Coq Require Import ZifyBool ZifyNat.
From Verif.Model Require Import Go Codec ByteBool IntRle Chunk Stream Schema Rows File Column Wire Nested Tree Assembled Close.
From Verif.Spec Require Import EndSpec ProjectSpec CloseSpec.
From Verif.Proofs Require Import Base OpenBatchP FileP SchemaP TreeP EndP ProjectP CloseP.

(** ** One column *)
Definition mem (k : Z) (l : list Z) : bool := existsb (Z.eqb k) l.
Lemma mem_In k l : mem k l = true <-> In k l.
Proof. unfold mem. rewrite existsb_exists. split; [intros (x & Hx & E); assert (k = x) as -> by lia; exact Hx|intros H; exists k; split; [exact H|lia]]. Qed.

Inductive sig := SCol (k : ckind) (h : bool) | SDict | SList | SMap.
Definition sigOf (r : anyR) : sig :=
  match r with RCol c => SCol (cr_kind c) (cr_hasNulls c) | RDict _ => SDict | RList _ _ => SList | RMap _ _ _ => SMap end.
(** The streams of a reader besides PRESENT. *)
Definition streamsS (g : sig) : list Z :=
  match g with
  | SCol k _ => match k with KStruct => [] | KString | KBinary => [1; 2] | KTimestamp | KDecimal => [1; 5] | KDict => [] | _ => [1] end
  | SDict => [1; 3; 2]
  | SList | SMap => [2]
  end.
Definition has (r : anyR) (k : Z) : bool :=
  match r with
  | RCol c => if k =? 0 then isSome (cr_present c) else if k =? 1 then isSome (cr_data c) else isSome (cr_second c)
  | RDict d => if k =? 0 then isSome (dr_present d) else if k =? 1 then isSome (dr_data d) else if k =? 3 then isSome (dr_dict d) else isSome (dr_length d)
  | RList x _ | RMap _ x _ => if k =? 0 then isSome (ls_present x) else isSome (ls_length x)
  end.
(** What Close asks for, and what it closes if it is there. *)
Definition must (g : sig) : list Z :=
  match g with
  | SCol KString true => [0; 1; 2]
  | SMap => []
  | _ => streamsS g
  end.
Definition closes (g : sig) : list Z :=
  match g with
  | SCol KString false => [1; 2]
  | SMap => [0]
  | _ => 0 :: streamsS g
  end.
Lemma step_index inflate o file r st n r' : any_InitIndex inflate o file r st n = Ok r' -> sigOf r' = sigOf r /\ forall k, has r' k = has r k.
Proof.
  destruct r as [c|d|x i|h x i]; cbn [any_InitIndex]; intros H; apply rbind_inv in H; destruct H as (y & E & H).
  - unfold InitIndex in E. apply rbind_inv in E. destruct E as (l & _ & E). assert (y = setIndex l c) as -> by congruence. assert (r' = RCol (setIndex l c)) as -> by congruence. split; reflexivity.
  - assert (r' = RDict (dict_setIndex y d)) as -> by congruence. split; reflexivity.
  - assert (r' = RList x (Some y)) as -> by congruence. split; reflexivity.
  - assert (r' = RMap h x (Some y)) as -> by congruence. split; reflexivity.
Qed.
Lemma step_stream file r s st r' : any_InitStream file r s st = Ok r' ->
  sigOf r' = sigOf r /\ forall k, In k (0 :: streamsS (sigOf r)) -> has r' k = has r k || (k =? st_kind s).
Proof.
  destruct r as [c|d|x i|h x i]; cbn [any_InitStream]; intros H; apply rbind_inv in H; destruct H as (y & E & H);
    match type of H with Ok ?z = _ => assert (r' = z) as -> by congruence end; clear H; cbn [sigOf].
  - unfold InitStream in E. cbv zeta in E. destruct (Z.eqb_spec (st_kind s) 0) as [E0|E0]; [|destruct (Z.eqb_spec (st_kind s) 1) as [E1|E1]; [|]].
    + assert (y = setPresent (newBoolReader (newReader file st (st_length s))) c) as -> by (destruct (cr_kind c); try destruct (cr_hasNulls c); congruence).
      split; [reflexivity|]. rewrite E0. cbn [has setPresent cr_present cr_data cr_second]. intros k _. destruct (Z.eqb_spec k 0); [rewrite orb_true_r; reflexivity|rewrite orb_false_r; reflexivity].
    + destruct (dataReader (cr_kind c) _) as [d|]; [|discriminate]. assert (y = setData d c) as -> by congruence.
      split; [reflexivity|]. rewrite E1. cbn [has setData cr_present cr_data cr_second]. intros k _. destruct (Z.eqb_spec k 0) as [->|]; [rewrite orb_false_r; reflexivity|].
      destruct (Z.eqb_spec k 1); [rewrite orb_true_r; reflexivity|rewrite orb_false_r; reflexivity].
    + assert (Hs : (y = c \/ exists v, y = setSecond v c /\ In (st_kind s) (streamsS (SCol (cr_kind c) (cr_hasNulls c)))) /\ (y = c -> cr_kind c = KByte \/ exists v, c = setSecond v c /\ In (st_kind s) (streamsS (SCol (cr_kind c) (cr_hasNulls c))))).
      { destruct (cr_kind c) eqn:K; try discriminate E.
        - split; [left; congruence|intros _; left; reflexivity].
        - destruct (Z.eqb_spec (st_kind s) 2) as [E2|]; [|discriminate]. assert (y = setSecond (newVreader (newReader file st (st_length s))) c) as -> by congruence.
          split; [right|intros Ey; right]; eexists; (split; [|cbn; rewrite E2; auto]); [reflexivity|symmetry; exact Ey].
        - destruct (Z.eqb_spec (st_kind s) 2) as [E2|]; [|discriminate]. assert (y = setSecond (newVreader (newReader file st (st_length s))) c) as -> by congruence.
          split; [right|intros Ey; right]; eexists; (split; [|cbn; rewrite E2; auto]); [reflexivity|symmetry; exact Ey].
        - destruct (Z.eqb_spec (st_kind s) 5) as [E2|]; [|discriminate]. assert (y = setSecond (newVreader (newReader file st (st_length s))) c) as -> by congruence.
          split; [right|intros Ey; right]; eexists; (split; [|cbn; rewrite E2; auto]); [reflexivity|symmetry; exact Ey].
        - destruct (Z.eqb_spec (st_kind s) 5) as [E2|]; [|discriminate]. assert (y = setSecond (newVreader (newReader file st (st_length s))) c) as -> by congruence.
          split; [right|intros Ey; right]; eexists; (split; [|cbn; rewrite E2; auto]); [reflexivity|symmetry; exact Ey]. }
      destruct Hs as [[->|(v & -> & Hin)] Hc].
      * split; [reflexivity|]. intros k Hk. destruct (Hc eq_refl) as [K|(v & Ev & Hin)].
        -- rewrite K in Hk. cbn in Hk. destruct Hk as [<-|[<-|[]]]; lia.
        -- cbn [has]. destruct (Z.eqb_spec k 0) as [->|N0]; [lia|]. destruct (Z.eqb_spec k 1) as [->|N1]; [lia|]. rewrite Ev. reflexivity.
      * split; [reflexivity|]. intros k Hk. cbn [has setSecond cr_present cr_data cr_second]. destruct (Z.eqb_spec k 0) as [->|N0]; [lia|]. destruct (Z.eqb_spec k 1) as [->|N1]; [lia|].
        assert (k = st_kind s) as ->; [|cbn [isSome]; lia]. destruct (cr_kind c); cbn in Hk, Hin; lia.
  - unfold dict_InitStream in E. cbv zeta in E. split; [reflexivity|]. intros k Hk. cbn in Hk.
    destruct (Z.eqb_spec (st_kind s) 0) as [->|E0]; [destruct (dr_hasNulls d); [|discriminate]|
    destruct (Z.eqb_spec (st_kind s) 1) as [->|E1]; [|destruct (Z.eqb_spec (st_kind s) 3) as [->|E3]; [|destruct (Z.eqb_spec (st_kind s) 2) as [->|E2]; [|discriminate]]]];
    match type of E with Ok ?z = _ => assert (y = z) as -> by congruence end; clear E;
    destruct Hk as [<-|[<-|[<-|[<-|[]]]]]; cbn; rewrite ?orb_false_r, ?orb_true_r; reflexivity.
  - unfold list_InitStream in E. cbv zeta in E. split; [reflexivity|]. intros k Hk. cbn in Hk.
    destruct (Z.eqb_spec (st_kind s) 0) as [->|E0]; [|destruct (Z.eqb_spec (st_kind s) 2) as [->|E2]; [|discriminate]];
    match type of E with Ok ?z = _ => assert (y = z) as -> by congruence end; clear E;
    destruct Hk as [<-|[<-|[]]]; cbn; rewrite ?orb_false_r, ?orb_true_r; reflexivity.
  - unfold list_InitStream in E. cbv zeta in E. split; [reflexivity|]. intros k Hk. cbn in Hk.
    destruct (Z.eqb_spec (st_kind s) 0) as [->|E0]; [destruct (negb h); [discriminate|]|destruct (Z.eqb_spec (st_kind s) 2) as [->|E2]; [|discriminate]];
    match type of E with Ok ?z = _ => assert (y = z) as -> by congruence end; clear E;
    destruct Hk as [<-|[<-|[]]]; cbn; rewrite ?orb_false_r, ?orb_true_r; reflexivity.
Qed.
Lemma initAll_col inflate o file l : forall rs rs', initAll inflate o file rs l = Ok rs' -> forall j r, nth_error rs j = Some (Some r) ->
  exists r', nth_error rs' j = Some (Some r') /\ sigOf r' = sigOf r /\
    forall k, In k (0 :: streamsS (sigOf r)) -> has r' k = has r k || mem k (kinds_listed l j).
Proof.
  induction l as [|[s st] l IH]; intros rs rs' H j r Hr; cbn [initAll] in H.
  - assert (rs' = rs) as -> by congruence. exists r. split; [exact Hr|]. split; [reflexivity|]. intros k _. cbn. rewrite orb_false_r. reflexivity.
  - assert (Hk : kinds_listed ((s, st) :: l) j = if of_column j (s, st) then st_kind s :: kinds_listed l j else kinds_listed l j).
    { unfold kinds_listed. cbn [filter]. destruct (of_column j (s, st)); reflexivity. }
    rewrite Hk. unfold of_column. cbn [fst]. clear Hk.
    destruct (Nat.eqb_spec (Z.to_nat (st_column s)) j) as [Ej|Nj].
    + rewrite Ej, Hr in H. apply rbind_inv in H. destruct H as (r1 & E & H).
      destruct (IH _ _ H j r1 (set_nth_same _ _ _ _ Hr)) as (r' & H1 & H2 & H3). exists r'. split; [exact H1|].
      destruct (Z.eqb_spec (st_kind s) 6) as [E6|E6].
      * destruct (step_index _ _ _ _ _ _ _ E) as [S1 S2]. split; [congruence|]. intros k Hk'. rewrite S1 in H3. cbn [andb negb]. rewrite H3 by exact Hk'. rewrite S2. reflexivity.
      * destruct (step_stream _ _ _ _ _ E) as [S1 S2]. split; [congruence|]. intros k Hk'. rewrite S1 in H3. cbn [andb negb]. rewrite H3 by exact Hk'. rewrite S2 by exact Hk'.
        cbn [mem existsb]. fold (mem k (kinds_listed l j)). rewrite orb_assoc. reflexivity.
    + cbn [andb]. destruct (nth_error rs (Z.to_nat (st_column s))) as [[r0|]|] eqn:E0; [|eauto|discriminate]. apply rbind_inv in H. destruct H as (r1 & E & H).
      eapply IH; [exact H|]. rewrite set_nth_other by congruence. exact Hr.
Qed.

Definition ownClose (r : anyR) : res Z :=
  match r with
  | RCol c => match cr_kind c with KStruct => Ok (closeSome (cr_present c)) | _ => col_Close c end
  | RDict d => dict_Close d
  | RList x _ => let! n := closeStream (ls_length x) in Ok (closeSome (ls_present x) + n)
  | RMap _ x _ => Ok (closeSome (ls_present x))
  end.
Lemma ownClose_eq r : (forall h, sigOf r <> SCol KDict h) ->
  ownClose r = if forallb (has r) (must (sigOf r)) then Ok (zlen (filter (has r) (closes (sigOf r)))) else Panic.
Proof.
  destruct r as [c|d|x i|h x i]; intros Hd.
  - cbn [ownClose sigOf] in *. destruct c as [k h p d s ix]. unfold col_Close. cbn [cr_kind cr_hasNulls cr_present cr_data cr_second] in *.
    destruct k; try (exfalso; eapply Hd; reflexivity); destruct h, p, d, s; reflexivity.
  - cbn [ownClose]. unfold dict_Close. destruct d as [h p d c l ss b ix]. destruct p, d, c, l; reflexivity.
  - destruct x as [[p|] [l|]]; reflexivity.
  - destruct x as [[p|] [l|]]; reflexivity.
Qed.
Lemma hits R ks : NoDup R -> zlen (filter (fun k => mem k ks) R) <= zlen ks /\
  (zlen (filter (fun k => mem k ks) R) = zlen ks <-> NoDup ks /\ incl ks R).
Proof.
  intros HR. set (F := filter (fun k => mem k ks) R).
  assert (NF : NoDup F) by (apply NoDup_filter; exact HR).
  assert (IF : incl F ks) by (intros k Hk; apply filter_In in Hk; apply mem_In; apply Hk).
  pose proof (NoDup_incl_length NF IF) as Hlen. unfold zlen. split; [lia|]. split.
  - intros E. assert (L : (length ks <= length F)%nat) by lia. split; [eapply NoDup_incl_NoDup; eassumption|].
    intros k Hk. apply (NoDup_length_incl NF L IF) in Hk. apply filter_In in Hk. apply Hk.
  - intros [N1 N2]. assert (L : incl ks F) by (intros k Hk; apply filter_In; split; [apply N2; exact Hk|apply mem_In; exact Hk]).
    apply (NoDup_incl_length N1) in L. lia.
Qed.
Lemma closes_NoDup g : NoDup (closes g).
Proof. destruct g as [[] []| | |]; cbn; repeat (constructor; [cbn; lia|]); constructor. Qed.
Lemma closes_incl g k : In k (closes g) -> In k (0 :: streamsS g).
Proof. destruct g as [[] []| | |]; cbn; tauto. Qed.
Lemma must_incl g k : In k (must g) -> In k (0 :: streamsS g).
Proof. destruct g as [[] []| | |]; cbn; tauto. Qed.
Lemma own_count r ks : (forall h, sigOf r <> SCol KDict h) -> (forall k, In k (0 :: streamsS (sigOf r)) -> has r k = mem k ks) ->
  (forall n, ownClose r = Ok n -> 0 <= n <= zlen ks) /\
  (ownClose r = Ok (zlen ks) <-> incl (must (sigOf r)) ks /\ NoDup ks /\ incl ks (closes (sigOf r))).
Proof.
  intros Hd Hh. rewrite (ownClose_eq r Hd). set (g := sigOf r) in *.
  assert (Ef : filter (has r) (closes g) = filter (fun k => mem k ks) (closes g)) by (apply filter_ext_in; intros k Hk; apply Hh; apply closes_incl; exact Hk).
  rewrite Ef. destruct (hits (closes g) ks (closes_NoDup g)) as [H1 H2].
  assert (Em : forallb (has r) (must g) = true <-> incl (must g) ks).
  { rewrite forallb_forall. split; intros H k Hk.
    - apply mem_In. rewrite <- Hh by (apply must_incl; exact Hk). apply H. exact Hk.
    - rewrite Hh by (apply must_incl; exact Hk). apply mem_In. apply H. exact Hk. }
  destruct (forallb (has r) (must g)).
  - split; [intros n E; assert (n = zlen (filter (fun k => mem k ks) (closes g))) as -> by congruence; split; [apply zlen_nonneg|exact H1]|].
    rewrite <- H2. split; [intros E; split; [apply Em; reflexivity|congruence]|intros [_ E]; congruence].
  - split; [discriminate|]. split; [discriminate|]. intros (E & _). apply Em in E. discriminate.
Qed.

Definition ownSpec (k : tkind) (e : Z) (h : bool) (ks : list Z) : Prop :=
  match k with
  | LIST => well_listed LIST 2 ks
  | MAP => ks = [] \/ ks = [0]
  | _ => well_listed k e ks /\ (k = STRING -> e <> 3 -> In 0 ks <-> h = true)
  end.
Lemma new_sig k e h r : newAnyR k e h = Ok r -> (forall h', sigOf r <> SCol KDict h') /\ forall x, has r x = false.
Proof.
  unfold newAnyR, readerKind. destruct k; intros H;
    repeat match type of H with context [if ?b then _ else _] => destruct b; cbn [rbind] in H end; try discriminate H;
    match type of H with Ok ?x = _ => assert (r = x) as -> by congruence end; (split; [discriminate|]); intros x; cbn;
    repeat match goal with |- context [if ?b then _ else _] => destruct b end; reflexivity.
Qed.
Lemma own_spec k e h r ks : newAnyR k e h = Ok r ->
  (incl (must (sigOf r)) ks /\ NoDup ks /\ incl ks (closes (sigOf r))) <-> ownSpec k e h ks.
Proof.
  unfold newAnyR, readerKind. intros H.
  assert (Hw : forall k', k' <> LIST -> k' <> MAP -> k' <> STRING -> must (sigOf r) = format_streams k' e -> closes (sigOf r) = 0 :: format_streams k' e ->
    (incl (must (sigOf r)) ks /\ NoDup ks /\ incl ks (closes (sigOf r))) <-> well_listed k' e ks /\ (k' = STRING -> e <> 3 -> In 0 ks <-> h = true)).
  { intros k' _ _ Hs Em Ec. rewrite Em, Ec. unfold well_listed. split; [intros (A & B & C); split; [auto|congruence]|intros ((A & B & C) & _); auto]. }
  destruct k; cbn [ownSpec]; try discriminate H;
    try (repeat match type of H with context [if ?b then _ else _] => destruct b eqn:?; cbn [rbind] in H end; try discriminate H;
         match type of H with Ok ?x = _ => assert (r = x) as -> by congruence end; apply Hw; (discriminate || reflexivity)).
  - (* STRING *) destruct (Z.eqb_spec e 2) as [->|E2]; [|destruct (Z.eqb_spec e 3) as [->|]; [|discriminate H]]; cbn [rbind] in H.
    + assert (r = RCol (newColR KString h)) as -> by congruence. cbn [sigOf newColR cr_kind cr_hasNulls]. unfold well_listed. cbn [format_streams Z.eqb].
      destruct h; cbn [must closes streamsS].
      * split.
        -- intros (A & B & C). split; [split; [exact B|split; [intros x Hx; apply A; right; exact Hx|exact C]]|]. intros _ _. split; [reflexivity|]. intros _. apply A. left. reflexivity.
        -- intros ((B & A & C) & D). split; [|split; assumption]. intros x [<-|Hx]; [apply D; [reflexivity|discriminate|reflexivity]|apply A; exact Hx].
      * split.
        -- intros (A & B & C). split; [split; [exact B|split; [exact A|intros x Hx; right; apply C; exact Hx]]|]. intros _ _. split; [intros H0; apply C in H0; cbn in H0; lia|discriminate].
        -- intros ((B & A & C) & D). split; [exact A|split; [exact B|]]. intros x Hx. destruct (C x Hx) as [<-|Hx']; [|exact Hx']. apply (D eq_refl) in Hx; [discriminate|discriminate].
    + assert (r = RDict (newDictR h)) as -> by congruence. cbn [sigOf must closes streamsS]. unfold well_listed. cbn [format_streams Z.eqb Pos.eqb].
      split; [intros (A & B & C); split; [auto|intros _ N; congruence]|intros ((A & B & C) & _); auto].
  - (* LIST *) destruct (e =? 2); [|discriminate H]. assert (r = RList newListR None) as -> by congruence. unfold well_listed. cbn [sigOf must closes streamsS format_streams]. tauto.
  - (* MAP *) destruct (e =? 2); [|discriminate H]. assert (r = RMap h newListR None) as -> by congruence. cbn [sigOf must closes streamsS]. split.
    + intros (_ & B & C). destruct ks as [|a [|b ks]]; [auto| |].
      * right. destruct (C a (or_introl eq_refl)) as [<-|[]]. reflexivity.
      * exfalso. destruct (C a (or_introl eq_refl)) as [<-|[]]. destruct (C b (or_intror (or_introl eq_refl))) as [<-|[]]. inversion B as [|? ? N _]. apply N. left. reflexivity.
    + intros [->| ->]; (split; [intros x []|split]); [constructor|intros x []|constructor; [intros []|constructor]|intros x Hx; exact Hx].
Qed.
Lemma newReaders_at bopt ns : forall i hs encs rs, newReaders bopt i ns hs encs = Ok rs -> forall j n h, nth_error ns j = Some n -> nth_error hs j = Some h ->
  exists x, nth_error rs j = Some x /\
    if IsInclude bopt (i + Z.of_nat j) then exists r, x = Some r /\ newAnyR (n_kind n) (nth j encs 0) h = Ok r else x = None.
Proof.
  induction ns as [|n0 ns IH]; intros i hs encs rs H j n h Hn Hh; [destruct j; discriminate|]. cbn [newReaders] in H. destruct hs as [|h0 hs]; [destruct j; discriminate|].
  apply rbind_inv in H. destruct H as (r & E & H). apply rbind_inv in H. destruct H as (rs1 & E1 & H). assert (rs = r :: rs1) as -> by congruence.
  destruct j as [|j]; cbn [nth_error] in *.
  - assert (n0 = n /\ h0 = h) as [-> ->] by (split; congruence). exists r. split; [reflexivity|]. rewrite Z.add_0_r. destruct (IsInclude bopt i); [|congruence].
    destruct encs as [|e encs]; [discriminate|]. apply rbind_inv in E. destruct E as (x & E & E'). exists x. split; [congruence|exact E].
  - destruct (IH _ _ _ _ E1 j n h Hn Hh) as (x & Hx & Hi). exists x. split; [exact Hx|]. replace (i + 1 + Z.of_nat j) with (i + Z.of_nat (S j)) in Hi by lia.
    destruct (IsInclude bopt (i + Z.of_nat (S j))); [|exact Hi]. destruct encs as [|e encs]; cbn [tl nth] in *; [|exact Hi]. destruct j; exact Hi.
Qed.

(** ** The tree *)
Definition Bnd (x : res Z) (m : Z) (P : Prop) : Prop := (forall n, x = Ok n -> n <= m) /\ (x = Ok m <-> P).
Lemma Bnd_add x y m k P Q : Bnd x m P -> Bnd y k Q -> Bnd (let! a := x in let! b := y in Ok (a + b)) (m + k) (P /\ Q).
Proof.
  intros [A1 A2] [B1 B2]. split.
  - intros n H. apply rbind_inv in H. destruct H as (a & E1 & H). apply rbind_inv in H. destruct H as (b & E2 & H). specialize (A1 _ E1). specialize (B1 _ E2). assert (n = a + b) by congruence. lia.
  - rewrite <- A2, <- B2. split.
    + intros H. apply rbind_inv in H. destruct H as (a & E1 & H). apply rbind_inv in H. destruct H as (b & E2 & H). pose proof (A1 _ E1). pose proof (B1 _ E2). assert (m + k = a + b) by congruence.
      rewrite E1, E2. split; f_equal; lia.
    + intros [E1 E2]. rewrite E1, E2. reflexivity.
Qed.
Lemma Bnd_ext x y m k (P Q : Prop) : x = y -> m = k -> (P <-> Q) -> Bnd x m P -> Bnd y k Q.
Proof. intros <- <- E [A B]. split; [exact A|]. rewrite B. exact E. Qed.
Definition total (f : td -> Z) (l : list td) : Z := fold_right (fun t n => f t + n) 0 l.
Lemma total_cons f x l : total f (x :: l) = f x + total f l. Proof. reflexivity. Qed.
Lemma total_app f a b : total f (a ++ b) = total f a + total f b.
Proof. induction a as [|x a IH]; [reflexivity|]. cbn [app total fold_right]. fold (total f (a ++ b)) (total f a). rewrite IH. lia. Qed.
Lemma total_nonneg f l : (forall t, 0 <= f t) -> 0 <= total f l.
Proof. intros H. induction l as [|x l IH]; [cbn; lia|]. cbn [total fold_right]. fold (total f l). specialize (H x). lia. Qed.
Lemma total_zero f l : (forall t, 0 <= f t) -> total f l = 0 <-> forall t, In t l -> f t = 0.
Proof.
  intros H. induction l as [|x l IH]; [cbn; split; [intros _ t []|reflexivity]|]. cbn [total fold_right]. fold (total f l). pose proof (H x). pose proof (total_nonneg f l H). split.
  - intros E t [<-|Ht]; [lia|]. apply IH; [lia|exact Ht].
  - intros E. rewrite (E x (or_introl eq_refl)). replace (total f l) with 0; [reflexivity|]. symmetry. apply IH. intros t Ht. apply E. right. exact Ht.
Qed.
Section Tree.
Variable nodes : list node.
Variable bopt : batchOption.
Variable footer : list Z * list (strm * Z).
Variable rs : list (option anyR).
Variable schema : td.
Notation listed := (listed footer). Notation read := (read bopt). Notation released := (released bopt footer).
Hypothesis Hnodes : nodesOf nodes schema.
Hypothesis Hcols : forall t, In t (flatten schema) -> read t -> exists r, nth_error rs (Z.to_nat (td_id t)) = Some (Some r) /\ classOf (td_kind t) r /\
  (forall n, ownClose r = Ok n -> 0 <= n <= zlen (listed t)) /\
  (ownClose r = Ok (zlen (listed t)) <-> ownSpec (td_kind t) (encoded footer t) (td_hasNulls t) (listed t)).
Hypothesis Hroot : forall t c, In t (flatten schema) -> In c (td_children t) -> read c ->
  read t /\ (td_kind t = STRUCT \/ td_kind t = LIST \/ td_kind t = MAP).
Hypothesis Hmap : forall t a b l, In t (flatten schema) -> td_kind t = MAP -> td_children t = a :: b :: l -> forall c, In c l -> ~ read c.
Definition opened (t : td) : Z := if IsInclude bopt (td_id t) then zlen (listed t) else 0.
Definition opens (t : td) : Z := total opened (flatten t).
Lemma opened_nonneg t : 0 <= opened t.
Proof. unfold opened. destruct (IsInclude _ _); [apply zlen_nonneg|lia]. Qed.
Lemma opens_eq id k ns e h cs : opens (Td id k ns e h cs) = opened (Td id k ns e h cs) + total opens cs.
Proof.
  unfold opens at 1. rewrite flatten_eq. rewrite total_cons. f_equal.
  induction cs as [|c cs IH]; [reflexivity|]. cbn [flat_map]. rewrite total_cons, total_app, IH. reflexivity.
Qed.
Lemma sub_trans a : forall b t, In b (flatten a) -> In t (flatten b) -> In t (flatten a).
Proof.
  induction a as [id k ns e h cs IH] using td_rect'. intros b t Hb Ht. rewrite flatten_eq in Hb |- *. destruct Hb as [<-|Hb]; [rewrite flatten_eq in Ht; exact Ht|].
  right. apply in_flat_map in Hb. destruct Hb as (c & Hc & Hb). apply in_flat_map. exists c. split; [exact Hc|]. rewrite Forall_forall in IH. eapply IH; eassumption.
Qed.
Lemma child_in id k ns e h cs c : In (Td id k ns e h cs) (flatten schema) -> In c cs -> In c (flatten schema).
Proof. intros H Hc. eapply sub_trans; [exact H|]. rewrite flatten_eq. right. apply in_flat_map. exists c. split; [exact Hc|apply flatten_self]. Qed.
Lemma unread t : In t (flatten schema) -> ~ read t -> opens t = 0.
Proof.
  induction t as [id k ns e h cs IH] using td_rect'. intros Hin Hn. rewrite opens_eq. unfold opened. destruct (IsInclude bopt (td_id (Td id k ns e h cs))) eqn:E; [exfalso; apply Hn; exact E|].
  replace (total opens cs) with 0; [reflexivity|]. symmetry. rewrite Forall_forall in IH. assert (Hz : forall c, In c cs -> opens c = 0).
  { intros c Hc. apply IH; [exact Hc|eapply child_in; eassumption|]. intros Hr. apply Hn. eapply Hroot; [exact Hin|exact Hc|exact Hr]. }
  clear - Hz. induction cs as [|c cs IHc]; [reflexivity|]. rewrite total_cons. rewrite (Hz c (or_introl eq_refl)), IHc; [reflexivity|]. intros d Hd. apply Hz. right. exact Hd.
Qed.
Definition each : list td -> Prop := fix each (l : list td) : Prop := match l with [] => True | c :: r => (read c -> released c) /\ each r end.
Lemma each_none cs : (forall c, In c cs -> ~ read c) -> each cs.
Proof. induction cs as [|c cs IH]; intros H; [exact I|]. cbn [each]. split; [intros Hr; exfalso; exact (H c (or_introl eq_refl) Hr)|]. apply IH. intros d Hd. apply H. right. exact Hd. Qed.
Lemma total_opens_none cs : (forall c, In c cs -> In c (flatten schema)) -> (forall c, In c cs -> ~ read c) -> total opens cs = 0.
Proof.
  intros Hin Hn. induction cs as [|c cs IH]; [reflexivity|]. rewrite total_cons. rewrite IH; [|intros d Hd; apply Hin; right; exact Hd|intros d Hd; apply Hn; right; exact Hd].
  rewrite unread; [reflexivity|apply Hin; left; reflexivity|apply Hn; left; reflexivity].
Qed.
Lemma total_flat cs : total opens cs = total opened (flat_map flatten cs).
Proof. induction cs as [|c cs IH]; [reflexivity|]. cbn [flat_map]. rewrite total_cons, total_app, IH. reflexivity. Qed.
Lemma no_streams cs : total opens cs = 0 <-> forall x, In x (flat_map flatten cs) -> read x -> listed x = [].
Proof.
  rewrite total_flat, (total_zero _ _ opened_nonneg). split; intros H x Hx.
  - intros Hr. specialize (H x Hx). unfold opened in H. unfold CloseSpec.read in Hr. rewrite Hr in H. destruct (listed x) as [|a l]; [reflexivity|]. rewrite zlen_cons in H. pose proof (zlen_nonneg l). lia.
  - unfold opened. destruct (IsInclude bopt (td_id x)) eqn:E; [|reflexivity]. rewrite (H x Hx E). reflexivity.
Qed.

Lemma kids_bnd f cs : (forall c, In c cs -> In c (flatten schema)) ->
  (forall c, In c cs -> read c -> forall tr, buildTree nodes bopt f rs (td_id c) = Ok tr -> Bnd (tree_Close tr) (opens c) (released c)) ->
  forall kids, goT nodes bopt f rs (map td_id cs) = Ok kids -> Bnd (kidsClose kids) (total opens cs) (each cs).
Proof.
  induction cs as [|c cs IH]; intros Hin Hb kids H; cbn [map goT] in H.
  - assert (kids = []) as -> by congruence. split; [intros n E; cbn in E; assert (n = 0) by congruence; cbn; lia|]. cbn. tauto.
  - fold (goT nodes bopt f rs) in H. rewrite total_cons. cbn [each].
    assert (IH' := IH (fun d Hd => Hin d (or_intror Hd)) (fun d Hd => Hb d (or_intror Hd))).
    destruct (IsInclude bopt (td_id c)) eqn:Ei.
    + apply rbind_inv in H. destruct H as (x & E1 & H). apply rbind_inv in H. destruct H as (y & E2 & H). assert (kids = x :: y) as -> by congruence.
      eapply Bnd_ext; [| | |exact (Bnd_add _ _ _ _ _ _ (Hb c (or_introl eq_refl) Ei _ E1) (IH' _ E2))]; [reflexivity|reflexivity|].
      unfold CloseSpec.read. rewrite Ei. tauto.
    + rewrite unread; [|apply Hin; left; reflexivity|unfold CloseSpec.read; congruence].
      eapply Bnd_ext; [| | |exact (IH' _ H)]; [reflexivity|lia|]. unfold CloseSpec.read. rewrite Ei. split; [intros E; split; [discriminate|exact E]|tauto].
Qed.
Lemma own_bnd (x : res Z) m P : (forall n, x = Ok n -> 0 <= n <= m) -> (x = Ok m <-> P) -> Bnd x m P.
Proof. intros A B. split; [intros n E; apply A in E; lia|exact B]. Qed.
Lemma build_bnd t : In t (flatten schema) -> read t -> forall fuel tr, buildTree nodes bopt fuel rs (td_id t) = Ok tr -> Bnd (tree_Close tr) (opens t) (released t).
Proof.
  induction t as [id k ns e h cs IH] using td_rect'. intros Hin Hr fuel tr H. rewrite Forall_forall in IH.
  destruct fuel as [|f]; [discriminate|]. rewrite buildTree_eq in H. destruct (Hnodes _ Hin) as (H0 & n & En & Ek & Es).
  destruct (Hcols _ Hin Hr) as (r & Er & Hc & Hle & Hiff). cbn [td_id td_kind td_children td_hasNulls] in *. rewrite En, Er, Es in H.
  rewrite opens_eq. assert (Eo : opened (Td id k ns e h cs) = zlen (listed (Td id k ns e h cs))) by (unfold opened; unfold CloseSpec.read in Hr; cbn [td_id] in *; rewrite Hr; reflexivity).
  rewrite Eo. set (T := Td id k ns e h cs) in *.
  assert (Hkids : forall c, In c cs -> In c (flatten schema)) by (intros c Hc'; eapply child_in; [exact Hin|exact Hc']).
  assert (Hleaf : k <> STRUCT -> k <> LIST -> k <> MAP -> forall c, In c cs -> ~ read c).
  { intros N1 N2 N3 c Hc' Hrc. destruct (Hroot T c Hin Hc' Hrc) as [_ [X|[X|X]]]; cbn in X; congruence. }
  assert (Hspec : k <> LIST -> k <> MAP -> released T = (well_listed k (encoded footer T) (listed T) /\ (k = STRING -> encoded footer T <> 3 -> In 0 (listed T) <-> h = true) /\ each cs))
    by (intros N1 N2; unfold T at 1; cbn [CloseSpec.released]; destruct k; try reflexivity; congruence).
  assert (Hown : k <> LIST -> k <> MAP -> ownSpec k (encoded footer T) h (listed T) = (well_listed k (encoded footer T) (listed T) /\ (k = STRING -> encoded footer T <> 3 -> In 0 (listed T) <-> h = true)))
    by (intros N1 N2; destruct k; try reflexivity; congruence).
  assert (Hleaf2 : k <> STRUCT -> k <> LIST -> k <> MAP -> tree_Close tr = ownClose r -> Bnd (tree_Close tr) (zlen (listed T) + total (opens) cs) (released T)).
  { intros N1 N2 N3 E. rewrite total_opens_none; [|exact Hkids|auto]. rewrite E. eapply Bnd_ext; [reflexivity| | |exact (own_bnd _ _ _ Hle Hiff)]; [lia|].
    rewrite Hspec, Hown by assumption. pose proof (each_none cs (Hleaf N1 N2 N3)). tauto. }
  destruct k eqn:K; cbn [classOf] in Hc;
    try (destruct r as [c|d|x ix|hh x ix]; try contradiction;
         [destruct (cr_kind c) eqn:Kc; try congruence; assert (tr = CLeaf c) as -> by congruence; apply Hleaf2; try discriminate; cbn [tree_Close ownClose]; rewrite Kc; reflexivity
         |assert (tr = CDict d) as -> by congruence; apply Hleaf2; try discriminate; reflexivity]).
  - (* LIST *) destruct r as [c|d|x ix|hh x ix]; try contradiction. apply rbind_inv in H. destruct H as (sub & _ & H). assert (tr = CList x ix sub) as -> by congruence.
    rewrite tree_Close_list. change (let! n0 := closeStream (ls_length x) in Ok (closeSome (ls_present x) + n0)) with (ownClose (RList x ix)).
    assert (Hz : 0 <= total opens cs) by (apply total_nonneg; intros t'; apply total_nonneg; apply opened_nonneg).
    split; [intros m Em; apply Hle in Em; lia|]. unfold T at 2. cbn [CloseSpec.released]. fold T. rewrite <- no_streams. cbn [ownSpec] in Hiff. rewrite <- Hiff. split.
    + intros E. pose proof (Hle _ E). assert (total opens cs = 0) by lia. split; [|assumption]. rewrite E. f_equal. lia.
    + intros [E Z]. rewrite E, Z. f_equal. lia.
  - (* MAP *) destruct r as [c|d|x ix|hh x ix]; try contradiction. apply rbind_inv in H. destruct H as (kt & Hk & H). apply rbind_inv in H. destruct H as (wt & Hw & H).
    assert (tr = CMap x ix kt wt) as -> by congruence. rewrite tree_Close_map.
    assert (Hsub : forall j ct, subT nodes bopt f rs (includedAt bopt j (map td_id cs)) = Ok ct ->
      match nth_error cs j with Some c => if IsInclude bopt (td_id c) then Bnd (oClose ct) (opens c) (released c) else ct = None | None => ct = None end).
    { intros j ct Hs. unfold includedAt in Hs. rewrite nth_error_map in Hs. destruct (nth_error cs j) as [c|] eqn:Ej; cbn [option_map] in Hs; [|cbn in Hs; congruence].
      destruct (IsInclude bopt (td_id c)) eqn:Ei; [|cbn in Hs; congruence]. cbn [subT] in Hs. apply rbind_inv in Hs. destruct Hs as (u & Hu & Hs). assert (ct = Some u) as -> by congruence.
      apply nth_error_In in Ej. cbn [oClose]. eapply IH; [exact Ej|apply Hkids; exact Ej|exact Ei|exact Hu]. }
    assert (HN : forall Q : Prop, kt = None \/ wt = None -> (Q -> False) ->
      Bnd (let! a := oClose kt in let! b := oClose wt in Ok (closeSome (ls_present x) + a + b)) (zlen (listed T) + total opens cs) Q).
    { intros Q Hkw HQ.
      assert (Hz : forall n, (let! a := oClose kt in let! b := oClose wt in Ok (closeSome (ls_present x) + a + b)) <> Ok n).
      { intros m Em. apply rbind_inv in Em. destruct Em as (a & Ea & Em). apply rbind_inv in Em. destruct Em as (b & Eb & _). destruct Hkw as [-> | ->]; discriminate. }
      split; [intros m Em; exfalso; eapply Hz; exact Em|]. split; [intros Em; exfalso; eapply Hz; exact Em|intros q; exfalso; exact (HQ q)]. }
    pose proof (Hsub 0%nat _ Hk) as B0. pose proof (Hsub 1%nat _ Hw) as B1. unfold T at 2. cbn [CloseSpec.released]. fold T.
    destruct cs as [|a [|b l]]; cbn [nth_error] in B0, B1; [apply HN; [left; exact B0|intros [_ []]]|apply HN; [right; exact B1|intros [_ []]]|].
    destruct (IsInclude bopt (td_id a)) eqn:Ia; [|apply HN; [left; exact B0|unfold CloseSpec.read; rewrite Ia; intros (_ & (X & _) & _); discriminate]].
    destruct (IsInclude bopt (td_id b)) eqn:Ib; [|apply HN; [right; exact B1|unfold CloseSpec.read; rewrite Ib; intros (_ & _ & X & _); discriminate]].
    cbn [ownClose ownSpec] in Hle, Hiff. pose proof (own_bnd _ _ _ Hle Hiff) as Bo.
    eapply Bnd_ext; [| | |exact (Bnd_add _ _ _ _ _ _ (Bnd_add _ _ _ _ _ _ Bo B0) B1)].
    + cbn [rbind]. destruct (oClose kt); cbn [rbind]; try reflexivity. 
    + rewrite !total_cons. rewrite (total_opens_none l); [lia|intros c Hc'; apply Hkids; right; right; exact Hc'|].
      intros c Hc'. eapply (Hmap T a b l Hin eq_refl eq_refl); exact Hc'.
    + unfold CloseSpec.read. rewrite Ia, Ib. split; [intros ((A & B) & C); exact (conj A (conj (conj eq_refl B) (conj eq_refl C)))|intros (A & (_ & B) & (_ & C)); exact (conj (conj A B) C)].
  - (* STRUCT *) destruct r as [c|d|x ix|hh x ix]; try contradiction. rewrite Hc in H. apply rbind_inv in H. destruct H as (kids & Hk & H).
    assert (tr = CStruct (cr_present c) (cr_index c) kids) as -> by congruence. rewrite tree_Close_struct.
    assert (Bk : Bnd (kidsClose kids) (total opens cs) (each cs)) by (eapply kids_bnd; [exact Hkids| |exact Hk]; intros c' Hc' Hr' tr' Htr; eapply IH; [exact Hc'|apply Hkids; exact Hc'|exact Hr'|exact Htr]).
    eapply Bnd_ext; [| | |exact (Bnd_add _ _ _ _ _ _ (own_bnd _ _ _ Hle Hiff) Bk)].
    + cbn [ownClose]. rewrite Hc. reflexivity.
    + reflexivity.
    + rewrite Hspec, Hown by discriminate. split; [intros ((A & B) & C); exact (conj A (conj B C))|intros (A & B & C); exact (conj (conj A B) C)].
Qed.
End Tree.

(** ** One stripe *)
Definition there (rs : list (option anyR)) (s : strm * Z) : bool :=
  negb (st_kind (fst s) =? 6) && match nth_error rs (Z.to_nat (st_column (fst s))) with Some (Some _) => true | _ => false end.
Lemma initClones_count inflate o file l : forall rs rs', initAll inflate o file rs l = Ok rs' -> initClones inflate o file rs l = zlen (filter (there rs) l).
Proof.
  induction l as [|[s st] l IH]; intros rs rs' H; [reflexivity|]. cbn [initAll initClones filter] in *. unfold there at 1. cbn [fst].
  destruct (nth_error rs (Z.to_nat (st_column s))) as [[r|]|] eqn:En; [| |discriminate].
  - apply rbind_inv in H. destruct H as (r' & E & H). assert (Ef : filter (there (set_nth rs (Z.to_nat (st_column s)) (Some r'))) l = filter (there rs) l).
    { apply filter_ext. intros [u v]. unfold there. cbn [fst]. f_equal. destruct (Nat.eq_dec (Z.to_nat (st_column s)) (Z.to_nat (st_column u))) as [Eq|Ne].
      - rewrite <- Eq, (set_nth_same _ _ _ _ En), En. reflexivity.
      - rewrite set_nth_other by exact Ne. reflexivity. }
    destruct (st_kind s =? 6); rewrite E; cbn [negb andb]; rewrite (IH _ _ H), Ef; [reflexivity|]. rewrite zlen_cons. lia.
  - rewrite andb_false_r. eapply IH; exact H.
Qed.
Lemma total_plus f g l : total (fun t => f t + g t) l = total f l + total g l.
Proof. induction l as [|x l IH]; [reflexivity|]. rewrite !total_cons, IH. lia. Qed.
Lemma total_ext f g l : (forall t, In t l -> f t = g t) -> total f l = total g l.
Proof. induction l as [|x l IH]; intros H; [reflexivity|]. rewrite !total_cons, (H x (or_introl eq_refl)), IH; [reflexivity|]. intros t Ht. apply H. right. exact Ht. Qed.
Lemma total_one (f : td -> Z) l x : NoDup (map td_id l) -> In x l -> (forall t, In t l -> td_id t <> td_id x -> f t = 0) -> total f l = f x.
Proof.
  induction l as [|y l IH]; intros Hn Hx Hz; [contradiction|]. cbn [map] in Hn. inversion Hn as [|? ? N1 N2]; subst. rewrite total_cons. destruct Hx as [->|Hx].
  - replace (total f l) with 0; [lia|]. symmetry. assert (Hl : forall t, In t l -> f t = 0).
    { intros t Ht. apply Hz; [right; exact Ht|]. intros E. apply N1. rewrite <- E. apply in_map. exact Ht. }
    clear - Hl. induction l as [|z l IHl]; [reflexivity|]. rewrite total_cons, (Hl z (or_introl eq_refl)), IHl; [reflexivity|]. intros t Ht. apply Hl. right. exact Ht.
  - rewrite (Hz y (or_introl eq_refl)); [|intros E; apply N1; rewrite E; apply in_map; exact Hx]. rewrite IH; [lia|exact N2|exact Hx|]. intros t Ht. apply Hz. right. exact Ht.
Qed.
Lemma newReaders_length bopt ns : forall i hs encs rs, newReaders bopt i ns hs encs = Ok rs -> (length rs <= length ns)%nat.
Proof.
  induction ns as [|n ns IH]; intros i hs encs rs H; cbn [newReaders] in H; [assert (rs = []) as -> by congruence; cbn; lia|]. destruct hs as [|h hs]; [assert (rs = []) as -> by congruence; cbn; lia|].
  apply rbind_inv in H. destruct H as (r & _ & H). apply rbind_inv in H. destruct H as (rs1 & E1 & H). assert (rs = r :: rs1) as -> by congruence. apply IH in E1. cbn [length]. lia.
Qed.
Lemma checkChildren_inv bopt k p l : forall j, checkChildren bopt k p j l = Ok tt -> forall m c, nth_error l m = Some c -> IsInclude bopt c = true ->
  p = true /\ (k = STRUCT \/ k = LIST \/ k = MAP) /\ (k = MAP -> j + Z.of_nat m <= 1).
Proof.
  induction l as [|x l IH]; intros j H m c Hm Hi; [destruct m; discriminate|]. cbn [checkChildren] in H. apply rbind_inv in H. destruct H as ([] & E & H).
  destruct m as [|m]; cbn [nth_error] in Hm.
  - assert (x = c) as -> by congruence. rewrite Hi in E. destruct k; try discriminate E; try (destruct p; [|discriminate]; repeat split; auto; discriminate).
    destruct (Z.leb_spec j 1); [|discriminate]. destruct p; [|discriminate]. repeat split; auto. intros _. lia.
  - destruct (IH _ H m c Hm Hi) as (A & B & C). split; [exact A|]. split; [exact B|]. intros K. specialize (C K). lia.
Qed.
Lemma checkParents_inv bopt ns : forall i, checkParents bopt i ns = Ok tt -> forall j n, nth_error ns j = Some n -> checkChildren bopt (n_kind n) (IsInclude bopt (i + Z.of_nat j)) 0 (n_sub n) = Ok tt.
Proof.
  induction ns as [|n0 ns IH]; intros i H j n Hj; [destruct j; discriminate|]. cbn [checkParents] in H. apply rbind_inv in H. destruct H as ([] & E & H).
  destruct j as [|j]; cbn [nth_error] in Hj; [assert (n0 = n) as -> by congruence; rewrite Z.add_0_r; exact E|].
  replace (i + Z.of_nat (S j)) with (i + 1 + Z.of_nat j) by lia. apply IH; assumption.
Qed.

Section Stripe.
Variable inflate : list Z -> res (list Z).
Variable o : opts.
Variable nodes : list node.
Variable hs : list bool.
Variable bopt : batchOption.
Variable schema : td.
Hypothesis Hid : td_id schema = 0.
Hypothesis Hnodes : nodesOf nodes schema.
Hypothesis Hhs : forall x, In x (flatten schema) -> nth_error hs (Z.to_nat (td_id x)) = Some (td_hasNulls x).
Hypothesis Hnd : NoDup (map td_id (flatten schema)).
Hypothesis Hall : forall i, (i < length nodes)%nat -> In (Z.of_nat i) (map td_id (flatten schema)).
Hypothesis H0 : IsInclude bopt 0 = true.
Lemma clones_opens encs l rs : newReaders bopt 0 nodes hs encs = Ok rs -> zlen (filter (there rs) l) = total (opened bopt (encs, l)) (flatten schema).
Proof.
  intros Hrs. induction l as [|s l IH].
  - cbn [filter]. symmetry. change (zlen (@nil (strm * Z))) with 0. clear. induction (flatten schema) as [|t ts IHt]; [reflexivity|]. rewrite total_cons, IHt.
    unfold opened, listed, kinds_listed. cbn. destruct (IsInclude bopt (td_id t)); reflexivity.
  - set (ind := fun t => if IsInclude bopt (td_id t) && of_column (Z.to_nat (td_id t)) s then 1 else 0).
    rewrite (total_ext _ (fun t => opened bopt (encs, l) t + ind t)), total_plus, <- IH.
    + cbn [filter]. replace (total ind (flatten schema)) with (if there rs s then 1 else 0); [destruct (there rs s); rewrite ?zlen_cons; lia|]. symmetry.
      unfold there. destruct (st_kind (fst s) =? 6) eqn:E6; cbn [negb andb].
      { apply total_zero; [intros t; unfold ind; destruct (_ && _); lia|]. intros t _. unfold ind, of_column. rewrite E6. cbn [negb]. rewrite !andb_false_r. reflexivity. }
      destruct (nth_error rs (Z.to_nat (st_column (fst s)))) as [[r|]|] eqn:En.
      * assert (Hlen : (Z.to_nat (st_column (fst s)) < length nodes)%nat).
        { pose proof (newReaders_length _ _ _ _ _ _ Hrs). assert ((Z.to_nat (st_column (fst s)) < length rs)%nat) by (apply nth_error_Some; rewrite En; discriminate). lia. }
        apply Hall in Hlen. apply in_map_iff in Hlen. destruct Hlen as (t & Et & Ht). rewrite (total_one ind _ t Hnd Ht).
        -- unfold ind, of_column. rewrite Et, E6, Nat2Z.id, Nat.eqb_refl. destruct (Hnodes t Ht) as (_ & n & Hn & _). rewrite Et, Nat2Z.id in Hn. pose proof (Hhs t Ht) as Hh. rewrite Et, Nat2Z.id in Hh.
           destruct (newReaders_at _ _ _ _ _ _ Hrs _ _ _ Hn Hh) as (x & Ex & Hx). cbn [Z.add] in Hx. destruct (IsInclude bopt (Z.of_nat (Z.to_nat (st_column (fst s))))); [reflexivity|]. congruence.
        -- intros u Hu Ne. unfold ind, of_column. destruct (Nat.eqb_spec (Z.to_nat (st_column (fst s))) (Z.to_nat (td_id u))) as [Eq|]; [|rewrite andb_false_r; reflexivity].
           exfalso. apply Ne. destruct (Hnodes u Hu) as (P & _). rewrite Et, Eq. lia.
      * apply total_zero; [intros t; unfold ind; destruct (_ && _); lia|]. intros t Ht. unfold ind, of_column. destruct (Nat.eqb_spec (Z.to_nat (st_column (fst s))) (Z.to_nat (td_id t))) as [Eq|]; [|rewrite andb_false_r; reflexivity].
        destruct (Hnodes t Ht) as (P & n & Hn & _). pose proof (Hhs t Ht) as Hh. destruct (newReaders_at _ _ _ _ _ _ Hrs _ _ _ Hn Hh) as (x & Ex & Hx). cbn [Z.add] in Hx. rewrite Z2Nat.id in Hx by exact P.
        destruct (IsInclude bopt (td_id t)); [|reflexivity]. destruct Hx as (r & -> & _). rewrite <- Eq in Ex. congruence.
      * apply total_zero; [intros t; unfold ind; destruct (_ && _); lia|]. intros t Ht. unfold ind, of_column. destruct (Nat.eqb_spec (Z.to_nat (st_column (fst s))) (Z.to_nat (td_id t))) as [Eq|]; [|rewrite andb_false_r; reflexivity].
        destruct (Hnodes t Ht) as (P & n & Hn & _). pose proof (Hhs t Ht) as Hh. destruct (newReaders_at _ _ _ _ _ _ Hrs _ _ _ Hn Hh) as (x & Ex & Hx). rewrite <- Eq in Ex. congruence.
    + intros t _. unfold opened, ind, listed, kinds_listed. cbn [snd filter]. destruct (IsInclude bopt (td_id t)); [|reflexivity]. cbn [andb].
      destruct (of_column (Z.to_nat (td_id t)) s); cbn [map]; rewrite ?zlen_cons; lia.
Qed.
Lemma stripe_bnd file rows x s : newStripeRd inflate o nodes hs bopt file rows x = Ok s ->
  Bnd (stripe_Close s) (stripeClones inflate o nodes hs bopt file x) (released bopt x schema).
Proof.
  intros H. unfold newStripeRd in H. apply rbind_inv in H. destruct H as (rs & Ers & H). apply rbind_inv in H. destruct H as (rs' & Einit & H). apply rbind_inv in H. destruct H as ([] & Echk & H).
  apply rbind_inv in H. destruct H as (tr & Et & H). assert (s = {| sr_rows := rows; sr_cursor := 0; sr_tree := tr |}) as -> by congruence. clear H.
  unfold stripeClones. rewrite Ers, (initClones_count _ _ _ _ _ _ Einit), (clones_opens (fst x) (snd x) rs Ers). destruct x as [encs l]. cbn [fst snd] in *.
  assert (Hcols : forall t, In t (flatten schema) -> read bopt t -> exists r, nth_error rs' (Z.to_nat (td_id t)) = Some (Some r) /\ classOf (td_kind t) r /\
    (forall n, ownClose r = Ok n -> 0 <= n <= zlen (listed (encs, l) t)) /\
    (ownClose r = Ok (zlen (listed (encs, l) t)) <-> ownSpec (td_kind t) (encoded (encs, l) t) (td_hasNulls t) (listed (encs, l) t))).
  { intros t Ht Hr. destruct (Hnodes t Ht) as (P & n & Hn & Ek & _). pose proof (Hhs t Ht) as Hh. destruct (newReaders_at _ _ _ _ _ _ Ers _ _ _ Hn Hh) as (y & Ey & Hy). cbn [Z.add] in Hy. rewrite Z2Nat.id in Hy by exact P.
    unfold read in Hr. rewrite Hr in Hy. destruct Hy as (r0 & -> & Hnew). destruct (initAll_col _ _ _ _ _ _ Einit _ _ Ey) as (r & Er & Hs & Hhas). exists r. split; [exact Er|].
    destruct (new_sig _ _ _ _ Hnew) as [Hd Hz]. split.
    - rewrite <- Ek. eapply (classed_init inflate o nodes file l rs rs'); [eapply (classed_new bopt nodes); exact Ers|exact Einit|exact Hn|exact Er].
    - rewrite <- Hs in Hd. destruct (own_count r (listed (encs, l) t) Hd) as [A B].
      + intros k Hk. rewrite Hs in Hk. rewrite (Hhas k Hk), Hz. reflexivity.
      + split; [exact A|]. rewrite B. rewrite Hs. rewrite (own_spec _ _ _ _ _ Hnew), Ek. reflexivity. }
  assert (Hpar : forall t, In t (flatten schema) -> checkChildren bopt (td_kind t) (IsInclude bopt (td_id t)) 0 (map td_id (td_children t)) = Ok tt).
  { intros t Ht. destruct (Hnodes t Ht) as (P & n & Hn & Ek & Es). pose proof (checkParents_inv _ _ _ Echk _ _ Hn) as Hc. cbn [Z.add] in Hc. rewrite Z2Nat.id in Hc by exact P. rewrite Ek, Es in Hc. exact Hc. }
  destruct (Hcols schema (flatten_self schema)) as (r & Er & _); [unfold read; rewrite Hid; exact H0|]. rewrite Hid in Er. cbn [Z.to_nat] in Er. rewrite (firstReader_0 _ _ 0 Er) in Et.
  apply rbind_inv in Et. destruct Et as (u & Hu & Et). assert (tr = Some u) as -> by congruence. cbn [stripe_Close sr_tree].
  rewrite <- Hid in Hu. refine (build_bnd nodes bopt (encs, l) rs' schema Hnodes Hcols _ _ schema (flatten_self schema) _ _ _ Hu).
  - intros t c Ht Hc Hr. apply (in_map td_id) in Hc. apply In_nth_error in Hc. destruct Hc as (m & Hm). destruct (checkChildren_inv _ _ _ _ _ (Hpar t Ht) m _ Hm Hr) as (A & B & _). auto.
  - intros t a b l' Ht Hk Hc c Hin Hr. apply (in_map td_id) in Hin. apply In_nth_error in Hin. destruct Hin as (m & Hm).
    destruct (checkChildren_inv _ _ _ _ _ (Hpar t Ht) (S (S m)) (td_id c)) as (_ & _ & C); [rewrite Hc; exact Hm|exact Hr|]. specialize (C Hk). lia.
  - unfold read. rewrite Hid. exact H0.
Qed.
Lemma stripes_bnd file l : forall xs ss, newStripes inflate o nodes hs bopt file l xs = Ok ss -> length l = length xs ->
  Bnd (stripes_Close ss) (stripesClones inflate o nodes hs bopt file l xs) (Forall (fun x => released bopt x schema) xs).
Proof.
  induction l as [|i l IH]; intros [|x xs] ss H Hl; try discriminate Hl; cbn [newStripes stripesClones] in *.
  - assert (ss = []) as -> by congruence. split; [intros n E; cbn in E; assert (n = 0) by congruence; lia|]. cbn. split; constructor.
  - apply rbind_inv in H. destruct H as (s & Es & H). apply rbind_inv in H. destruct H as (ss1 & Er & H). assert (ss = s :: ss1) as -> by congruence. rewrite Es.
    eapply Bnd_ext; [| | |exact (Bnd_add _ _ _ _ _ _ (stripe_bnd _ _ _ _ Es) (IH _ _ Er ltac:(cbn in Hl; lia)))]; [reflexivity|reflexivity|].
    split; [intros [A B]; constructor; assumption|intros F; inversion F; auto].
Qed.
End Stripe.

(** ** The whole reader *)
Lemma initStripes_len inflate unSF k file l : forall xs, initStripes inflate unSF k file l = Ok xs -> length l = length xs.
Proof.
  induction l as [|i l IH]; intros xs H; cbn [initStripes] in H; [assert (xs = []) as -> by congruence; reflexivity|]. destruct (_ =? 0); [discriminate|].
  apply rbind_inv in H. destruct H as (x & _ & H). apply rbind_inv in H. destruct H as (ys & E & H). assert (xs = x :: ys) as -> by congruence. cbn [length]. f_equal. apply IH. exact E.
Qed.
Section Batches.
Variable inflate : list Z -> res (list Z).
Variable bopt : batchOption.
Variable file : list Z.
Variable schema : td.
Variable r : fileR colstats.
Variable x : batchRd.
Variable xs : list (list Z * list (strm * Z)).
Hypothesis Hob : opened_batches inflate bopt file schema r x xs.
Lemma ob_nodes : nodesOf (fr_nodes r) schema /\ forall t, In t (flatten schema) -> nth_error (fr_hasNulls r) (Z.to_nat (td_id t)) = Some (td_hasNulls t).
Proof. destruct Hob as [_ _ [_ H] _ _]. split; [intros t Ht|intros t Ht]; destruct (H t Ht) as (A & (n & B) & C); eauto. Qed.
Lemma ob_new : exists ss, newStripes inflate (readerOpts r) (fr_nodes r) (fr_hasNulls r) bopt file (fr_stripes r) xs = Ok ss /\ br_stripes x = ss /\ length (fr_stripes r) = length xs /\
  newFileReader inflate cs_hasNull unmarshalPS unmarshalFooter file = Ok r.
Proof.
  destruct Hob as [Ho Hf _ _ _]. apply openBatches_ok in Ho. apply rbind_inv in Ho. destruct Ho as (r' & Er & Ho). apply rbind_inv in Ho. destruct Ho as (xs' & Ex & Ho). apply rbind_inv in Ho. destruct Ho as (ss & Es & Ho).
  assert (r' = r) as -> by congruence. assert (xs' = xs) as -> by congruence. exists ss. split; [exact Es|]. split; [injection Ho as <-; reflexivity|]. split; [|exact Er].
  unfold CreateBatchReader in Hf. destruct (_ =? 0); [discriminate|]. eapply initStripes_len; exact Hf.
Qed.
Lemma batch_bnd y : Later inflate r x y -> Bnd (batch_Close y) (batchClones inflate bopt file) (Forall (fun f => released bopt f schema) xs).
Proof.
  intros Hl. rewrite (Later_keeps _ _ _ _ Hl). destruct ob_new as (ss & Es & Ex & Hlen & Er). destruct ob_nodes as [Hn Hh]. destruct Hob as [_ Hf [Hid _] [Hnd Hall] H0].
  unfold batchClones, batch_Close. rewrite Er, Hf, Ex. eapply stripes_bnd; eassumption.
Qed.
Lemma ob_parents f : In f xs -> forall t c, In t (flatten schema) -> In c (td_children t) -> read bopt c -> read bopt t /\ (td_kind t = MAP -> ~ In c (skipn 2 (td_children t))).
Proof.
  intros Hf t c Ht Hc Hr. destruct ob_new as (ss & Es & Ex & Hlen & Er). destruct ob_nodes as [Hn _]. destruct (fr_stripes r) as [|i l]; [destruct xs; [contradiction|discriminate]|].
  destruct xs as [|f0 xs0]; [contradiction|]. cbn [newStripes] in Es. apply rbind_inv in Es. destruct Es as (s & Es & _). unfold newStripeRd in Es.
  apply rbind_inv in Es. destruct Es as (rs & _ & H). apply rbind_inv in H. destruct H as (rs' & _ & H). apply rbind_inv in H. destruct H as ([] & Echk & _).
  destruct (Hn t Ht) as (P & n & En & Ek & Esb). pose proof (checkParents_inv _ _ _ Echk _ _ En) as Hk. cbn [Z.add] in Hk. rewrite Z2Nat.id in Hk by exact P. rewrite Esb in Hk.
  rewrite Ek in Hk. split.
  - apply (in_map td_id) in Hc. apply In_nth_error in Hc. destruct Hc as (m & Hm). destruct (checkChildren_inv _ _ _ _ _ Hk m _ Hm Hr) as (A & _). exact A.
  - intros K Hin. destruct (td_children t) as [|a [|b ch]]; [contradiction|contradiction|]. cbn [skipn] in Hin. apply (in_map td_id) in Hin. apply In_nth_error in Hin. destruct Hin as (m & Hm).
    destruct (checkChildren_inv _ _ _ _ _ Hk (S (S m)) (td_id c) Hm Hr) as (_ & _ & C). specialize (C K). lia.
Qed.
Definition parents (t0 : td) : Prop := forall t c, In t (flatten t0) -> In c (td_children t) -> read bopt c -> read bopt t.
Lemma parents_child id k ns e h cs c : parents (Td id k ns e h cs) -> In c cs -> parents c.
Proof. intros H Hc t d Ht. apply H. rewrite flatten_eq. right. apply in_flat_map. eauto. Qed.
Lemma read_up t0 : parents t0 -> forall t, In t (flatten t0) -> read bopt t -> read bopt t0.
Proof.
  induction t0 as [id k ns e h cs IH] using td_rect'. intros Hp t Ht Hr. rewrite Forall_forall in IH. rewrite flatten_eq in Ht. destruct Ht as [<-|Ht]; [exact Hr|].
  apply in_flat_map in Ht. destruct Ht as (c & Hc & Ht). apply (Hp _ c (flatten_self _) Hc). eapply (IH c Hc); [eapply parents_child; eassumption|exact Ht|exact Hr].
Qed.
Lemma tkind_eq_dec (a b : tkind) : {a = b} + {a <> b}. Proof. decide equality. Qed.
Lemma each_in f c cs : each bopt f cs -> In c cs -> read bopt c -> released bopt f c.
Proof. induction cs as [|d cs IH]; intros H Hc Hr; [contradiction|]. destruct H as [A B]. destruct Hc as [->|Hc]; auto. Qed.
Lemma released_inside f t0 : parents t0 -> (forall t c, In t (flatten t0) -> td_kind t = MAP -> In c (skipn 2 (td_children t)) -> ~ read bopt c) -> released bopt f t0 ->
  forall t, In t (flatten t0) -> read bopt t -> released bopt f t \/ listed f t = [].
Proof.
  induction t0 as [id k ns e h cs IH] using td_rect'. intros Hp Hm Hrel t Ht Hr. rewrite Forall_forall in IH.
  rewrite flatten_eq in Ht. destruct Ht as [<-|Ht]; [left; exact Hrel|].
  destruct (tkind_eq_dec k LIST) as [->|NL]; [right; cbn [released] in Hrel; destruct Hrel as [_ H]; apply H; assumption|].
  apply in_flat_map in Ht. destruct Ht as (c & Hc & Ht). pose proof (parents_child _ _ _ _ _ _ _ Hp Hc) as Hpc. pose proof (read_up c Hpc t Ht Hr) as Hrc.
  apply (IH c Hc Hpc); [|clear - Hrel Hc Hrc NL Hm|exact Ht|exact Hr].
  - intros u d Hu. apply Hm. rewrite flatten_eq. right. apply in_flat_map. eauto.
  - destruct (tkind_eq_dec k MAP) as [->|NM].
    + cbn [released] in Hrel. destruct Hrel as [_ Hrel]. destruct cs as [|a [|b l]]; try contradiction. destruct Hc as [->|[->|Hc]]; [tauto|tauto|]. exfalso. exact (Hm _ c (flatten_self _) eq_refl Hc Hrc).
    + assert (E : each bopt f cs) by (cbn [released] in Hrel; destruct k; try congruence; tauto). eapply each_in; eassumption.
Qed.
Lemma skipn_in {A} n (l : list A) a : In a (skipn n l) -> In a l.
Proof. revert l. induction n as [|n IH]; intros [|b l] H; cbn in *; auto. Qed.
Lemma leaks f t y : In f xs -> In t (flatten schema) -> read bopt t -> Later inflate r x y ->
  (td_kind t = MAP /\ In 2 (listed f t)) \/ (td_kind t = LIST /\ listed f t <> [] /\ exists c, In c (flat_map flatten (td_children t)) /\ read bopt c /\ listed f c <> []) ->
  batch_Close y <> Ok (batchClones inflate bopt file).
Proof.
  intros Hf Ht Hr Hl H E. destruct (batch_bnd y Hl) as [_ B]. apply B in E. rewrite Forall_forall in E. specialize (E f Hf).
  destruct (released_inside f schema) with (t := t) as [R|R]; try assumption.
  - intros u c Hu Hc Hrc. exact (proj1 (ob_parents f Hf u c Hu Hc Hrc)).
  - intros u c Hu K Hc Hrc. refine (proj2 (ob_parents f Hf u c Hu _ Hrc) K Hc). exact (skipn_in _ _ _ Hc).
  - destruct t as [id k ns e h cs]. cbn [td_kind td_children] in *. destruct H as [[-> H]|(-> & H1 & c & Hc & Hrc & H2)].
    + cbn [released] in R. destruct R as [[X|X] _]; rewrite X in H; cbn in H; intuition discriminate.
    + cbn [released] in R. destruct R as [_ R]. exact (H2 (R c Hc Hrc)).
  - destruct H as [[_ H]|(_ & H & _)]; [rewrite R in H; exact H|exact (H R)].
Qed.
Lemma plain f : (forall t, In t (flatten schema) -> read bopt t -> td_kind t <> LIST /\ td_kind t <> MAP /\ well_listed (td_kind t) (encoded f t) (listed f t) /\
    (td_kind t = STRING -> encoded f t <> 3 -> In 0 (listed f t) <-> td_hasNulls t = true)) ->
  released bopt f schema.
Proof.
  intros H. assert (Hs : read bopt schema) by (destruct Hob as [_ _ [E _] _ H0]; unfold read; rewrite E; exact H0). revert H Hs. generalize schema as t0. clear.
  induction t0 as [id k ns e h cs IH] using td_rect'. intros H Hs. rewrite Forall_forall in IH. destruct (H _ (flatten_self _) Hs) as (N1 & N2 & W & S). cbn [td_kind td_hasNulls] in *.
  assert (E : each bopt f cs).
  { assert (Hc : forall c, In c cs -> read bopt c -> released bopt f c).
    { intros c Hc Hr. apply IH; [exact Hc| |exact Hr]. intros t Ht. apply H. rewrite flatten_eq. right. apply in_flat_map. eauto. }
    clear - Hc. induction cs as [|c cs IHc]; [exact I|]. split; [apply Hc; left; reflexivity|]. apply IHc. intros d Hd. apply Hc. right. exact Hd. }
  cbn [released]. destruct k; try congruence; exact (conj W (conj S E)).
Qed.
End Batches.
