(** Filling a batch from a tree of column readers. *)
From Coq Require Import ZifyBool ZifyNat.
From Verif.Model Require Import Go Codec ByteBool IntRle Chunk Stream Schema Rows Time File Column Wire Nested Tree Assembled.
From Verif.Spec Require Import Session StreamSpec ChunkSpec SchemaSpec FileSpec ColumnSpec EndSpec.
From Verif.Proofs Require Import Base SchemaP ChunkP ReadP ColumnP ColumnReadP TreeP LeafP.

(** ** One value per row *)
Definition single {V} (j : nat) (rows : list (row V)) : Prop := Forall (fun r => length (column_of j [r]) = 1%nat) rows.
Lemma column_of_app {V} j (a c : list (row V)) : column_of j (a ++ c) = column_of j a ++ column_of j c.
Proof. unfold column_of. rewrite concat_app, filter_app, map_app. reflexivity. Qed.
Lemma column_of_cons {V} j (r : row V) rows : column_of j (r :: rows) = column_of j [r] ++ column_of j rows.
Proof. apply (column_of_app j [r] rows). Qed.
Lemma single_length {V} j (rows : list (row V)) : single j rows -> length (column_of j rows) = length rows.
Proof.
  intros H. induction H as [|r t Hr Ht IH]; [reflexivity|]. rewrite column_of_cons, app_length, IH, Hr. reflexivity.
Qed.
Lemma single_firstn {V} j (rows : list (row V)) : single j rows -> forall n,
  column_of j (firstn n rows) = firstn n (column_of j rows).
Proof.
  intros H. induction H as [|r t Hr Ht IH]; intros [|n]; try reflexivity. cbn [firstn].
  rewrite column_of_cons, (column_of_cons j r t), IH. destruct (column_of j [r]) as [|x [|y l]]; cbn in Hr; try lia. reflexivity.
Qed.
Lemma single_skipn {V} j (rows : list (row V)) : single j rows -> forall n,
  column_of j (skipn n rows) = skipn n (column_of j rows).
Proof.
  intros H. induction H as [|r t Hr Ht IH]; intros [|n]; try reflexivity. cbn [skipn].
  rewrite (column_of_cons j r t), IH. destruct (column_of j [r]) as [|x [|y l]]; cbn in Hr; try lia. reflexivity.
Qed.
Lemma Forall_firstn {A} (P : A -> Prop) l : Forall P l -> forall n, Forall P (firstn n l).
Proof. intros H. induction H; intros [|n]; cbn; auto. Qed.
Lemma Forall_skipn {A} (P : A -> Prop) l : Forall P l -> forall n, Forall P (skipn n l).
Proof. intros H. induction H; intros [|n]; cbn; auto. Qed.

(** ** The trees and the batches *)
Section Batch.
Variable inflate : list Z -> res (list Z).
Variable o : opts.
Variable b : batchOption.
Notation kept := (kept b).
Notation leaf := readable.
Notation nv := (fun c => nextValue inflate o c GNil).
Notation rowNext := (rowNext inflate o).

(** Where the Null flags of a column without PRESENT stream come from. *)
Definition flags_match (par : option Z) (j : nat) (rows : list (row value)) : Prop :=
  match par with
  | None => Forall (fun v => Null v = false) (column_of j rows)
  | Some p => map Null (column_of j rows) = map Null (column_of (Z.to_nat p) rows)
  end.

(** The readers of [t] stand before [rows]. *)
Inductive gives (rows : list (row value)) : option Z -> td -> ctree -> Prop :=
| gLeaf par id k ns e h tr : isCompound k = false -> LeafAt inflate o h (column_of (Z.to_nat id) rows) tr ->
    (h = false -> flags_match par (Z.to_nat id) rows) -> gives rows par (Td id k ns e h []) tr
| gStruct par id ns e (h : bool) cs present index kids :
    (if h then exists p, present = Some p /\
                 Yields (bool_Next inflate o) p (map (fun v => negb (Null v)) (column_of (Z.to_nat id) rows))
     else present = None) ->
    Forall2 (gives rows (if h then Some id else None)) (kept cs) kids ->
    gives rows par (Td id STRUCT ns e h cs) (CStruct present index kids).

(** The vectors of [t] have length [n]. *)
Inductive sized (n : nat) : bool -> td -> vtree -> Prop :=
| sLeaf (par : bool) id k ns e (h : bool) vals : isCompound k = false -> length vals = n ->
    (h = false -> par = false -> Forall (fun v => Null v = false) vals) ->
    sized n par (Td id k ns e h []) (VT vals [])
| sStruct (par : bool) id ns e (h : bool) cs vals vs : (if h then length vals = n else vals = []) -> (par = true -> h = true) ->
    Forall2 (sized n h) (kept cs) vs -> sized n par (Td id STRUCT ns e h cs) (VT vals vs).
(** And the Null flags inherited from above are in place. *)
Inductive ready (n : nat) : option (list bool) -> td -> vtree -> Prop :=
| rLeaf flags id k ns e (h : bool) vals : isCompound k = false -> length vals = n ->
    (h = false -> map Null vals = match flags with Some f => f | None => repeat false n end) ->
    ready n flags (Td id k ns e h []) (VT vals [])
| rNull flags id ns e cs vals vs : length vals = n -> Forall2 (sized n true) (kept cs) vs ->
    ready n flags (Td id STRUCT ns e true cs) (VT vals vs)
| rStruct id ns e cs vs : Forall2 (ready n None) (kept cs) vs ->
    ready n None (Td id STRUCT ns e false cs) (VT [] vs).
(** The vectors of [t] hold [rows]. *)
Inductive shown (rows : list (row value)) : option Z -> td -> vtree -> Prop :=
| shLeaf par id k ns e (h : bool) vals : isCompound k = false -> length vals = length rows ->
    rows_of vals = rows_of (column_of (Z.to_nat id) rows) ->
    (h = false -> par = None -> Forall (fun v => Null v = false) vals) ->
    shown rows par (Td id k ns e h []) (VT vals [])
| shStruct par id ns e (h : bool) cs vals vs :
    (if h then length vals = length rows /\ map Null vals = map Null (column_of (Z.to_nat id) rows) else vals = []) ->
    Forall2 (shown rows (if h then Some id else None)) (kept cs) vs ->
    shown rows par (Td id STRUCT ns e h cs) (VT vals vs).

Lemma kept_Forall (P : td -> Prop) cs : Forall P cs -> Forall P (kept cs).
Proof. intros H. apply Forall_forall. intros x Hx. apply filter_In in Hx. rewrite Forall_forall in H. apply H. apply Hx. Qed.
Lemma Forall2_mono {A B} (P : A -> Prop) (R S : A -> B -> Prop) l m : Forall P l -> (forall a c, P a -> R a c -> S a c) ->
  Forall2 R l m -> Forall2 S l m.
Proof. intros Hp H H2. induction H2; inversion Hp; subst; constructor; auto. Qed.

Lemma flags_false vals : Forall (fun v => Null v = false) vals -> map Null vals = repeat false (length vals).
Proof. intros H. induction H as [|v t Hv Ht IH]; [reflexivity|]. cbn. rewrite Hv, IH. reflexivity. Qed.
Lemma sized_ready n t : forall vt, sized n false t vt -> ready n None t vt.
Proof.
  induction t as [i k ns e h cs IH] using td_rect'. intros vt H. inversion H; subst.
  - constructor; auto. intros Hh. apply flags_false. auto.
  - destruct h; [constructor; auto|]. subst. constructor.
    eapply Forall2_mono; [apply kept_Forall; exact IH| |eassumption]. cbn. auto.
Qed.

Definition fillL (parent : list value) := fix go (l : list vtree) : res (list vtree) :=
  match l with
  | [] => Ok []
  | c :: r => let! c' := fillNulls parent c in let! r' := go r in Ok (c' :: r')
  end.
Lemma fillNulls_eq parent vals cs : fillNulls parent (VT vals cs) =
  let! vals' := copyNulls parent vals in let! cs' := fillL vals' cs in Ok (VT vals' cs').
Proof. reflexivity. Qed.
Lemma copyNulls_ok from : forall to, length to = length from ->
  exists out, copyNulls from to = Ok out /\ map Null out = map Null from /\ length out = length from.
Proof.
  induction from as [|x r IH]; intros [|y s] H; cbn in H; try lia; [exists []; auto|].
  destruct (IH s) as (out & H1 & H2 & H3); [lia|]. cbn [copyNulls]. rewrite H1. cbn [rbind].
  eexists. split; [reflexivity|]. cbn. rewrite H2, H3. auto.
Qed.
Lemma fill_ok n t : forall vt parent, sized n true t vt -> length parent = n ->
  exists vt', fillNulls parent vt = Ok vt' /\ sized n true t vt' /\ ready n (Some (map Null parent)) t vt'.
Proof.
  induction t as [i k ns e h cs IH] using td_rect'. intros vt parent H Hp. inversion H as [? ? ? ? ? ? vals Hk Hl Hn|? ? ? ? ? ? vals vs Hl Hh Hf]; subst.
  - rewrite fillNulls_eq. destruct (copyNulls_ok parent vals) as (out & H1 & H2 & H3); [lia|].
    rewrite H1. cbn [rbind fillL]. eexists. split; [reflexivity|]. split; constructor; auto; try lia; discriminate.
  - rewrite (Hh eq_refl) in *. rewrite fillNulls_eq. destruct (copyNulls_ok parent vals) as (out & H1 & H2 & H3); [lia|].
    rewrite H1. cbn [rbind].
    assert (Hgo : exists vs', fillL out vs = Ok vs' /\ Forall2 (sized (length parent) true) (kept cs) vs').
    { clear - IH Hf H3. apply kept_Forall in IH. revert IH. induction Hf as [|t v ts vs Ht Hts IHf]; intros IH; [exists []; split; [reflexivity|constructor]|].
      inversion IH as [|? ? Hc Hcs]; subst. destruct (Hc v out) as (v' & E1 & E2 & _); [exact Ht|exact H3|].
      destruct (IHf Hcs) as (vs' & E3 & E4). exists (v' :: vs'). cbn [fillL]. rewrite E1. cbn [rbind]. fold (fillL out). rewrite E3. cbn [rbind]. auto. }
    destruct Hgo as (vs' & Hv & Hs). rewrite Hv. cbn [rbind]. eexists. split; [reflexivity|]. split; constructor; auto.
Qed.

(** ** The leaves *)
Lemma readNulls_ok vec : forall p bits, Yields (bool_Next inflate o) p bits -> (length vec <= length bits)%nat ->
  exists out p', readNulls inflate o p vec = Ok (out, p') /\ length out = length vec /\
    map Null out = map negb (firstn (length vec) bits) /\ Yields (bool_Next inflate o) p' (skipn (length vec) bits).
Proof.
  induction vec as [|v t IH]; intros p bits Hy Hl; [exists [], p; auto|].
  destruct bits as [|x bits]; cbn [length] in *; [lia|]. inversion Hy as [|? ? p1 ? Hx Hy']; subst.
  destruct (IH p1 bits Hy') as (out & p' & H1 & H2 & H3 & H4); [lia|].
  cbn [readNulls]. rewrite Hx. cbn [rbind]. rewrite H1. cbn [rbind]. eexists _, p'. split; [reflexivity|].
  cbn [length map Null firstn skipn]. rewrite H2, H3. auto.
Qed.

(** ** A batch from the tree *)
Lemma columns_read_leaf par id k ns e h : isCompound k = false -> IsInclude b id = true ->
  columns_read b par (Td id k ns e h []) = [(Td id k ns e h [], par)].
Proof. intros Hk Hi. cbn [columns_read]. rewrite Hi. destruct k; try discriminate; reflexivity. Qed.
Lemma columns_read_struct par id ns e h cs : IsInclude b id = true ->
  columns_read b par (Td id STRUCT ns e h cs) =
  (if h then [(Td id STRUCT ns e h cs, par)] else []) ++ flat_map (columns_read b (if h then Some id else None)) cs.
Proof. intros Hi. cbn [columns_read]. rewrite Hi. reflexivity. Qed.
Lemma columns_read_out par t : IsInclude b (td_id t) = false -> columns_read b par t = [].
Proof. destruct t. cbn [td_id columns_read]. intros ->. reflexivity. Qed.
Lemma columns_read_kept par cs : flat_map (columns_read b par) cs = flat_map (columns_read b par) (kept cs).
Proof.
  induction cs as [|c r IH]; [reflexivity|]. cbn [flat_map EndSpec.kept filter]. unfold EndSpec.kept in IH.
  destruct (IsInclude b (td_id c)) eqn:E; [cbn [flat_map]; rewrite IH; reflexivity|]. rewrite columns_read_out by exact E. exact IH.
Qed.
Lemma kept_included cs : Forall (fun t => IsInclude b (td_id t) = true) (kept cs).
Proof. apply Forall_forall. intros x Hx. apply filter_In in Hx. apply Hx. Qed.

Definition onceEach (rows : list (row value)) (par : option Z) (t : td) : Prop :=
  Forall (fun x => single (col (fst x)) rows) (columns_read b par t).
Definition parOnce (rows : list (row value)) (par : option Z) : Prop :=
  match par with Some p => single (Z.to_nat p) rows | None => True end.

Lemma single_skip {V} j (rows : list (row V)) n : single j rows -> single j (skipn n rows).
Proof. intros H. apply Forall_skipn. exact H. Qed.
Lemma flags_match_skip par j rows n : single j rows -> parOnce rows par -> flags_match par j rows -> flags_match par j (skipn n rows).
Proof.
  unfold flags_match, parOnce. intros Hj Hp H. destruct par as [p|].
  - rewrite !single_skipn by assumption. rewrite <- !skipn_map. congruence.
  - rewrite single_skipn by assumption. apply Forall_skipn. exact H.
Qed.

Lemma map_repeat_false {A} (f : A -> bool) l : Forall (fun v => f v = false) l -> map f l = repeat false (length l).
Proof. intros H. induction H as [|v t Hv Ht IH]; [reflexivity|]. cbn. rewrite Hv, IH. reflexivity. Qed.
Lemma tree_next n t : forall par flags rows tr vt, IsInclude b (td_id t) = true ->
  ready n flags t vt -> gives rows par t tr -> (n <= length rows)%nat ->
  onceEach rows par t -> parOnce rows par ->
  flags = option_map (fun p => map Null (column_of (Z.to_nat p) (firstn n rows))) par ->
  exists vt' tr', tree_NextBatch inflate o tr vt = Ok (vt', tr') /\ gives (skipn n rows) par t tr' /\
    shown (firstn n rows) par t vt'.
Proof.
  induction t as [id k ns e h cs IH] using td_rect'. intros par flags rows tr vt Hinc Hr Hg Hn Hon Hpar Hfl. cbn [td_id] in Hinc.
  assert (Hfn : length (firstn n rows) = n) by (rewrite firstn_length; lia).
  inversion Hg as [? ? ? ? ? ? tr0 Hk Hlf Hm|? ? ? ? ? ? present index kids Hpres Hkids]; subst.
  - (* primitive columns *)
    unfold onceEach in Hon. rewrite columns_read_leaf in Hon by assumption. inversion Hon as [|? ? Hj _]; subst. cbn [fst] in Hj. unfold col in Hj. cbn [td_id] in Hj.
    inversion Hr as [? ? ? ? ? ? vals _ Hl Hnull| |]; subst; try (cbn in Hk; discriminate).
    assert (Hflag : h = false -> map Null vals = map Null (firstn (length vals) (column_of (Z.to_nat id) rows))).
    { intros Hh. rewrite Hnull by exact Hh. specialize (Hm Hh). unfold flags_match in Hm. destruct par as [p|]; cbn [option_map].
      - cbn [parOnce] in Hpar. rewrite single_firstn by assumption. rewrite <- !firstn_map. congruence.
      - rewrite map_repeat_false by (apply Forall_firstn; exact Hm). rewrite firstn_length, single_length by assumption. f_equal. lia. }
    destruct (leaf_step inflate o h _ tr vals [] Hlf) as (out & tr' & H1 & H2 & H3).
    { rewrite single_length by assumption. exact Hn. }
    { exact Hflag. }
    rewrite H1. do 2 eexists. split; [reflexivity|]. split.
    + constructor; auto.
      * rewrite single_skipn by assumption. exact H3.
      * intros Hh. apply flags_match_skip; auto.
    + assert (Hlo : length out = length vals).
      { apply (f_equal (@length _)) in H2. unfold rows_of in H2. rewrite !map_length, firstn_length, single_length in H2 by assumption. lia. }
      constructor; auto; [lia| |].
      * rewrite single_firstn by assumption. exact H2.
      * intros Hh ->. apply rows_flags in H2. rewrite <- (Hflag Hh), Hnull in H2 by exact Hh. cbn [option_map] in H2. clear - H2. revert H2. generalize (length vals).
        induction out as [|v t IH]; intros [|m] H; cbn in H; try discriminate; constructor; [congruence|]. apply (IH m). congruence.
  - (* structs *)
    unfold onceEach in Hon. rewrite columns_read_struct in Hon by assumption. rewrite columns_read_kept in Hon. apply Forall_app in Hon. destruct Hon as [Hself Hrest].
    assert (Hloop : forall flags vs, Forall2 (ready n flags) (kept cs) vs ->
       flags = option_map (fun p => map Null (column_of (Z.to_nat p) (firstn n rows))) (if h then Some id else None) ->
       exists vs' kids', nextKids (tree_NextBatch inflate o) kids vs = Ok (vs', kids') /\
         Forall2 (gives (skipn n rows) (if h then Some id else None)) (kept cs) kids' /\
         Forall2 (shown (firstn n rows) (if h then Some id else None)) (kept cs) vs').
    { intros flags vs Hvs Hfl2. assert (Hpo : parOnce rows (if h then Some id else None)).
      { destruct h; [|exact I]. inversion Hself; subst. assumption. }
      clear Hpres Hr Hg Hself Hpar. pose proof (kept_included cs) as Hki. apply kept_Forall in IH.
      revert vs Hvs IH Hki Hrest. induction Hkids as [|t tr ts trs Ht Hts IHk]; intros vs Hvs IH Hki Hrest.
      - inversion Hvs; subst. exists [], []. split; [reflexivity|]. split; constructor.
      - inversion Hvs as [|? v ? vs2 Hv Hvs2]; subst. inversion IH as [|? ? Hc Hcs]; subst. inversion Hki; subst.
        cbn [flat_map] in Hrest. apply Forall_app in Hrest. destruct Hrest as [Hr1 Hr2].
        edestruct (Hc (if h then Some id else None)) as (v' & tr' & E1 & E2 & E3); try eassumption; [reflexivity|].
        destruct (IHk vs2 Hvs2 Hcs ltac:(assumption) Hr2) as (vs' & kids' & E4 & E5 & E6).
        exists (v' :: vs'), (tr' :: kids'). cbn [nextKids]. rewrite E1. cbn [rbind]. rewrite E4. cbn [rbind]. auto. }
    destruct h.
    + destruct Hpres as (p & -> & Hy). inversion Hself as [|? ? Hj _]; subst. cbn [fst] in Hj. unfold col in Hj. cbn [td_id] in Hj.
      inversion Hr as [? ? ? ? ? ? ? Hk ? ?|? ? ? ? ? vals vs Hl Hvs|]; subst; [discriminate Hk|].
      destruct (readNulls_ok vals p _ Hy) as (vals' & p' & H1 & H2 & H3 & H4).
      { rewrite map_length, single_length by assumption. exact Hn. }
      assert (Hfill : exists vs1, mapM (fillNulls vals') vs = Ok vs1 /\ Forall2 (ready (length vals) (Some (map Null vals'))) (kept cs) vs1).
      { clear - Hvs H2. induction Hvs as [|t v ts vs Hv Hvs IHv]; [exists []; split; [reflexivity|constructor]|].
        destruct (fill_ok _ _ _ vals' Hv H2) as (v' & E1 & _ & E2). destruct IHv as (vs1 & E3 & E4).
        exists (v' :: vs1). cbn [mapM]. rewrite E1. cbn [rbind]. rewrite E3. auto. }
      destruct Hfill as (vs1 & Hf1 & Hf2).
      assert (Hnn : map Null vals' = map Null (column_of (Z.to_nat id) (firstn (length vals) rows))).
      { rewrite H3, single_firstn by assumption. rewrite firstn_map, map_map. apply map_ext. intros v. apply negb_involutive. }
      destruct (Hloop (Some (map Null vals')) vs1 Hf2) as (vs2 & kids' & E1 & E2 & E3); [cbn [option_map]; rewrite Hnn; reflexivity|].
      rewrite tree_NextBatch_struct, H1. cbn [rbind]. rewrite Hf1. cbn [rbind]. rewrite E1. cbn [rbind].
      do 2 eexists. split; [reflexivity|]. split.
      * constructor; auto. exists p'. split; [reflexivity|]. rewrite single_skipn by assumption. rewrite <- skipn_map. exact H4.
      * constructor; auto. split; [lia|exact Hnn].
    + subst present. inversion Hr as [? ? ? ? ? ? ? Hk ? ?| |? ? ? ? vs Hvs]; subst; [discriminate Hk|].
      destruct (Hloop None vs Hvs eq_refl) as (vs2 & kids' & E1 & E2 & E3).
      rewrite tree_NextBatch_struct. cbn [rbind]. rewrite E1. cbn [rbind]. do 2 eexists. split; [reflexivity|]. split; constructor; auto.
Qed.

(** ** Batches with their backing arrays *)
Variable hn : list bool.
Definition flagged (t : td) : Prop :=
  forall x, In x (flatten t) -> nth_error hn (Z.to_nat (td_id x)) = Some (td_hasNulls x).
Lemma flagged_kept id k ns e h cs : flagged (Td id k ns e h cs) -> Forall flagged (kept cs).
Proof.
  intros H. apply Forall_forall. intros c Hc x Hx. apply H. rewrite flatten_eq. right. apply in_flat_map. exists c.
  apply filter_In in Hc. split; [apply Hc|exact Hx].
Qed.
Lemma reslice_ok n a rest : 0 <= n <= zlen (a ++ rest) ->
  reslice n (Some (a, rest)) = Ok (Some (ztake n (a ++ rest), zdrop n (a ++ rest))).
Proof.
  intros H. unfold reslice. destruct (Z.ltb_spec n 0); [lia|]. destruct (Z.ltb_spec (zlen (a ++ rest)) n); [lia|]. reflexivity.
Qed.
Lemma take_drop n (l : list value) : ztake n l ++ zdrop n l = l.
Proof. unfold ztake, zdrop. apply firstn_skipn. Qed.

Definition sizeL (size : Z) := fix go (l : list bvec) : res (list bvec) :=
  match l with
  | [] => Ok []
  | c :: r => let! c' := setVectorSize hn size c in let! r' := go r in Ok (c' :: r')
  end.
Lemma setVectorSize_struct size i s cs : setVectorSize hn size (BVec i STRUCT s cs) =
  match nth_error hn (Z.to_nat i) with
  | None => Panic
  | Some h => let! s' := (if h then reslice size s else Ok s) in
              let! cs' := sizeL size cs in Ok (BVec i STRUCT s' cs')
  end.
Proof. reflexivity. Qed.
Lemma setVectorSize_leaf size i k s cs : isCompound k = false ->
  setVectorSize hn size (BVec i k s cs) = let! s' := reslice size s in Ok (BVec i k s' cs).
Proof. destruct k; try discriminate; reflexivity. Qed.

Lemma resize c n t : forall par v, fits b c par t v -> 0 <= n <= c -> flagged t ->
  exists v1, setVectorSize hn n v = Ok v1 /\ fits b c par t v1 /\ sized (Z.to_nat n) par t (view v1).
Proof.
  induction t as [id k ns e h cs IH] using td_rect'. intros par v Hf Hn Hfl.
  inversion Hf as [? ? ? ? ? ? a rest Hk Hc Hnull|? ? ? ? ? ? s vs Hs Hp Hvs]; subst.
  - rewrite setVectorSize_leaf by assumption. rewrite reslice_ok by lia. cbn [rbind]. eexists. split; [reflexivity|].
    split; [constructor; auto; rewrite take_drop; auto|]. cbn [view map]. constructor; auto.
    + unfold ztake. rewrite firstn_length. unfold zlen in *. lia.
    + intros H1 H2. unfold ztake. apply Forall_firstn. auto.
  - rewrite setVectorSize_struct. pose proof (Hfl (Td id STRUCT ns e h cs) ltac:(left; reflexivity)) as Hh. cbn [td_hasNulls td_id] in Hh. rewrite Hh. clear Hh.
    assert (Hgo : exists vs1, sizeL n vs = Ok vs1 /\ Forall2 (fits b c h) (kept cs) vs1 /\ Forall2 (sized (Z.to_nat n) h) (kept cs) (map view vs1)).
    { apply flagged_kept in Hfl. apply kept_Forall in IH. clear - Hvs IH Hn Hfl.
      induction Hvs as [|t v ts vs Hv Hvs IHv]; [exists []; split; [reflexivity|split; constructor]|].
      inversion IH as [|? ? Hc Hcs]; subst. inversion Hfl; subst. destruct (Hc h v Hv Hn) as (v1 & E1 & E2 & E3); [assumption|].
      destruct IHv as (vs1 & E4 & E5 & E6); [assumption|assumption|]. exists (v1 :: vs1). cbn [sizeL map]. rewrite E1. cbn [rbind].
      fold (sizeL n). rewrite E4. cbn [rbind]. auto. }
    destruct Hgo as (vs1 & E1 & E2 & E3). destruct h.
    + destruct Hs as (a & rest & -> & Hc). rewrite reslice_ok by lia. cbn [rbind]. rewrite E1. cbn [rbind]. eexists. split; [reflexivity|].
      split; [constructor; auto; eexists _, _; split; [reflexivity|]; rewrite take_drop; exact Hc|].
      cbn [view]. constructor; auto. unfold ztake. rewrite firstn_length. unfold zlen in *. lia.
    + subst s. cbn [rbind]. rewrite E1. cbn [rbind]. eexists. split; [reflexivity|]. split; [constructor; auto|]. cbn [view]. constructor; auto.
Qed.

(** The vectors of a batch hold [rows]. *)
Inductive holds (rows : list (row value)) : td -> bvec -> Prop :=
| hLeaf id k ns e (h : bool) a rest : isCompound k = false -> length a = length rows ->
    rows_of a = rows_of (column_of (Z.to_nat id) rows) ->
    holds rows (Td id k ns e h []) (BVec id k (Some (a, rest)) [])
| hStruct id ns e (h : bool) cs s vs :
    (if h then exists a rest, s = Some (a, rest) /\ length a = length rows /\ map Null a = map Null (column_of (Z.to_nat id) rows)
     else s = None) ->
    Forall2 (holds rows) (kept cs) vs -> holds rows (Td id STRUCT ns e h cs) (BVec id STRUCT s vs).

Definition putL := fix go (cs : list bvec) (ts : list vtree) : list bvec :=
  match cs, ts with c :: cs', t :: ts' => put c t :: go cs' ts' | _, _ => cs end.
Lemma put_eq i k s cs l ts : put (BVec i k s cs) (VT l ts) =
  BVec i k (putVals s l) (putL cs ts).
Proof. reflexivity. Qed.
Lemma putVals_same a rest l : length l = length a -> putVals (Some (a, rest)) l = Some (l, rest).
Proof. intros H. cbn [putVals]. unfold zlen. rewrite H. fold (zlen a). rewrite ChunkP.zdrop_app. reflexivity. Qed.
Definition below (par : option Z) : bool := match par with Some _ => true | None => false end.
Lemma Forall_tail {A} (P : A -> Prop) a c : Forall P (a ++ c) -> Forall P c.
Proof. intros H. apply Forall_app in H. apply H. Qed.
Lemma put_holds c rows t : forall par v x, fits b c (below par) t v -> sized (length rows) (below par) t (view v) ->
  shown rows par t x -> fits b c (below par) t (put v x) /\ holds rows t (put v x).
Proof.
  induction t as [id k ns e h cs IH] using td_rect'. intros par v x Hf Hsz Hsh.
  inversion Hf as [? ? ? ? ? ? a rest Hk Hc Hnull|? ? ? ? ? ? s vs Hs Hp Hvs]; subst.
  - inversion Hsh as [? ? ? ? ? ? vals _ Hl Hr Hfl|]; subst; [|discriminate]. cbn [view map] in Hsz.
    inversion Hsz as [? ? ? ? ? ? ? _ Hla _|]; subst; [|discriminate].
    rewrite put_eq, putVals_same by congruence. cbn [putL]. split; constructor; auto.
    + rewrite zlen_app. rewrite zlen_app. unfold zlen. lia.
    + intros -> Hb. apply Forall_app. split; [apply Hfl; [reflexivity|destruct par; [discriminate|reflexivity]]|].
      eapply Forall_tail. apply Hnull; auto.
  - inversion Hsh as [? ? ? ? ? ? ? Hk|? ? ? ? ? ? vals xs Hv Hxs]; subst; [discriminate Hk|]. cbn [view] in Hsz.
    inversion Hsz as [? ? ? ? ? ? ? Hk|? ? ? ? ? ? ? ? Hvl Hp2 Hszs]; subst; [discriminate Hk|].
    rewrite put_eq.
    assert (Hgo : Forall2 (fits b c h) (kept cs) (putL vs xs) /\ Forall2 (holds rows) (kept cs) (putL vs xs)).
    { apply kept_Forall in IH. assert (Eb : below (if h then Some id else None) = h) by (destruct h; reflexivity).
      clear - Hvs IH Hxs Hszs Eb. revert xs Hxs Hszs. induction Hvs as [|t v ts vs Hv Hvs IHv]; intros xs Hxs Hszs.
      - inversion Hxs; subst. split; constructor.
      - inversion Hxs as [|? x ? xs' Hx Hxs']; subst. inversion Hszs; subst. inversion IH as [|? ? Hc Hcs]; subst.
        cbn [putL]. specialize (Hc (if h then Some id else None) v x). rewrite Eb in Hc. destruct Hc as [E1 E2]; [assumption..|].
        destruct (IHv Hcs xs' Hxs' ltac:(assumption)) as [E3 E4]. split; constructor; auto. }
    destruct Hgo as [E1 E2]. destruct h.
    + destruct Hs as (a & rest & -> & Hc). destruct Hv as [Hl Hn]. rewrite putVals_same by congruence. split; constructor; auto.
      * eexists _, _. split; [reflexivity|]. rewrite zlen_app in *. unfold zlen in *. lia.
      * eexists _, _. auto.
    + subst s vals. split; constructor; auto.
Qed.

(** Capacity and length. *)
Lemma Cap_same c t : forall par v w, fits b c par t v -> fits b c par t w -> Cap v = Cap w.
Proof.
  induction t as [id k ns e h cs IH] using td_rect'. intros par v w Hv Hw.
  inversion Hv as [? ? ? ? ? ? a rest Hk Hc Hnull|? ? ? ? ? ? s vs Hs Hp Hvs]; subst;
  inversion Hw as [? ? ? ? ? ? a2 rest2 Hk2 Hc2 Hnull2|? ? ? ? ? ? s2 vs2 Hs2 Hp2 Hvs2]; subst; try discriminate.
  - cbn [Cap]. lia.
  - destruct h.
    + destruct Hs as (a & rest & -> & Hc), Hs2 as (a2 & rest2 & -> & Hc2). cbn [Cap]. lia.
    + subst. cbn [Cap]. apply kept_Forall in IH. destruct Hvs; inversion Hvs2; subst; [reflexivity|]. inversion IH; subst. eauto.
Qed.
Lemma Len_zero t : forall v, holds [] t v -> Len v = 0.
Proof.
  induction t as [id k ns e h cs IH] using td_rect'. intros v Hv.
  inversion Hv as [? ? ? ? ? a rest Hk Hl Hr|? ? ? ? ? s vs Hs Hvs]; subst.
  - destruct a; [reflexivity|discriminate].
  - apply kept_Forall in IH. assert (E : match vs with c :: _ => Len c = 0 | [] => True end).
    { destruct Hvs; [exact I|]. inversion IH; subst. auto. }
    destruct h; [destruct Hs as (a & rest & -> & Hl & _); destruct a; [|discriminate]|subst s]; cbn [Len]; destruct vs; auto.
Qed.
Lemma Len_holds c rows t : forall par v, fits b c par t v -> holds rows t v -> 0 < Cap v -> Len v = zlen rows.
Proof.
  destruct rows as [|r rows].
  { intros par v _ Hh _. rewrite (Len_zero _ _ Hh). reflexivity. }
  induction t as [id k ns e h cs IH] using td_rect'. intros par v Hf Hv Hc.
  inversion Hv as [? ? ? ? ? a rest Hk Hl Hr|? ? ? ? ? s vs Hs Hvs]; subst.
  - destruct a as [|x a]; [discriminate|]. cbn [Len]. unfold zlen. lia.
  - destruct h.
    + destruct Hs as (a & rest & -> & Hl & _). destruct a as [|x a]; [discriminate|]. cbn [Len]. unfold zlen. lia.
    + subst s. inversion Hf as [|? ? ? ? ? ? ? ? _ Hp Hfs]; subst. cbn [Cap Len] in *. apply kept_Forall in IH.
      destruct Hvs as [|t v ts vs Hv2 Hvs]; [lia|]. inversion IH; subst. inversion Hfs; subst. eauto.
Qed.
Lemma Clear_fits c t : forall par v, fits b c par t v -> fits b c par t (Clear v) /\ Len (Clear v) = 0.
Proof.
  induction t as [id k ns e h cs IH] using td_rect'. intros par v Hf.
  inversion Hf as [? ? ? ? ? ? a rest Hk Hc Hnull|? ? ? ? ? ? s vs Hs Hp Hvs]; subst.
  - cbn [Clear clearVals map Len]. split; [constructor; auto|reflexivity].
  - assert (Hgo : Forall2 (fits b c h) (kept cs) (map Clear vs) /\ match map Clear vs with v :: _ => Len v = 0 | [] => True end).
    { apply kept_Forall in IH. clear - Hvs IH. induction Hvs as [|t v ts vs Hv Hvs IHv]; [split; [constructor|exact I]|].
      inversion IH as [|? ? Hc Hcs]; subst. destruct (Hc h v Hv) as [E1 E2]. cbn [map]. split; [constructor; [exact E1|apply IHv; exact Hcs]|exact E2]. }
    destruct Hgo as [E1 E2]. cbn [Clear]. destruct h.
    + destruct Hs as (a & rest & -> & Hc). cbn [clearVals]. split; [constructor; auto; eexists _, _; split; [reflexivity|]; exact Hc|].
      cbn [Len]. destruct (map Clear vs); auto.
    + subst s. cbn [clearVals]. split; [constructor; auto|]. cbn [Len]. destruct (map Clear vs); auto.
Qed.
Lemma Clear_Cap v : Cap (Clear v) = Cap v.
Proof.
  revert v. fix IH 1. intros [i k s cs]. cbn [Clear Cap]. destruct s as [[x y]|]; cbn [clearVals Cap]; [reflexivity|].
  destruct cs as [|c cs]; [reflexivity|]. cbn [map Cap]. apply IH.
Qed.

(** ** A batch from a stripe *)
Lemma batch_step c rows t : forall tr v n, IsInclude b (td_id t) = true -> flagged t ->
  fits b c false t v -> gives rows None t tr -> 0 <= n <= c -> n <= zlen rows -> onceEach rows None t ->
  exists v1 x tr', setVectorSize hn n v = Ok v1 /\ tree_NextBatch inflate o tr (view v1) = Ok (x, tr') /\
    gives (zdrop n rows) None t tr' /\ fits b c false t (put v1 x) /\ holds (ztake n rows) t (put v1 x).
Proof.
  intros tr v n Hi Hfl Hf Hg Hn Hr Hon. destruct (resize c n t false v Hf Hn Hfl) as (v1 & H1 & H2 & H3).
  destruct (tree_next (Z.to_nat n) t None None rows tr (view v1) Hi (sized_ready _ _ _ H3) Hg) as (x & tr' & H4 & H5 & H6).
  - unfold zlen in Hr. lia.
  - exact Hon.
  - exact I.
  - reflexivity.
  - exists v1, x, tr'. split; [exact H1|]. split; [exact H4|]. split; [exact H5|].
    apply (put_holds c (ztake n rows) t None); [exact H2| |exact H6].
    replace (length (ztake n rows)) with (Z.to_nat n); [exact H3|]. unfold ztake. rewrite firstn_length. unfold zlen in Hr. lia.
Qed.
End Batch.
