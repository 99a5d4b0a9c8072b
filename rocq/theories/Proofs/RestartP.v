(** Going back to the first row: readers that start over give the rows they gave before. *)
From Coq Require Import ZifyBool ZifyNat.
From Verif.Model Require Import Go Codec ByteBool IntRle Chunk Stream Schema Rows Time File Column Nested Tree.
From Verif.Spec Require Import BoolSpec Session StreamSpec ChunkSpec IntSpec ColumnSpec SeekSpec SchemaSpec FileSpec RowsSpec EndSpec OrcColumn.
From Verif.Proofs Require Import Base SchemaP CodecP SessionP ByteBoolP StreamP ReadP TimeP ChunkP ColumnP ColumnReadP ColumnFaultsP SeekP SkipP TreeP LeafP BatchP OrcColumnP.

Lemma Yields_sim {ST A} (next : ST -> res (A * ST)) (R : ST -> ST -> Prop) :
  (forall s s' a t, R s s' -> next s = Ok (a, t) -> exists t', next s' = Ok (a, t') /\ R t t') ->
  forall xs s s', Yields next s xs -> R s s' -> Yields next s' xs.
Proof.
  intros H xs. induction xs as [|x t IH]; intros s s' Hy Hr; [constructor|]. inversion Hy as [|? ? s1 ? H1 H2]; subst.
  destruct (H _ _ _ _ Hr H1) as (s1' & E & Hr1). econstructor; [exact E|]. eapply IH; eassumption.
Qed.
Definition orel {A} (R : A -> A -> Prop) (a b : option A) : Prop :=
  match a, b with Some x, Some y => R x y | None, None => True | _, _ => False end.

Section Restart.
Variable inflate : list Z -> res (list Z).
Variable o : opts.
Notation serves := (serves inflate o).

(** ** Readers with the same bytes ahead *)
Definition alike (r r' : reader) : Prop := exists bs, serves r bs /\ serves r' bs.
Definition alikeV {A} (v v' : vreader A) : Prop := v_vals v' = v_vals v /\ alike (v_s v) (v_s v').
Definition alikeB (b b' : boolReader) : Prop := bl_vals b' = bl_vals b /\ alikeV (bl_r b) (bl_r b').
Definition alikeD (d d' : sreader) : Prop :=
  match d, d' with RRun v, RRun v' => alikeV v v' | RBool b, RBool b' => alikeB b b' | RRaw r, RRaw r' => alike r r' | _, _ => False end.
Record alikeC (c c' : colR) : Prop := {
  alike_kind : cr_kind c' = cr_kind c;
  alike_present : orel alikeB (cr_present c) (cr_present c');
  alike_data : orel alikeD (cr_data c) (cr_data c');
  alike_second : hasSecond (cr_kind c) = true -> orel alikeV (cr_second c) (cr_second c') }.

Lemma alike_run {A} (p : prog A) r r' a s : alike r r' -> r_run inflate o p r = Ok (a, s) ->
  exists s', r_run inflate o p r' = Ok (a, s') /\ alike s s'.
Proof.
  intros (bs & H & H') E. pose proof (H A p) as Hp. destruct (run p bs) as [[a0 rest]| |] eqn:Er; [|congruence..].
  destruct (serves_step inflate o p r bs a0 rest H Er) as (r1 & E1 & S1). destruct (serves_step inflate o p r' bs a0 rest H' Er) as (r1' & E1' & S1').
  assert (a0 = a) as -> by congruence. assert (r1 = s) as -> by congruence. exists r1'. split; [exact E1'|]. exists rest. auto.
Qed.
Lemma alike_v {A} (dec : prog (list A)) v v' x w : alikeV v v' -> v_Next inflate o dec v = Ok (x, w) ->
  exists w', v_Next inflate o dec v' = Ok (x, w') /\ alikeV w w'.
Proof.
  intros [Hv Hs] H. unfold v_Next in *. rewrite Hv. destruct (v_vals v) as [|y t].
  - apply rbind_inv in H. destruct H as ([xs s] & E & H). destruct (alike_run _ _ _ _ _ Hs E) as (s' & -> & Hs'). cbn [rbind].
    destruct xs as [|y t]; [discriminate|]. assert (y = x) as -> by congruence. assert (w = {| v_s := s; v_vals := t |}) as -> by congruence.
    eexists. split; [reflexivity|]. split; [reflexivity|exact Hs'].
  - assert (y = x) as -> by congruence. assert (w = {| v_s := v_s v; v_vals := t |}) as -> by congruence.
    eexists. split; [reflexivity|]. split; [reflexivity|exact Hs].
Qed.
Lemma alike_b b b' x w : alikeB b b' -> bool_Next inflate o b = Ok (x, w) ->
  exists w', bool_Next inflate o b' = Ok (x, w') /\ alikeB w w'.
Proof.
  intros [Hv Hs] H. unfold bool_Next in *. rewrite Hv. destruct (bl_vals b) as [|y t].
  - apply rbind_inv in H. destruct H as ([z s] & E & H). destruct (alike_v _ _ _ _ _ Hs E) as (s' & -> & Hs'). cbn [rbind].
    destruct (DecodeBoolsFromByte z) as [|y t]; [discriminate|]. assert (y = x) as -> by congruence. assert (w = {| bl_r := s; bl_vals := t |}) as -> by congruence.
    eexists. split; [reflexivity|]. split; [reflexivity|exact Hs'].
  - assert (y = x) as -> by congruence. assert (w = {| bl_r := bl_r b; bl_vals := t |}) as -> by congruence.
    eexists. split; [reflexivity|]. split; [reflexivity|exact Hs].
Qed.
Lemma alike_nextRun dec d d' x w : orel alikeD d d' -> nextRun inflate o dec d = Ok (x, w) ->
  exists w', nextRun inflate o dec d' = Ok (x, w') /\ alikeD w w'.
Proof.
  unfold nextRun. destruct d as [[v|b|r]|]; try discriminate. destruct d' as [[v'|b'|r']|]; cbn; try contradiction. intros Ha H.
  apply rbind_inv in H. destruct H as ([y u] & E & H). destruct (alike_v _ _ _ _ _ Ha E) as (u' & -> & Hu). cbn [rbind].
  assert (y = x) as -> by congruence. assert (w = RRun u) as -> by congruence. eexists. split; [reflexivity|]. exact Hu.
Qed.
Lemma alike_nextBool d d' x w : orel alikeD d d' -> nextBool inflate o d = Ok (x, w) ->
  exists w', nextBool inflate o d' = Ok (x, w') /\ alikeD w w'.
Proof.
  unfold nextBool. destruct d as [[v|b|r]|]; try discriminate. destruct d' as [[v'|b'|r']|]; cbn; try contradiction. intros Ha H.
  apply rbind_inv in H. destruct H as ([y u] & E & H). destruct (alike_b _ _ _ _ Ha E) as (u' & -> & Hu). cbn [rbind].
  assert (y = x) as -> by congruence. assert (w = RBool u) as -> by congruence. eexists. split; [reflexivity|]. exact Hu.
Qed.
Lemma alike_nextRaw {A} (p : prog A) d d' x w : orel alikeD d d' -> nextRaw inflate o p d = Ok (x, w) ->
  exists w', nextRaw inflate o p d' = Ok (x, w') /\ alikeD w w'.
Proof.
  unfold nextRaw. destruct d as [[v|b|r]|]; try discriminate. destruct d' as [[v'|b'|r']|]; cbn; try contradiction. intros Ha H.
  apply rbind_inv in H. destruct H as ([y u] & E & H). destruct (alike_run _ _ _ _ _ Ha E) as (u' & -> & Hu). cbn [rbind].
  assert (y = x) as -> by congruence. assert (w = RRaw u) as -> by congruence. eexists. split; [reflexivity|]. exact Hu.
Qed.
Lemma alike_nextSecond dec d d' x w : orel alikeV d d' -> nextSecond inflate o dec d = Ok (x, w) ->
  exists w', nextSecond inflate o dec d' = Ok (x, w') /\ alikeV w w'.
Proof. unfold nextSecond. destruct d as [v|]; [|discriminate]. destruct d' as [v'|]; cbn; [|contradiction]. apply alike_v. Qed.

Lemma alike_setData c c' d d' : alikeC c c' -> alikeD d d' -> alikeC (setData d c) (setData d' c').
Proof. intros [] Hd. constructor; cbn; auto. Qed.
Lemma alike_setSecond c c' v v' : alikeC c c' -> alikeV v v' -> alikeC (setSecond v c) (setSecond v' c').
Proof. intros [] Hd. constructor; cbn; auto. Qed.
Lemma alike_setPresent c c' b b' : alikeC c c' -> alikeB b b' -> alikeC (setPresent b c) (setPresent b' c').
Proof. intros [] Hd. constructor; cbn; auto. Qed.

Lemma alike_nextValue c c' old g w : alikeC c c' -> nextValue inflate o c old = Ok (g, w) ->
  exists w', nextValue inflate o c' old = Ok (g, w') /\ alikeC w w'.
Proof.
  intros Hc H. pose proof (alike_kind _ _ Hc) as Hk. pose proof (alike_data _ _ Hc) as Hd. pose proof (alike_second _ _ Hc) as Hs.
  unfold nextValue in *. rewrite Hk. destruct (cr_kind c) eqn:Ek; try discriminate; cbn [hasSecond] in Hs.
  1-7, 10: apply rbind_inv in H; destruct H as ([x d] & E & H);
    first [destruct (alike_nextRun _ _ _ _ _ Hd E) as (d' & -> & Hd')|destruct (alike_nextRaw _ _ _ _ _ Hd E) as (d' & -> & Hd')|destruct (alike_nextBool _ _ _ _ Hd E) as (d' & -> & Hd')];
    cbn [rbind]; match type of H with Ok (?y, ?z) = _ => assert (g = y) as -> by congruence; assert (w = z) as -> by congruence end;
    eexists; (split; [reflexivity|]); apply alike_setData; assumption.
  1-2: specialize (Hs eq_refl); apply rbind_inv in H; destruct H as ([x s] & E & H); apply rbind_inv in H; destruct H as ([y d] & E1 & H);
    destruct (alike_nextSecond _ _ _ _ _ Hs E) as (s' & -> & Hs'); cbn [rbind];
    destruct (alike_nextRaw _ _ _ _ _ Hd E1) as (d' & -> & Hd'); cbn [rbind];
    match type of H with Ok (?y, ?z) = _ => assert (g = y) as -> by congruence; assert (w = z) as -> by congruence end;
    eexists; (split; [reflexivity|]); apply alike_setData; [apply alike_setSecond; assumption|assumption].
  all: specialize (Hs eq_refl); apply rbind_inv in H; destruct H as ([x d] & E & H); apply rbind_inv in H; destruct H as ([y s] & E1 & H);
    first [destruct (alike_nextRun _ _ _ _ _ Hd E) as (d' & -> & Hd')|destruct (alike_nextRaw _ _ _ _ _ Hd E) as (d' & -> & Hd')]; cbn [rbind];
    destruct (alike_nextSecond _ _ _ _ _ Hs E1) as (s' & -> & Hs'); cbn [rbind];
    destruct old; try discriminate;
    match type of H with Ok (?y, ?z) = _ => assert (g = y) as -> by congruence; assert (w = z) as -> by congruence end;
    eexists; (split; [reflexivity|]); apply alike_setSecond; [apply alike_setData; assumption|assumption].
Qed.
Lemma alike_nextRow c c' old x w : alikeC c c' -> nextRow inflate o c old = Ok (x, w) ->
  exists w', nextRow inflate o c' old = Ok (x, w') /\ alikeC w w'.
Proof.
  intros Hc H. unfold nextRow in *. apply rbind_inv in H. destruct H as ([n c1] & E & H).
  assert (E' : exists c1', nextPresent inflate o c' (Null old) = Ok (n, c1') /\ alikeC c1 c1').
  { pose proof (alike_present _ _ Hc) as Hp. unfold nextPresent in *. destruct (cr_present c) as [b|]; destruct (cr_present c') as [b'|]; cbn in Hp; try contradiction.
    - apply rbind_inv in E. destruct E as ([p b1] & Eb & E). destruct (alike_b _ _ _ _ Hp Eb) as (b1' & -> & Hb). cbn [rbind].
      assert (n = negb p) as -> by congruence. assert (c1 = setPresent b1 c) as -> by congruence. eexists. split; [reflexivity|]. apply alike_setPresent; assumption.
    - assert (n = Null old) as -> by congruence. assert (c1 = c) as -> by congruence. eauto. }
  destruct E' as (c1' & -> & Hc1). cbn [rbind]. destruct n.
  - assert (x = {| Null := true; V := V old |}) as -> by congruence. assert (w = c1) as -> by congruence. eauto.
  - apply rbind_inv in H. destruct H as ([g c2] & E2 & H). destruct (alike_nextValue _ _ _ _ _ Hc1 E2) as (c2' & -> & Hc2). cbn [rbind].
    assert (x = {| Null := false; V := g |}) as -> by congruence. assert (w = c2) as -> by congruence. eauto.
Qed.
Lemma alike_rowNext c c' x w : alikeC c c' -> rowNext inflate o c = Ok (x, w) -> exists w', rowNext inflate o c' = Ok (x, w') /\ alikeC w w'.
Proof.
  intros Hc H. unfold rowNext in *. apply rbind_inv in H. destruct H as ([v c1] & E & H).
  destruct (alike_nextRow _ _ _ _ _ Hc E) as (c1' & -> & Hc1). cbn [rbind]. assert (x = row_of v) as -> by congruence. assert (w = c1) as -> by congruence. eauto.
Qed.
Lemma orel_none {A} (R : A -> A -> Prop) a b : orel R a b -> (b = None <-> a = None).
Proof. destruct a, b; cbn; try contradiction; intros _; split; congruence. Qed.
Lemma colAt_alike h col c c' : colAt inflate o h col c -> alikeC c c' -> colAt inflate o h col c'.
Proof.
  intros H Hc. pose proof (orel_none _ _ _ (alike_present _ _ Hc)) as Hn. unfold colAt in *. destruct h; destruct H as [Hp Hy].
  - split; [tauto|]. eapply Yields_sim; [|exact Hy|exact Hc]. intros; eapply alike_rowNext; eassumption.
  - split; [tauto|]. eapply (Yields_sim _ alikeC); [|exact Hy|exact Hc]. cbv beta. intros; eapply alike_nextValue; eassumption.
Qed.

(** ** Trees *)
Definition alikeDict (d d' : dictR) : Prop :=
  orel alikeB (dr_present d) (dr_present d') /\ orel alikeV (dr_data d) (dr_data d') /\
  (forall ss, DictHas inflate o ss d -> DictHas inflate o ss d').
Inductive alikeT : ctree -> ctree -> Prop :=
| ALeaf c c' : alikeC c c' -> alikeT (CLeaf c) (CLeaf c')
| ADict d d' : alikeDict d d' -> alikeT (CDict d) (CDict d')
| AStruct p p' i ks ks' : orel alikeB p p' -> Forall2 alikeT ks ks' -> alikeT (CStruct p i ks) (CStruct p' i ks').

Definition unbin (c : colR) : colR :=
  {| cr_kind := KString; cr_hasNulls := cr_hasNulls c; cr_present := cr_present c; cr_data := cr_data c; cr_second := cr_second c; cr_index := cr_index c |}.
Lemma bin_unbin c : cr_kind c = KBinary -> bin (unbin c) = c.
Proof. destruct c. cbn. intros ->. reflexivity. Qed.
Lemma LeafAt_alike h col tr tr' : LeafAt inflate o h col tr -> alikeT tr tr' -> LeafAt inflate o h col tr'.
Proof.
  intros H Ha. inversion H as [c Hl Hc|c Hk Hb Hc|ss d Hd Hn]; subst; inversion Ha as [? c' HC|? d' HD|]; subst.
  - apply LCol; [rewrite (alike_kind _ _ HC); exact Hl|]. eapply colAt_alike; eassumption.
  - destruct HC as [HC1 HC2 HC3 HC4]. cbn [bin cr_kind cr_present cr_data cr_second hasSecond] in *.
    rewrite <- (bin_unbin c' HC1).
    apply LBin; [reflexivity|exact Hb|]. eapply colAt_alike; [exact Hc|]. constructor; cbn; [congruence|exact HC2|exact HC3|auto].
  - destruct HD as (H1 & H2 & H3). destruct Hd as [Hh [Hp (v & idx & Hv & Hy & Hi & Hm)]]. apply (LDict _ _ _ _ ss).
    + split; [apply H3; exact Hh|]. split.
      * destruct (dr_present d) as [b|]; destruct (dr_present d') as [b'|]; cbn in H1; try contradiction; [|exact I].
        eapply Yields_sim; [|exact Hp|exact H1]. intros; eapply alike_b; eassumption.
      * rewrite Hv in H2. destruct (dr_data d') as [v'|]; [|contradiction]. exists v', idx. split; [reflexivity|]. split; [|auto].
        eapply Yields_sim; [|exact Hy|exact H2]. intros; eapply alike_v; eassumption.
    + rewrite (orel_none _ _ _ H1). exact Hn.
Qed.
Lemma gives_alike b rows t : forall par tr tr', gives inflate o b rows par t tr -> alikeT tr tr' -> gives inflate o b rows par t tr'.
Proof.
  induction t as [id k ns e h cs IH] using td_rect'. intros par tr tr' H Ha.
  inversion H as [? ? ? ? ? ? tr0 Hk Hlf Hm|? ? ? ? ? ? present index kids Hpres Hkids]; subst.
  - constructor; auto. eapply LeafAt_alike; eassumption.
  - inversion Ha as [| |? p' ? ? ks' Hp Hks]; subst. constructor.
    + destruct h; [|subst present; destruct p'; [contradiction|reflexivity]]. destruct Hpres as (p & -> & Hy). destruct p' as [p'|]; [|contradiction].
      exists p'. split; [reflexivity|]. eapply Yields_sim; [|exact Hy|exact Hp]. intros; eapply alike_b; eassumption.
    + apply (kept_Forall b) in IH. clear - IH Hkids Hks. revert ks' Hks. induction Hkids as [|t tr ts trs Ht Hts IHk]; intros ks' Hks; inversion Hks; subst; [constructor|].
      inversion IH; subst. constructor; eauto.
Qed.

(** ** What stays in place *)
Definition SameD (d d' : dictR) : Prop :=
  option_map bbase (dr_present d') = option_map bbase (dr_present d) /\
  option_map vbase (dr_data d') = option_map vbase (dr_data d) /\
  (forall ss, DictHas inflate o ss d -> DictHas inflate o ss d').
(** Nothing is said about lists and maps. *)
Inductive SameT : ctree -> ctree -> Prop :=
| SLeaf c c' : Same c c' -> SameT (CLeaf c) (CLeaf c')
| SDict d d' : SameD d d' -> SameT (CDict d) (CDict d')
| SStruct p p' i ks ks' : option_map bbase p' = option_map bbase p -> Forall2 SameT ks ks' -> SameT (CStruct p i ks) (CStruct p' i ks')
| SList r i c r' i' c' : SameT (CList r i c) (CList r' i' c')
| SMap r i k w r' i' k' w' : SameT (CMap r i k w) (CMap r' i' k' w').
Lemma SameD_refl d : SameD d d. Proof. repeat split; auto. Qed.
Lemma SameD_trans a b c : SameD a b -> SameD b c -> SameD a c.
Proof. intros (A1 & A2 & A3) (B1 & B2 & B3). split; [congruence|]. split; [congruence|auto]. Qed.
Lemma SameT_refl t : SameT t t.
Proof.
  induction t as [c|d|p i ks IH|r i c IH|r i k w IH1 IH2] using ctree_ind'; constructor.
  - apply Same_refl.
  - apply SameD_refl.
  - reflexivity.
  - induction IH; constructor; auto.
Qed.
Lemma SameT_trans a : forall b c, SameT a b -> SameT b c -> SameT a c.
Proof.
  induction a as [c|d|p i ks IH|r i c IH|r i k w IH1 IH2] using ctree_ind'; intros b0 c0 H1 H2; inversion H1; subst; inversion H2; subst; constructor.
  - eapply Same_trans; eassumption.
  - eapply SameD_trans; eassumption.
  - congruence.
  - match goal with A : Forall2 SameT ks ?m, B : Forall2 SameT ?m ?n |- _ => rename A into F1; rename B into F2; clear - IH F1 F2; rename m into mm, n into nn end.
    revert nn F2. induction F1; intros nn F2; inversion F2; subst; [constructor|]. inversion IH; subst. constructor; eauto.
Qed.

Lemma readNulls_base vec : forall b out b', readNulls inflate o b vec = Ok (out, b') -> bbase b' = bbase b.
Proof.
  induction vec as [|v t IH]; intros b out b' H; cbn [readNulls] in H; [assert (b' = b) as -> by congruence; reflexivity|].
  apply rbind_inv in H. destruct H as ([p b1] & H1 & H). apply rbind_inv in H. destruct H as ([xs b2] & H2 & H).
  assert (b' = b2) as -> by congruence. rewrite (IH _ _ _ H2). eapply bool_Next_base. exact H1.
Qed.
Lemma nextSecond_same dec d x v : nextSecond inflate o dec d = Ok (x, v) -> option_map vbase d = Some (vbase v).
Proof. unfold nextSecond. destruct d as [w|]; [|discriminate]. intros H. cbn. f_equal. symmetry. eapply v_Next_base. exact H. Qed.
Lemma dictPresent_base (p : option boolReader) n0 n p1 :
  (match p with Some b => let! (x, b') := bool_Next inflate o b in Ok (negb x, Some b') | None => Ok (n0, None) end) = Ok (n, p1) ->
  option_map bbase p1 = option_map bbase p.
Proof.
  destruct p as [b|]; intros H; [|assert (p1 = None) as -> by congruence; reflexivity]. apply rbind_inv in H. destruct H as ([x b'] & Hb & H).
  assert (p1 = Some b') as -> by congruence. cbn. f_equal. eapply bool_Next_base. exact Hb.
Qed.
Lemma dictRows_base ss vec : forall p d out p' d', dictRows inflate o ss p d vec = Ok (out, p', d') ->
  option_map bbase p' = option_map bbase p /\ option_map vbase d' = option_map vbase d.
Proof.
  induction vec as [|v t IH]; intros p d out p' d' H; cbn [dictRows] in H.
  - assert (p' = p) as -> by congruence. assert (d' = d) as -> by congruence. auto.
  - apply rbind_inv in H. destruct H as ([nl p1] & H1 & H). apply dictPresent_base in H1. destruct nl.
    + apply rbind_inv in H. destruct H as ([[xs p2] d2] & H2 & H). apply IH in H2. destruct H2 as [A B].
      assert (p' = p2) as -> by congruence. assert (d' = d2) as -> by congruence. split; congruence.
    + apply rbind_inv in H. destruct H as ([i d1] & Hd & H). apply nextSecond_same in Hd.
      destruct (if i <? zlen ss then _ else None) as [s|]; [|discriminate].
      apply rbind_inv in H. destruct H as ([[xs p2] d2] & H2 & H). apply IH in H2. destruct H2 as [A B].
      assert (p' = p2) as -> by congruence. assert (d' = d2) as -> by congruence. cbn [option_map] in B. split; congruence.
Qed.
Lemma loadDict_keeps d d1 : loadDict inflate o d = Ok d1 -> dr_present d1 = dr_present d /\ dr_data d1 = dr_data d /\ dr_loaded d1 = true.
Proof.
  unfold loadDict. destruct (dr_loaded d) eqn:E; [intros H; assert (d1 = d) as -> by congruence; auto|].
  destruct (dr_length d) as [l|]; [|discriminate]. intros H. apply rbind_inv in H. destruct H as ([[l' c] ss] & _ & H).
  destruct (v_Finished l'); [|discriminate]. match type of H with Ok ?x = _ => assert (d1 = x) as -> by congruence end. cbn. auto.
Qed.
Lemma dict_NextBatch_same d vec out d' : dict_NextBatch inflate o d vec = Ok (out, d') -> SameD d d'.
Proof.
  unfold dict_NextBatch. intros H. apply rbind_inv in H. destruct H as (d1 & H1 & H). apply rbind_inv in H. destruct H as ([[xs p] q] & H2 & H).
  assert (d' = dict_at p q d1) as -> by congruence. destruct (loadDict_keeps _ _ H1) as (A & B & C). apply dictRows_base in H2. rewrite A, B in H2.
  split; [apply H2|]. split; [apply H2|]. intros ss Hh. destruct (dict_load inflate o ss d Hh) as (l & w & E).
  unfold DictHas. cbn [dict_at dr_loaded dr_strings]. rewrite C. assert (d1 = if dr_loaded d then d else dict_loaded ss (dict_words w l d)) as -> by congruence.
  unfold DictHas in Hh. destruct (dr_loaded d); [exact Hh|reflexivity].
Qed.
Lemma dict_Skip1_same d d' : dict_Skip1 inflate o d = Ok d' -> SameD d d'.
Proof.
  unfold dict_Skip1. intros H. apply rbind_inv in H. destruct H as ([nl p] & H1 & H). apply dictPresent_base in H1. destruct nl.
  - assert (d' = dict_at p (dr_data d) d) as -> by congruence. split; [exact H1|]. split; [reflexivity|]. intros ss Hh. exact Hh.
  - apply rbind_inv in H. destruct H as ([i v] & H2 & H). apply nextSecond_same in H2. assert (d' = dict_at p (Some v) d) as -> by congruence.
    split; [exact H1|]. split; [symmetry; exact H2|]. intros ss Hh. exact Hh.
Qed.
Lemma dict_seekTo_same pp dp d d' : dict_seekTo inflate o pp dp d = Ok d' -> SameD d d'.
Proof.
  unfold dict_seekTo. intros H. apply rbind_inv in H. destruct H as (p & H1 & H). destruct (dr_data d) as [v|] eqn:Ev; [|discriminate].
  apply rbind_inv in H. destruct H as (v' & H2 & H). assert (d' = dict_at p (Some v') d) as -> by congruence.
  split; [|split; [rewrite Ev; cbn; f_equal; eapply seekRun_base; exact H2|intros ss Hh; exact Hh]]. cbn.
  destruct (dr_present d) as [b|]; [|assert (p = None) as -> by congruence; reflexivity].
  apply rbind_inv in H1. destruct H1 as (b' & H1 & Hp). assert (p = Some b') as -> by congruence. cbn. f_equal. eapply seekBool_base. exact H1.
Qed.
Lemma dict_SeekStride_same stride d d' : dict_SeekStride inflate o stride d = Ok d' -> SameD d d'.
Proof.
  unfold dict_SeekStride. destruct (stride =? 0); [apply dict_seekTo_same|]. intros H. apply rbind_inv in H. destruct H as (l & _ & H).
  apply rbind_inv in H. destruct H as (pp & _ & H). apply rbind_inv in H. destruct H as (dp & _ & H). eapply dict_seekTo_same. exact H.
Qed.
Lemma nextF_same fuel : forall t v v' t', nextF inflate o fuel t v = Ok (v', t') -> SameT t t'.
Proof.
  induction fuel as [|f IH]; intros t v v' t' H; cbn [nextF] in H; [discriminate|]. destruct t as [c|d|present index kids|r i c|r i k w]; cbn [nextStep] in H.
  - destruct v as [vals cs]. apply rbind_inv in H. destruct H as ([x c'] & H1 & H). assert (t' = CLeaf c') as -> by congruence. constructor. eapply NextBatch_base. exact H1.
  - destruct v as [vals cs]. apply rbind_inv in H. destruct H as ([x c'] & H1 & H). assert (t' = CDict c') as -> by congruence. constructor. eapply dict_NextBatch_same. exact H1.
  - destruct v as [vals cs]. apply rbind_inv in H. destruct H as ([[vals' cs'] p'] & H1 & H). apply rbind_inv in H. destruct H as ([cs2 kids'] & H2 & H).
    assert (t' = CStruct p' index kids') as -> by congruence. constructor.
    + destruct present as [b|]; [|assert (p' = None) as -> by congruence; reflexivity]. apply rbind_inv in H1. destruct H1 as ([u b'] & Hb & H1).
      apply rbind_inv in H1. destruct H1 as (u2 & _ & H1). assert (p' = Some b') as -> by congruence. cbn. f_equal. eapply readNulls_base. exact Hb.
    + clear - IH H2. revert cs' cs2 kids' H2. induction kids as [|k r IHk]; intros cs' cs2 kids' H2; cbn [nextKids] in H2.
      * assert (kids' = []) as -> by congruence. constructor.
      * destruct cs' as [|v vs]; [discriminate|]. apply rbind_inv in H2. destruct H2 as ([v1 t1] & E1 & H2). apply rbind_inv in H2. destruct H2 as ([v2 t2] & E2 & H2).
        assert (kids' = t1 :: t2) as -> by congruence. constructor; [eapply IH; exact E1|eapply IHk; exact E2].
  - apply rbind_inv in H. destruct H as ([x [r' c']] & _ & H). assert (t' = CList r' i c') as -> by congruence. constructor.
  - apply rbind_inv in H. destruct H as ([x [[r' k'] w']] & _ & H). assert (t' = CMap r' i k' w') as -> by congruence. constructor.
Qed.
Lemma tree_NextBatch_same t v v' t' : tree_NextBatch inflate o t v = Ok (v', t') -> SameT t t'. Proof. apply nextF_same. Qed.
Lemma skipF_same fuel : forall t t', skipF inflate o fuel t = Ok t' -> SameT t t'.
Proof.
  induction fuel as [|f IH]; intros t t' H; cbn [skipF] in H; [discriminate|]. destruct t as [c|d|present index kids|r i c|r i k w]; cbn [skipStep] in H.
  - apply rbind_inv in H. destruct H as (c' & H1 & H). assert (t' = CLeaf c') as -> by congruence. constructor. eapply skipRows_base. exact H1.
  - apply rbind_inv in H. destruct H as (c' & H1 & H). assert (t' = CDict c') as -> by congruence. constructor. eapply dict_Skip1_same. exact H1.
  - apply rbind_inv in H. destruct H as ([q p'] & H1 & H). apply rbind_inv in H. destruct H as (kids' & H2 & H).
    assert (t' = CStruct p' index kids') as -> by congruence. constructor.
    + destruct present as [b|]; [|assert (p' = None) as -> by congruence; reflexivity]. apply rbind_inv in H1. destruct H1 as ([u b'] & Hb & H1).
      assert (p' = Some b') as -> by congruence. cbn. f_equal. eapply bool_Next_base. exact Hb.
    + destruct q; [|assert (kids' = kids) as -> by congruence; clear; induction kids; constructor; [apply SameT_refl|assumption]].
      clear - IH H2. revert kids' H2. induction kids as [|k r IHk]; intros kids' H2; cbn [skipKids] in H2.
      * assert (kids' = []) as -> by congruence. constructor.
      * apply rbind_inv in H2. destruct H2 as (t1 & E1 & H2). apply rbind_inv in H2. destruct H2 as (t2 & E2 & H2).
        assert (kids' = t1 :: t2) as -> by congruence. constructor; [eapply IH; exact E1|eapply IHk; exact E2].
  - apply rbind_inv in H. destruct H as ([r' c'] & _ & H). assert (t' = CList r' i c') as -> by congruence. constructor.
  - apply rbind_inv in H. destruct H as ([[r' k'] w'] & _ & H). assert (t' = CMap r' i k' w') as -> by congruence. constructor.
Qed.
Lemma tree_Skip1_same t t' : tree_Skip1 inflate o t = Ok t' -> SameT t t'. Proof. apply skipF_same. Qed.
Lemma treeSkip_same n : forall t t', treeSkip inflate o n t = Ok t' -> SameT t t'.
Proof.
  unfold treeSkip. induction n as [|n IH]; intros t t' H; cbn [times] in H; [assert (t' = t) as -> by congruence; apply SameT_refl|].
  apply rbind_inv in H. destruct H as (t1 & H1 & H). eapply SameT_trans; [eapply tree_Skip1_same; exact H1|eapply IH; exact H].
Qed.
Lemma tree_SeekStride_same stride t : forall t', tree_SeekStride inflate o stride t = Ok t' -> SameT t t'.
Proof.
  induction t as [c|d|p i ks IH|r i c IH|r i k w IH1 IH2] using ctree_ind'; intros t' H; cbn [tree_SeekStride] in H.
  - apply rbind_inv in H. destruct H as (c' & H1 & H). assert (t' = CLeaf c') as -> by congruence. constructor. eapply SeekStride_same. exact H1.
  - apply rbind_inv in H. destruct H as (c' & H1 & H). assert (t' = CDict c') as -> by congruence. constructor. eapply dict_SeekStride_same. exact H1.
  - apply rbind_inv in H. destruct H as (p' & H1 & H). apply rbind_inv in H. destruct H as (ks' & H2 & H). assert (t' = CStruct p' i ks') as -> by congruence. constructor.
    + destruct p as [b|]; [|assert (p' = None) as -> by congruence; reflexivity]. apply rbind_inv in H1. destruct H1 as (l & _ & H1).
      apply rbind_inv in H1. destruct H1 as (b' & H3 & H1). assert (p' = Some b') as -> by congruence. cbn. f_equal. eapply seekBool_base. exact H3.
    + clear H H1. revert ks' H2. induction IH as [|t ts Ht Hts IHts]; intros ks' H2.
      * assert (ks' = []) as -> by congruence. constructor.
      * apply rbind_inv in H2. destruct H2 as (t1 & E1 & H2). apply rbind_inv in H2. destruct H2 as (t2 & E2 & H2).
        assert (ks' = t1 :: t2) as -> by congruence. constructor; [apply Ht; exact E1|apply IHts; exact E2].
  - apply rbind_inv in H. destruct H as (r' & _ & H). apply rbind_inv in H. destruct H as (c' & _ & H). assert (t' = CList r' i c') as -> by congruence. constructor.
  - apply rbind_inv in H. destruct H as (r' & _ & H). apply rbind_inv in H. destruct H as (c' & _ & H). apply rbind_inv in H. destruct H as (w' & _ & H).
    assert (t' = CMap r' i c' w') as -> by congruence. constructor.
Qed.

(** ** Starting over *)
Definition rewinds (r : reader) : Prop :=
  exists bs, serves r bs /\ forall r', rbase r' = rbase r -> exists r1, r_seek inflate o 0 0 r' = Ok r1 /\ serves r1 bs.
Definition newBool (b : boolReader) : Prop := exists r, b = newBoolReader r /\ rewinds r.
Definition newRun (v : vreader Z) : Prop := exists r, v = newVreader r /\ rewinds r.
Definition onSome {A} (P : A -> Prop) (x : option A) : Prop := match x with Some y => P y | None => True end.
Record goodC (c : colR) : Prop := {
  good_kind : cr_kind c <> KDate;
  good_present : onSome newBool (cr_present c);
  good_data : exists r, dataReader (cr_kind c) r <> None /\ cr_data c = dataReader (cr_kind c) r /\ rewinds r;
  good_second : hasSecond (cr_kind c) = true -> exists v, cr_second c = Some v /\ newRun v }.
Definition goodDict (d : dictR) : Prop := onSome newBool (dr_present d) /\ exists v, dr_data d = Some v /\ newRun v.
Inductive goodT : ctree -> Prop :=
| GLeaf c : goodC c -> goodT (CLeaf c)
| GDict d : goodDict d -> goodT (CDict d)
| GStruct p i ks : onSome newBool p -> Forall goodT ks -> goodT (CStruct p i ks).

Lemma rewind_run dec v0 v : newRun v0 -> vbase v = vbase v0 -> exists v1, seekRun inflate o dec [0; 0; 0] v = Ok v1 /\ alikeV v0 v1.
Proof.
  intros (r & -> & bs & Hs & Hr) Hv. destruct (Hr (v_s v) Hv) as (r1 & E & S1). cbn [seekRun]. unfold v_Seek. rewrite E. cbn [rbind].
  change (Z.to_nat (i64 0)) with O. cbn [v_skip]. eexists. split; [reflexivity|]. split; [reflexivity|]. exists bs. auto.
Qed.
Lemma rewind_bool b0 b : newBool b0 -> bbase b = bbase b0 -> exists b1, seekBool inflate o [0; 0; 0; 0] b = Ok b1 /\ alikeB b0 b1.
Proof.
  intros (r & -> & bs & Hs & Hr) Hv. destruct (Hr (v_s (bl_r b)) Hv) as (r1 & E & S1). cbn [seekBool]. unfold bool_Seek, v_Seek. rewrite E. cbn [rbind].
  change (Z.to_nat (i64 0)) with O. cbn [v_skip rbind bool_skip]. eexists. split; [reflexivity|]. split; [reflexivity|]. split; [reflexivity|]. exists bs. auto.
Qed.
Lemma rewind_data k r d : dataReader k r <> None -> rewinds r -> option_map dbase d = option_map dbase (dataReader k r) ->
  exists d1, seekData inflate o k (0 :: 0 :: repeat 0 (dataExtra k)) d = Ok d1 /\ orel alikeD (dataReader k r) (Some d1).
Proof.
  intros Hn Hr Hd. destruct d as [d|]; [|destruct (dataReader k r); [discriminate|congruence]].
  assert (Hcase : (dataReader k r = Some (RRun (newVreader r)) /\ dataExtra k = 1%nat) \/ (dataReader k r = Some (RBool (newBoolReader r)) /\ dataExtra k = 2%nat) \/
    dataReader k r = Some (RRaw r)) by (destruct k; cbn in *; auto; congruence).
  destruct Hcase as [[E Ex]|[[E Ex]|E]]; rewrite E in *; try rewrite Ex; clear E; cbn [option_map dbase] in Hd.
  - destruct d as [v|b|s]; cbn [dbase] in Hd; try congruence. destruct (rewind_run (dataDec k) (newVreader r) v) as (v1 & E1 & A1); [exists r; auto|congruence|].
    cbn [seekData repeat]. rewrite E1. cbn [rbind]. eexists. split; [reflexivity|]. exact A1.
  - destruct d as [v|b|s]; cbn [dbase] in Hd; try congruence. destruct (rewind_bool (newBoolReader r) b) as (v1 & E1 & A1); [exists r; auto|congruence|].
    cbn [seekData repeat]. rewrite E1. cbn [rbind]. eexists. split; [reflexivity|]. exact A1.
  - destruct d as [v|b|s]; cbn [dbase] in Hd; try congruence. destruct Hr as (bs & Hs & Hr). destruct (Hr s) as (r1 & E1 & A1); [congruence|].
    cbn [seekData]. rewrite E1. cbn [rbind]. eexists. split; [reflexivity|]. exists bs. auto.
Qed.
Lemma seek_present c0 c : onSome newBool c0 -> option_map bbase c = option_map bbase c0 ->
  exists c1, (match c with Some b => let! b' := seekBool inflate o [0; 0; 0; 0] b in Ok (Some b') | None => Ok None end) = Ok c1 /\ orel alikeB c0 c1.
Proof.
  intros Hg Hs. destruct c0 as [b0|], c as [b|]; cbn in Hs; try discriminate; [|exists None; split; reflexivity].
  destruct (rewind_bool b0 b Hg) as (b1 & -> & A); [congruence|]. cbn [rbind]. exists (Some b1). split; [reflexivity|exact A].
Qed.
Lemma restart_col c0 c : goodC c0 -> Same c0 c -> exists c1, SeekStride inflate o 0 c = Ok c1 /\ alikeC c0 c1.
Proof.
  intros [Gk Gp (r & Hn & Gd & Gr) Gs] [Sk Sn Si Sp Sd Ss]. unfold SeekStride. rewrite Sk.
  replace ((0 =? 0) && negb match cr_kind c0 with KDate => true | _ => false end) with true by (destruct (cr_kind c0); congruence || reflexivity).
  unfold seekTo. rewrite Sk.
  destruct (seek_present (cr_present c0) (cr_present c) Gp Sp) as (p1 & Ep & Ap).
  assert (E1 : exists c1, (match cr_present c with Some b => let! b' := seekBool inflate o [0; 0; 0; 0] b in Ok (setPresent b' c) | None => Ok c end) = Ok c1 /\
     cr_kind c1 = cr_kind c0 /\ orel alikeB (cr_present c0) (cr_present c1) /\ cr_data c1 = cr_data c /\ cr_second c1 = cr_second c).
  { destruct (cr_present c) as [b|] eqn:Eb.
    - apply rbind_inv in Ep. destruct Ep as (b' & -> & Ep). cbn [rbind]. eexists. split; [reflexivity|]. cbn. assert (p1 = Some b') as -> by congruence. auto.
    - exists c. rewrite Eb. assert (p1 = None) as -> by congruence. auto. }
  destruct E1 as (c1 & -> & K1 & P1 & D1 & S1). cbn [rbind]. rewrite D1.
  destruct (rewind_data (cr_kind c0) r (cr_data c) Hn Gr) as (d1 & -> & A1); [congruence|]. cbn [rbind]. rewrite <- Gd in A1.
  destruct (hasSecond (cr_kind c0)) eqn:Eh.
  - destruct (Gs eq_refl) as (v0 & Ev & Hv). cbn [setData cr_second]. rewrite S1. rewrite Ev in Ss. destruct (cr_second c) as [v|]; [|discriminate]. cbn [seekSecond].
    destruct (rewind_run (secondDec (cr_kind c0)) v0 v Hv) as (v1 & -> & A2); [cbn in Ss; congruence|]. cbn [rbind]. eexists. split; [reflexivity|].
    constructor; cbn; [exact K1|exact P1|exact A1|]. rewrite Ev. intros _. exact A2.
  - eexists. split; [reflexivity|]. constructor; cbn; [exact K1|exact P1|exact A1|]. rewrite Eh. discriminate.
Qed.
Lemma restart_dict d0 d : goodDict d0 -> SameD d0 d -> exists d1, dict_SeekStride inflate o 0 d = Ok d1 /\ alikeDict d0 d1.
Proof.
  intros [Gp (v0 & Ev & Hv)] (Sp & Sd & Sh). unfold dict_SeekStride. cbn [Z.eqb]. unfold dict_seekTo.
  destruct (seek_present (dr_present d0) (dr_present d) Gp Sp) as (p1 & -> & Ap). cbn [rbind]. rewrite Ev in Sd. destruct (dr_data d) as [v|]; [|discriminate].
  destruct (rewind_run DecodeUInt v0 v Hv) as (v1 & -> & A1); [cbn in Sd; congruence|]. cbn [rbind]. eexists. split; [reflexivity|].
  split; [exact Ap|]. split; [rewrite Ev; exact A1|]. intros ss Hh. apply Sh in Hh. exact Hh.
Qed.
Lemma restart t0 : forall t, goodT t0 -> SameT t0 t -> exists t1, tree_SeekStride inflate o 0 t = Ok t1 /\ alikeT t0 t1.
Proof.
  induction t0 as [c|d|p i ks IH|r i c IH|r i k w IH1 IH2] using ctree_ind'; intros t Hg Hs; inversion Hg; subst; inversion Hs as [? c' HC|? d' HD|? p' ? ? ks' HP HK| |]; subst; cbn [tree_SeekStride].
  - destruct (restart_col c c') as (c1 & -> & A); [assumption..|]. eexists. split; [reflexivity|]. constructor. exact A.
  - destruct (restart_dict d d') as (c1 & -> & A); [assumption..|]. eexists. split; [reflexivity|]. constructor. exact A.
  - destruct (seek_present p p') as (p1 & E & A); [assumption..|]. cbn [Z.eqb].
    assert (E' : (match p' with None => Ok None | Some b => let! b' := seekBool inflate o [0; 0; 0; 0] b in Ok (Some b') end) = Ok p1) by (destruct p'; exact E).
    cbn [rbind]. rewrite E'. cbn [rbind].
    match goal with |- context [rbind (?f ks') _] => assert (Hl : exists ks1, f ks' = Ok ks1 /\ Forall2 alikeT ks ks1) end.
    { match goal with H : Forall goodT ks |- _ => rename H into Hks end. clear - IH HK Hks. induction HK as [|x y xs ys Hx Hxs IHk].
      - exists []. split; [reflexivity|constructor].
      - inversion IH as [|? ? I1 I2]; subst. inversion Hks; subst. destruct (I1 y) as (t1 & E1 & A1); [assumption..|]. destruct IHk as (ks1 & E2 & A2); [assumption..|].
        exists (t1 :: ks1). rewrite E1. cbn [rbind]. rewrite E2. cbn [rbind]. split; [reflexivity|]. constructor; assumption. }
    destruct Hl as (ks1 & -> & Ak). cbn [rbind]. eexists. split; [reflexivity|]. constructor; assumption.
Qed.

(** Readers of streams stored in the file. *)
Section Stored.
Hypothesis Ho : supported o.
Variable file : list Z.
Hypothesis Hfile : zlen file < W64.
Lemma framed_rewinds pre enc post bs : file = pre ++ enc ++ post -> framed (fun d => d <> []) inflate o enc bs ->
  CompressionKind o = NONE \/ 0 < zlen enc -> rewinds (newReader file (zlen pre) (zlen enc)).
Proof.
  intros Hf Hfr Hne. pose proof (framed_serves inflate o Ho file Hfile pre enc post bs Hf Hfr) as Hs. exists bs. split; [exact Hs|]. intros r' Hb.
  assert (Hl : 0 <= zlen enc < W64 /\ 0 <= zlen pre < W64).
  { rewrite Hf, !zlen_app in Hfile. pose proof (zlen_nonneg pre). pose proof (zlen_nonneg post). pose proof (zlen_nonneg enc). lia. }
  unfold rbase in Hb. cbn [newReader r_file r_start r_length] in Hb. assert (r_file r' = file /\ r_start r' = zlen pre /\ r_length r' = zlen enc) as (E1 & E2 & E3) by (repeat split; congruence).
  unfold r_seek. rewrite E1, E2, E3, Z.add_0_r, u64_id by (unfold is_u64; lia).
  change {| r_file := file; r_start := zlen pre; r_length := zlen enc; r_rest := zdrop (zlen pre) file; r_readLength := 0; r_buf := [] |} with (newReader file (zlen pre) (zlen enc)).
  assert (Hz : forall r1 : reader, {| r_file := r_file r1; r_start := r_start r1; r_length := r_length r1; r_rest := r_rest r1; r_readLength := r_readLength r1; r_buf := zdrop 0 (r_buf r1) |} = r1) by (intros []; reflexivity).
  assert (HR : Rep inflate o file (zlen pre) (zlen enc) (newReader file (zlen pre) (zlen enc)) bs).
  { unfold Rep, newReader. cbn. repeat split; [lia|]. exists enc, post. rewrite Hf at 1. rewrite zdrop_app.
    split; [reflexivity|]. split; [lia|]. unfold framed in Hfr. destruct Ho as [[Hk|Hk] _]; rewrite Hk in *; [symmetry; exact Hfr|].
    destruct Hfr as (ds & Hc & Hq & <-). exists ds. repeat split; assumption. }
  destruct (Z.ltb_spec 0 (zlen enc)) as [Hpos|Hzero].
  - destruct (readAChunk_spec inflate o Ho file (zlen pre) (zlen enc) ltac:(lia) (newReader file (zlen pre) (zlen enc)) bs HR Hpos) as (r1 & -> & HR1 & _).
    cbn [rbind]. rewrite Hz. exists r1. split; [reflexivity|]. apply (Rep_serves inflate o Ho file (zlen pre) (zlen enc) ltac:(lia)). exact HR1.
  - destruct Hne as [Hk|]; [|lia]. assert (zlen enc = 0) as E0 by lia. unfold readAChunk. rewrite Hk. cbn [newReader r_length r_readLength r_rest r_file r_start r_buf].
    rewrite E0. change (u64 (0 - 0)) with 0. destruct Ho as [_ HC]. replace (0 <? ChunkSize o) with true by lia.
    assert (Ec : copyN 0 (zdrop (zlen pre) file) = Ok ([], zdrop (zlen pre) file)) by (unfold copyN; pose proof (zlen_nonneg (zdrop (zlen pre) file)); destruct (zdrop (zlen pre) file); reflexivity).
    rewrite Ec. cbn [rbind]. rewrite E0 in Hs. eexists. split; [reflexivity|]. exact Hs.
Qed.
End Stored.

(** ** Skipping a row *)
Lemma leaf_next c h v col : readable (cr_kind c) = true -> colAt inflate o h (v :: col) c -> (h = false -> Null v = false) ->
  exists x c', nextRow inflate o c {| Null := false; V := GNil |} = Ok (x, c') /\ cr_kind c' = cr_kind c /\ colAt inflate o h col c'.
Proof.
  intros Hl Hc Hn. destruct (col_step inflate o h (v :: col) c [{| Null := false; V := GNil |}] Hl Hc) as (out & c' & H1 & _ & H3 & H4).
  { cbn. lia. }
  { intros E. cbn. rewrite (Hn E). reflexivity. }
  cbn [NextBatch] in H1. apply rbind_inv in H1. destruct H1 as ([x c1] & H1 & H). cbn [rbind] in H. assert (c1 = c') as -> by congruence.
  exists x, c'. auto.
Qed.
Lemma accepts_nil k : readable k = true -> accepts k GNil. Proof. destruct k; try discriminate; intros _; exact I. Qed.
Lemma LeafAt_skip h v col tr : LeafAt inflate o h (v :: col) tr -> (h = false -> Null v = false) ->
  exists tr', tree_Skip1 inflate o tr = Ok tr' /\ LeafAt inflate o h col tr'.
Proof.
  intros H Hn. inversion H as [c Hl Hc|c Hk Hb Hc|ss d Hd Hh]; subst.
  - destruct (leaf_next c h v col Hl Hc Hn) as (x & c' & E & Hk & Hc').
    rewrite tree_Skip1_leaf, (skip_row inflate o c {| Null := false; V := GNil |} ltac:(reflexivity) (accepts_nil _ Hl)), E. cbn [after rbind].
    eexists. split; [reflexivity|]. apply LCol; [congruence|exact Hc'].
  - cbn [map] in Hc. destruct (leaf_next c h (tosV v) (map tosV col)) as (x & c' & E & Hk' & Hc'); [rewrite Hk; reflexivity|exact Hc|exact Hn|].
    destruct (nextRow_bin inflate o c _ x c' Hk E) as (Hk2 & y & E2 & _).
    rewrite tree_Skip1_leaf, (skip_row inflate o (bin c) {| Null := false; V := GNil |} ltac:(reflexivity) I), E2. cbn [after rbind].
    eexists. split; [reflexivity|]. inversion Hb; subst. apply LBin; assumption.
  - destruct Hd as [Hhas [Hp (w & idx & Hw & Hy & Hi & Hm)]]. change (tree_Skip1 inflate o (CDict d)) with (let! d' := dict_Skip1 inflate o d in Ok (CDict d')). unfold dict_Skip1.
    assert (Hpr : exists p1, (match dr_present d with Some b => let! (x, b') := bool_Next inflate o b in Ok (negb x, Some b') | None => Ok (false, None) end) = Ok (Null v, p1) /\
      match p1 with Some b => Yields (bool_Next inflate o) b (map (fun v => negb (Null v)) col) | None => True end /\ (p1 = None <-> dr_present d = None)).
    { destruct (dr_present d) as [b|].
      - inversion Hp as [|? ? b' ? Hb Hb']; subst. rewrite Hb. cbn [rbind]. rewrite negb_involutive. eexists. split; [reflexivity|]. split; [exact Hb'|]. split; discriminate.
      - rewrite Hn by (apply Hh; reflexivity). eexists. split; [reflexivity|]. split; [exact I|tauto]. }
    destruct Hpr as (p1 & -> & Hp1 & Hiff). cbn [rbind]. rewrite nonnull_cons in Hm. destruct (Null v).
    + cbn [rbind]. eexists. split; [reflexivity|]. apply (LDict _ _ _ _ ss); [|cbn; tauto]. split; [exact Hhas|]. split; [exact Hp1|].
      exists w, idx. cbn. auto.
    + destruct idx as [|i idx]; [discriminate|]. cbn [map] in Hm. inversion Hy as [|? ? w1 ? Hw1 Hw']; subst. inversion Hi; subst.
      rewrite Hw. cbn [nextSecond]. rewrite Hw1. cbn [rbind]. eexists. split; [reflexivity|]. apply (LDict _ _ _ _ ss); [|cbn; tauto]. split; [exact Hhas|]. split; [exact Hp1|].
      exists w1, idx. cbn. split; [reflexivity|]. split; [exact Hw'|]. split; [assumption|]. congruence.
Qed.
Lemma LeafAt_null v col tr : LeafAt inflate o false (v :: col) tr -> Null v = true -> LeafAt inflate o false col tr.
Proof.
  intros H Hn. inversion H as [c Hl Hc|c Hk Hb Hc|ss d Hd Hh]; subst.
  - apply LCol; [exact Hl|]. destruct Hc as [Hp Hy]. split; [exact Hp|]. rewrite nonnull_cons, Hn in Hy. exact Hy.
  - inversion Hb; subst. apply LBin; [exact Hk|assumption|]. destruct Hc as [Hp Hy]. split; [exact Hp|]. cbn [map] in Hy. rewrite nonnull_cons in Hy. cbn [tosV Null] in Hy. rewrite Hn in Hy. exact Hy.
  - destruct Hd as [Hhas [Hp (w & idx & Hw & Hy & Hi & Hm)]]. apply (LDict _ _ _ _ ss); [|exact Hh]. split; [exact Hhas|]. split.
    + rewrite (proj2 Hh eq_refl). exact I.
    + rewrite nonnull_cons, Hn in Hm. exists w, idx. auto.
Qed.

(** Below a struct with nulls there are only columns without. *)
Inductive Shallow (b : batchOption) : bool -> td -> Prop :=
| hLeaf (par : bool) id k ns e (h : bool) : isCompound k = false -> (par = true -> h = false) -> Shallow b par (Td id k ns e h [])
| hStruct id ns e (h : bool) cs : Forall (Shallow b h) (kept b cs) -> Shallow b false (Td id STRUCT ns e h cs).

Lemma single_one {V} j (r : row V) : length (column_of j [r]) = 1%nat -> exists v, column_of j [r] = [v].
Proof. destruct (column_of j [r]) as [|v [|w l]]; cbn; try lia. eauto. Qed.
Lemma skip_row_tree b t : forall par r rest tr, IsInclude b (td_id t) = true -> Shallow b (below par) t -> gives inflate o b (r :: rest) par t tr ->
  onceEach b (r :: rest) par t -> parOnce (r :: rest) par ->
  (forall p, par = Some p -> forall v, column_of (Z.to_nat p) [r] = [v] -> Null v = false) ->
  exists tr', tree_Skip1 inflate o tr = Ok tr' /\ gives inflate o b rest par t tr'.
Proof.
  induction t as [id k ns e h cs IH] using td_rect'. intros par r rest tr Hinc Hsh Hg Hon Hpar Hnn. cbn [td_id] in Hinc.
  inversion Hg as [? ? ? ? ? ? tr0 Hk Hlf Hm|? ? ? ? ? ? present index kids Hpres Hkids]; subst.
  - unfold onceEach in Hon. rewrite columns_read_leaf in Hon by assumption. inversion Hon as [|? ? Hj _]; subst. cbn [fst] in Hj. unfold col in Hj. cbn [td_id] in Hj.
    inversion Hj as [|? ? Hj1 Hj2]; subst. destruct (single_one _ _ Hj1) as (v & Ev). rewrite column_of_cons, Ev in Hlf. cbn [app] in Hlf.
    destruct (LeafAt_skip h v _ tr Hlf) as (tr' & E & Hl').
    { intros Eh. specialize (Hm Eh). unfold flags_match in Hm. rewrite column_of_cons, Ev in Hm. cbn [app] in Hm. destruct par as [p|].
      - inversion Hpar as [|? ? Hp1 _]; subst. destruct (single_one _ _ Hp1) as (u & Eu). rewrite (column_of_cons (Z.to_nat p)), Eu in Hm. cbn [app map] in Hm.
        pose proof (Hnn p eq_refl u Eu). congruence.
      - inversion Hm; subst. assumption. }
    exists tr'. split; [exact E|]. constructor; auto. intros Eh. specialize (Hm Eh).
    pose proof (flags_match_skip par (Z.to_nat id) (r :: rest) 1 Hj Hpar Hm) as Hf. exact Hf.
  - unfold onceEach in Hon. rewrite columns_read_struct in Hon by assumption. rewrite columns_read_kept in Hon. apply Forall_app in Hon. destruct Hon as [Hself Hrest].
    inversion Hsh as [? ? ? ? ? ? Hc ?|? ? ? ? ? Hsk]; subst; [discriminate Hc|].
    assert (Hloop : (forall v, h = true -> column_of (Z.to_nat id) [r] = [v] -> Null v = false) ->
       exists kids', skipKids (tree_Skip1 inflate o) kids = Ok kids' /\ Forall2 (gives inflate o b rest (if h then Some id else None)) (kept b cs) kids').
    { intros Hnv. assert (Hpo : parOnce (r :: rest) (if h then Some id else None)).
      { destruct h; [|exact I]. inversion Hself; subst. assumption. }
      assert (Hsk' : Forall (Shallow b (below (if h then Some id else None))) (kept b cs)) by (destruct h; exact Hsk).
      clear - Hpo IH Hnv Hkids Hrest Hsk'. pose proof (kept_included b cs) as Hki. apply (kept_Forall b) in IH.
      revert IH Hki Hrest Hsk'. induction Hkids as [|t tr ts trs Ht Hts IHk]; intros IH Hki Hrest Hsk'.
      - exists []. split; [reflexivity|constructor].
      - inversion IH as [|? ? Hc Hcs]; subst. inversion Hki; subst. inversion Hsk'; subst.
        cbn [flat_map] in Hrest. apply Forall_app in Hrest. destruct Hrest as [Hr1 Hr2].
        destruct (Hc (if h then Some id else None) r rest tr) as (tr' & E1 & E2); try assumption.
        { intros p Ep v Hv. destruct h; [|discriminate]. assert (p = id) as -> by congruence. apply Hnv; [reflexivity|exact Hv]. }
        destruct IHk as (kids' & E3 & E4); try assumption. exists (tr' :: kids'). cbn [skipKids]. rewrite E1. cbn [rbind]. rewrite E3. cbn [rbind]. auto. }
    destruct h.
    + destruct Hpres as (p & -> & Hy). inversion Hself as [|? ? Hj _]; subst. cbn [fst] in Hj. unfold col in Hj. cbn [td_id] in Hj.
      inversion Hj as [|? ? Hj1 Hj2]; subst. destruct (single_one _ _ Hj1) as (v & Ev). rewrite column_of_cons, Ev in Hy. cbn [app map] in Hy.
      inversion Hy as [|? ? p' ? Hb Hy']; subst. rewrite tree_Skip1_null, Hb. cbn [rbind]. destruct (Null v) eqn:En; cbn [negb rbind].
      * eexists. split; [reflexivity|]. constructor; [eauto|]. clear - Hkids Hsk Hrest Hj Ev En. pose proof (kept_included b cs) as Hki.
        revert Hrest Hsk Hki. induction Hkids as [|t tr ts trs Ht Hts IHk]; intros Hrest Hsk Hki; [constructor|].
        inversion Hsk as [|? ? Hs1 Hs2]; subst. inversion Hki as [|? ? Hk1 Hk2]; subst. cbn [flat_map] in Hrest. apply Forall_app in Hrest. destruct Hrest as [Hr1 Hr2].
        constructor; [|apply IHk; assumption]. inversion Hs1 as [? id2 k ns e h Hc Hh|]; subst. specialize (Hh eq_refl). subst h.
        inversion Ht as [? ? ? ? ? ? tr0 Hk Hlf Hm|]; subst; [|discriminate Hc]. rewrite columns_read_leaf in Hr1 by assumption. inversion Hr1 as [|? ? Hj' _]; subst.
        cbn [fst] in Hj'. unfold col in Hj'. cbn [td_id] in Hj'. inversion Hj' as [|? ? Hj1' _]; subst. destruct (single_one _ _ Hj1') as (u & Eu).
        specialize (Hm eq_refl). constructor; [exact Hc| |intros _; apply (flags_match_skip (Some id) (Z.to_nat id2) (r :: rest) 1 Hj' Hj Hm)].
        rewrite column_of_cons, Eu in Hlf. cbn [app] in Hlf. apply (LeafAt_null u); [exact Hlf|]. cbn [flags_match] in Hm.
        rewrite (column_of_cons (Z.to_nat id2)), Eu, (column_of_cons (Z.to_nat id)), Ev in Hm. cbn [app map] in Hm. congruence.
      * destruct Hloop as (kids' & -> & Hk'); [intros w _ Ew; congruence|]. cbn [rbind]. eexists. split; [reflexivity|]. constructor; [eauto|exact Hk'].
    + subst present. destruct Hloop as (kids' & E & Hk'); [discriminate|]. rewrite tree_Skip1_plain, E. cbn [rbind]. eexists. split; [reflexivity|]. constructor; [reflexivity|exact Hk'].
Qed.
Lemma onceEach_tail b r rest par t : onceEach b (r :: rest) par t -> onceEach b rest par t.
Proof. unfold onceEach. apply Forall_impl. intros x H. inversion H; subst. assumption. Qed.
Lemma skip_tree b t n : forall rows tr, IsInclude b (td_id t) = true -> Shallow b false t -> gives inflate o b rows None t tr ->
  onceEach b rows None t -> (n <= length rows)%nat ->
  exists tr', treeSkip inflate o n tr = Ok tr' /\ gives inflate o b (skipn n rows) None t tr'.
Proof.
  unfold treeSkip. induction n as [|n IH]; intros rows tr Hi Hs Hg Ho Hn; cbn [times]; [exists tr; auto|].
  destruct rows as [|r rest]; [cbn in Hn; lia|]. destruct (skip_row_tree b t None r rest tr Hi Hs Hg Ho I) as (tr1 & E & Hg1); [discriminate|].
  rewrite E. cbn [rbind skipn]. apply IH; auto; [eapply onceEach_tail; exact Ho|cbn in Hn; lia].
Qed.
End Restart.
