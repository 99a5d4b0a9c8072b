(** A whole file: written, opened and iterated. *)
From Coq Require Import ZifyBool ZifyNat.
From Verif.Model Require Import Go Codec ByteBool IntRle Chunk Stream Schema Rows Time File Column Wire Nested Tree Assembled.
From Verif.Spec Require Import BoolSpec Session StreamSpec ChunkSpec SchemaSpec RowsSpec FileSpec ColumnSpec AssemblySpec EndSpec.
From Verif.Proofs Require Import Base SchemaP ChunkP TailP RowsP SessionP ReadP FileP OpenP FileClaimsP ColumnP ColumnReadP StatsP AssembledP TreeP LeafP BatchP EndP EndColP OpenTreeP.
Notation leaf := ColumnSpec.readable.

(** Every included column is read, or is a struct without nulls. *)
Lemma included_read bopt ok (Hok : ok KStruct = false) t : forall par par', schema_of_kinds bopt ok par t = true ->
  forall x, In x (flatten t) -> IsInclude bopt (td_id x) = true ->
    (exists p, In (x, p) (columns_read bopt par' t)) \/ (td_kind x = STRUCT /\ td_hasNulls x = false).
Proof.
  induction t as [id k ns e h cs IH] using td_rect'. intros par par' H x Hx Hi.
  cbn [schema_of_kinds] in H. destruct (IsInclude bopt id) eqn:Ei.
  2: { rewrite forallb_forall in H. specialize (H x Hx). rewrite Hi in H. discriminate. }
  rewrite flatten_eq in Hx. destruct Hx as [<-|Hx].
  - cbn [columns_read td_kind td_hasNulls]. rewrite Ei. destruct k; try (left; exists par'; left; reflexivity).
    destruct h; [left; exists par'; left; reflexivity|right; auto].
  - destruct (readerKind k e) as [c| |] eqn:Ek; try discriminate.
    apply in_flat_map in Hx. destruct Hx as (d & Hd & Hx).
    assert (Hs : k = STRUCT /\ forallb (schema_of_kinds bopt ok h) cs = true).
    { destruct c; try (exfalso; destruct cs; [destruct Hd|rewrite andb_false_r in H; discriminate H]).
      apply andb_true_iff in H. split; [eapply readerKind_struct; exact Ek|apply H]. }
    destruct Hs as [-> Hs]. rewrite forallb_forall in Hs. rewrite Forall_forall in IH.
    destruct (IH d Hd h (if h then Some id else None) (Hs d Hd) x Hx Hi) as [(p & Hp)|Hp]; [left|right; exact Hp].
    exists p. cbn [columns_read]. rewrite Ei. apply in_app_iff. right. apply in_flat_map. exists d. auto.
Qed.

Lemma readerKind_writer k e c : readerKind k e = Ok c -> writerKind k e = Ok c.
Proof. unfold readerKind, writerKind. destruct k; try discriminate; auto; destruct (e =? 0); try discriminate; auto. Qed.

(** ** One stripe *)
Section Stripe.
Variable inflate : list Z -> res (list Z).
Variables o o' : opts.
Hypothesis Hoo : sameReading o o'.
Variable schema : td.
Hypothesis Hnum : Numbered 0 schema.
Variable nodes : list node.
Hypothesis Hnodes : Forall2 nodeFor (flatten schema) nodes.
Variable bopt : batchOption.
Hypothesis Hinc : IsInclude bopt 0 = true.
Variable ok : ckind -> bool.
Hypothesis Hok : ok KStruct = false.
Hypothesis Hread : schema_of_kinds bopt ok false schema = true.

Lemma ids_flatten : map td_id (flatten schema) = count_up 0 (length (flatten schema)).
Proof.
  clear - Hnum. rewrite (Numbered_flat _ _ Hnum). f_equal. pose proof (flatten_length schema) as H. unfold zlen in H. lia.
Qed.
Lemma nth_id x : In x (flatten schema) -> 0 <= td_id x < zlen (flatten schema) /\ nth_error (flatten schema) (col x) = Some x.
Proof.
  clear - Hnum. intros Hx. apply flatten_Column in Hx. destruct (nth_flatten 0 schema x Hnum Hx) as [H1 H2].
  rewrite Z.sub_0_r in H1. rewrite flatten_length. split; [lia|exact H1].
Qed.

Lemma stripe_reads file rows n starts :
  (forall s st, In (s, st) starts -> 0 <= st_column s < zlen (flatten schema)) ->
  (forall x k, In x (flatten schema) -> IsInclude bopt (td_id x) = true -> readerKind (td_kind x) (td_enc x) = Ok k ->
     exists r, initAny inflate o' file (newAny k (td_hasNulls x)) (filter (ofCol (col x)) starts) = Ok r /\
       anyReads inflate o' k (td_hasNulls x) (column_of (col x) rows) r) ->
  Forall (flagsOk rows) (columns_read bopt None schema) ->
  exists tr, newStripeRd inflate o' nodes (map td_hasNulls (flatten schema)) bopt file n (map td_enc (flatten schema), starts)
      = Ok {| sr_rows := n; sr_cursor := 0; sr_tree := Some tr |} /\
    gives inflate o' bopt rows None schema tr.
Proof.
  intros Hrange Hop Hfl.
  assert (Hinc' : forall x, In x (flatten schema) -> (IsInclude bopt (td_id x) = true -> okKind ok x) /\
     (existsb (IsInclude bopt) (map td_id (td_children x)) = true -> td_kind x = STRUCT /\ IsInclude bopt (td_id x) = true)).
  { intros x Hx. eapply readable_included; [exact Hok|exact Hread|exact Hx]. }
  unfold newStripeRd. cbn [fst snd].
  rewrite (newReaders_ok bopt ok (flatten schema) nodes 0 Hnodes ids_flatten) by (apply Forall_forall; intros x Hx; apply Hinc'; exact Hx).
  cbn [rbind]. set (rs := map (mk bopt) (flatten schema)).
  assert (Hrs : forall j r, nth_error rs j = Some (Some r) -> exists x k, In x (flatten schema) /\ col x = j /\
     IsInclude bopt (td_id x) = true /\ readerKind (td_kind x) (td_enc x) = Ok k /\ r = newAny k (td_hasNulls x)).
  { intros j r Hj. unfold rs in Hj. destruct (nth_error (flatten schema) j) as [x|] eqn:Ex.
    2: { apply nth_error_None in Ex. assert (j < length (map (mk bopt) (flatten schema)))%nat by (apply nth_error_Some; congruence). rewrite map_length in *. lia. }
    rewrite (map_nth_error _ _ _ Ex) in Hj. assert (Hm : mk bopt x = Some r) by congruence. unfold mk in Hm.
    destruct (IsInclude bopt (td_id x)) eqn:Ei; [|discriminate].
    assert (Hx : In x (flatten schema)) by (eapply nth_error_In; exact Ex).
    destruct (readerKind (td_kind x) (td_enc x)) as [k| |] eqn:Ek; try discriminate.
    assert (Hc : col x = j).
    { pose proof (f_equal (fun l => nth_error l j) ids_flatten) as Hids. cbv beta in Hids. rewrite (map_nth_error _ _ _ Ex) in Hids.
      rewrite count_up_nth in Hids by (apply nth_error_Some; congruence). unfold col. assert (td_id x = 0 + Z.of_nat j) by congruence. lia. }
    exists x, k. assert (r = newAny k (td_hasNulls x)) by congruence. auto 10. }
  destruct (initAll_spec inflate o' file starts rs) as (rs' & H1 & H2 & H3).
  - intros s st Hin. specialize (Hrange s st Hin). unfold rs, zlen in *. rewrite map_length. exact Hrange.
  - intros j r Hj. destruct (Hrs j r Hj) as (x & k & Hx & Hxj & Hi & Hk & ->).
    destruct (Hop x k Hx Hi Hk) as (r & Hr & _). rewrite Hxj in Hr. exists r. exact Hr.
  - rewrite H1. cbn [rbind].
    rewrite (checkParents_ok bopt (flatten schema) nodes 0 Hnodes ids_flatten) by (apply Forall_forall; intros x Hx; apply Hinc'; exact Hx).
    cbn [rbind].
    assert (Hroot : td_id schema = 0) by (apply Numbered_id; exact Hnum).
    assert (Hco : Forall (columnOk inflate o' nodes bopt rows rs') (flatten schema)).
    { apply Forall_forall. intros x Hx. destruct (nth_id x Hx) as [Hb Hn]. split.
      - pose proof (Forall2_nth _ _ _ Hnodes (col x)) as H0. rewrite Hn in H0. unfold col in H0. destruct (nth_error nodes (Z.to_nat (td_id x))) as [nd|] eqn:En; [|contradiction]. exists nd. auto.
      - intros Hi. destruct (proj1 (Hinc' x Hx) Hi) as (k & Hk & _). specialize (H3 (col x)).
        assert (Hm : nth_error rs (col x) = Some (Some (newAny k (td_hasNulls x)))).
        { unfold rs. rewrite (map_nth_error _ _ _ Hn). unfold mk. rewrite Hi, Hk. reflexivity. }
        rewrite Hm in H3. destruct H3 as (r' & Hr' & Hin). exists k, r'. split; [exact Hk|]. split; [exact Hr'|].
        destruct (Hop x k Hx Hi Hk) as (r & Hr & Hcr). assert (r = r') as -> by congruence. exact Hcr. }
    assert (Hfirst : firstReader 0 rs' = Some 0).
    { assert (Hin0 : In schema (flatten schema)) by (destruct schema; left; reflexivity).
      rewrite Forall_forall in Hco. destruct (Hco schema Hin0) as [_ Hc]. rewrite Hroot in Hc. destruct (Hc Hinc) as (k & r & _ & Hr & _).
      destruct rs' as [|[q|] l]; cbn in Hr |- *; try discriminate; reflexivity. }
    rewrite Hfirst.
    destruct (buildTree_ok inflate o' nodes bopt ok Hok rows rs' schema None (length nodes)) as (tr & E1 & E2); auto.
    { rewrite Hroot. exact Hinc. }
    { rewrite <- flatten_length. unfold zlen. rewrite (Forall2_len _ _ _ Hnodes). lia. }
    rewrite Hroot in E1. rewrite E1. cbn [rbind]. exists tr. split; [reflexivity|exact E2].
Qed.

Lemma stripe_opens file rows m a b n starts : (forall k, ok k = true -> ColumnSpec.readable k = true) ->
  colsFrom 0 (im_cols m) -> length (im_cols m) = length (flatten schema) ->
  Forall (fun s => st_kind s <> 6) (im_infos m) ->
  file = a ++ im_bytes m ++ b -> zlen file < W64 ->
  starts = offsets (zlen a + zlen (im_index m)) (im_infos m) ->
  (forall x k y, In x (flatten schema) -> IsInclude bopt (td_id x) = true -> readerKind (td_kind x) (td_enc x) = Ok k ->
     nth_error (im_cols m) (col x) = Some y -> opens inflate o k (td_hasNulls x) (column_of (col x) rows) y) ->
  Forall (flagsOk rows) (columns_read bopt None schema) ->
  exists tr, newStripeRd inflate o' nodes (map td_hasNulls (flatten schema)) bopt file n (map td_enc (flatten schema), starts)
      = Ok {| sr_rows := n; sr_cursor := 0; sr_tree := Some tr |} /\
    gives inflate o' bopt rows None schema tr.
Proof.
  intros Hokr Hcols Hlen Hk6 Hfile Hsz Hst Hop Hfl.
  assert (Hin : forall s st, In (s, st) starts -> In s (im_infos m)).
  { intros s st Hin. assert (map fst starts = im_infos m).
    { rewrite Hst. clear. generalize (zlen a + zlen (im_index m)). induction (im_infos m) as [|s l IH]; intros z; cbn; [reflexivity|]. rewrite IH. reflexivity. }
    rewrite <- H. apply in_map_iff. exists (s, st). auto. }
  apply stripe_reads; [| |exact Hfl].
  - intros s st Hs. apply Hin in Hs.
    unfold im_infos in Hs. apply in_concat in Hs. destruct Hs as (l & Hl & Hs). apply in_map_iff in Hl. destruct Hl as (y & <- & Hy).
    destruct (In_nth_error _ _ Hy) as [j Hj]. destruct (Hcols j y Hj) as [Hc _]. rewrite Forall_forall in Hc. rewrite (Hc s Hs).
    assert (j < length (im_cols m))%nat by (apply nth_error_Some; congruence). unfold zlen. lia.
  - intros x k Hx Hi Hk. destruct (nth_id x Hx) as [_ Hn].
    destruct (nth_error (im_cols m) (col x)) as [y|] eqn:Ey.
    2: { apply nth_error_None in Ey. assert (col x < length (flatten schema))%nat by (apply nth_error_Some; congruence). lia. }
    destruct (placed (im_cols m) 0 (a ++ im_index m) (im_footer m ++ b) (col x) y Hcols Ey) as (a' & b' & E1 & E2).
    assert (Hf : file = a' ++ concat (ci_streams y) ++ b').
    { rewrite <- E1, Hfile. unfold im_bytes, im_streams. rewrite <- !app_assoc. reflexivity. }
    pose proof (Hop x k y Hx Hi Hk Ey a' b') as Hopen. rewrite <- Hf in Hopen. destruct (Hopen Hsz) as (r & Hr & Hcr).
    destruct (proj1 (readable_included bopt ok Hok schema false Hread x Hx) Hi) as (k2 & Hk2 & Hlk). assert (k2 = k) as -> by congruence.
    assert (Hlk' : ColumnSpec.readable k = true \/ k = KStruct) by (destruct Hlk; auto).
    assert (Hnew : newAny k (td_hasNulls x) = RCol (newColR k (td_hasNulls x))).
    { destruct Hlk' as [Hl| ->]; [|reflexivity]. destruct k; try discriminate; reflexivity. }
    exists (RCol r). rewrite Hnew, initAny_col. apply (colReads_same _ _ _ _ _ _ _ Hoo) in Hcr.
    split; [|destruct Hlk' as [Hl| ->]; [apply anyReads_col; [exact Hl|exact Hcr]|exists r; split; [reflexivity|exact Hcr]]].
    assert (E : initCol inflate o' file (newColR k (td_hasNulls x)) (filter (ofCol (col x)) starts) = Ok r); [|rewrite E; reflexivity].
    rewrite initCol_streams.
    + rewrite Hst, <- zlen_app. cbn [Nat.add] in E2. unfold im_infos. rewrite E2. exact Hr.
    + apply Forall_forall. intros [s st] Hs. apply filter_In in Hs. destruct Hs as [Hs _]. apply Hin in Hs. rewrite Forall_forall in Hk6. apply Hk6. exact Hs.
Qed.
End Stripe.

(** ** Batches and columns *)
Section Held.
Variable b : batchOption.
Notation holds := (holds b).
Lemma held_none j t : forall rows v, holds rows t v -> ~ In j (map td_id (flatten t)) -> held j v = [].
Proof.
  induction t as [id k ns e h cs IH] using td_rect'. intros rows v Hh Hj. rewrite flatten_eq in Hj. cbn [map td_id In] in Hj.
  inversion Hh as [? ? ? ? ? a rest Hk Hl Hr|? ? ? ? ? s vs Hs Hvs]; subst; cbn [held].
  - destruct (Z.eqb_spec id j); [exfalso; auto|]. reflexivity.
  - destruct (Z.eqb_spec id j); [exfalso; auto|]. cbn [app].
    assert (Hsub : forall d, In d (kept b cs) -> ~ In j (map td_id (flatten d))).
    { intros d Hd Hin. apply Hj. right. unfold kept in Hd. apply filter_In in Hd. rewrite in_map_iff in *. destruct Hin as (x & Ex & Hx).
      exists x. split; [exact Ex|]. apply in_flat_map. exists d. tauto. }
    apply (kept_Forall b) in IH. clear - Hvs IH Hsub. revert IH Hsub. induction Hvs as [|d v ds vs Hd Hvs IHv]; intros IH Hsub; [reflexivity|].
    inversion IH; subst. cbn [flat_map]. rewrite IHv by (auto; intros; apply Hsub; right; assumption).
    rewrite app_nil_r. eapply H1; [exact Hd|]. apply Hsub. left. reflexivity.
Qed.
Lemma held_none_kept j rows ds vs : ~ In j (map td_id (flat_map flatten ds)) -> Forall2 (holds rows) (kept b ds) vs ->
  flat_map (held j) vs = [].
Proof.
  intros Hno Hvs. assert (Hsub : forall q, In q (kept b ds) -> ~ In j (map td_id (flatten q))).
  { intros q Hq Hi. apply Hno. unfold kept in Hq. apply filter_In in Hq. rewrite in_map_iff in *. destruct Hi as (y & Ey & Hy).
    exists y. split; [exact Ey|]. apply in_flat_map. exists q. tauto. }
  revert Hsub. induction Hvs as [|q w qs ws Hq Hws IHw]; intros Hsub; [reflexivity|]. cbn [flat_map].
  rewrite IHw by (intros; apply Hsub; right; assumption). rewrite (held_none _ q rows w Hq); [reflexivity|]. apply Hsub. left. reflexivity.
Qed.
Lemma column_of_in x par par' t : In (x, par') (columns_read b par t) -> In x (flatten t).
Proof.
  revert par. induction t as [id k ns e h cs IH] using td_rect'. intros par H. cbn [columns_read] in H. rewrite flatten_eq.
  destruct (IsInclude b id); [|destruct H]. destruct k; try (destruct H as [H|[]]; left; congruence).
  apply in_app_iff in H. destruct H as [H|H].
  - destruct h; [|destruct H]. destruct H as [H|[]]. left. congruence.
  - right. apply in_flat_map in H. destruct H as (d & Hd & H). apply in_flat_map. exists d. split; [exact Hd|].
    rewrite Forall_forall in IH. eapply IH; eauto.
Qed.
Lemma columns_read_included x par par' t : In (x, par') (columns_read b par t) -> IsInclude b (td_id t) = true.
Proof. destruct t. cbn [columns_read td_id]. destruct (IsInclude b id); [reflexivity|intros []]. Qed.

Lemma NoDup_app_l {A} (l m : list A) : NoDup (l ++ m) -> NoDup l /\ NoDup m /\ (forall x, In x l -> ~ In x m).
Proof.
  induction l as [|a l IH]; intros H; [split; [constructor|]; split; [exact H|intros x []]|].
  inversion H as [|? ? Hn Hd]; subst. destruct (IH Hd) as (H1 & H2 & H3). split; [|split; [exact H2|]].
  - constructor; [|exact H1]. intros Hi. apply Hn. apply in_app_iff. left. exact Hi.
  - intros x [<-|Hx] Hm; [apply Hn; apply in_app_iff; right; exact Hm|]. eapply H3; eauto.
Qed.

Lemma held_shows t : NoDup (map td_id (flatten t)) -> forall rows v par x par', holds rows t v ->
  In (x, par') (columns_read b par t) -> shows x (held (td_id x) v) rows.
Proof.
  induction t as [id k ns e h cs IH] using td_rect'. intros Hnd rows v par x par' Hh Hx.
  rewrite flatten_eq in Hnd. cbn [map td_id] in Hnd. inversion Hnd as [|? ? Hn Hd]; subst.
  inversion Hh as [? ? ? ? ? a rest Hk Hl Hr|? ? ? ? ? s vs Hs Hvs]; subst; cbn [held].
  - cbn [columns_read] in Hx. destruct (IsInclude b id); [|destruct Hx].
    assert (Hxe : x = Td id k ns e h []).
    { destruct k; try discriminate Hk; (destruct Hx as [Hx|[]]; congruence). }
    subst x. cbn [td_id flat_map]. rewrite Z.eqb_refl, app_nil_r. unfold shows, col. cbn [td_kind td_id].
    destruct k; try discriminate Hk; exact Hr.
  - cbn [columns_read] in Hx. destruct (IsInclude b id) eqn:Ei; [|destruct Hx]. apply in_app_iff in Hx. destruct Hx as [Hx|Hx].
    + destruct h; [|destruct Hx]. destruct Hx as [Hx|[]]. assert (x = Td id STRUCT ns e true cs) as -> by congruence.
      destruct Hs as (a & rest & -> & Hl & Hnull). cbn [td_id]. rewrite Z.eqb_refl.
      replace (flat_map (held id) vs) with (@nil value).
      2: { symmetry. eapply held_none_kept; eassumption. }
      rewrite app_nil_r. exact Hnull.
    + apply in_flat_map in Hx. destruct Hx as (d & Hdc & Hx).
      assert (Hxid : In (td_id x) (map td_id (flatten d))) by (apply in_map; eapply column_of_in; exact Hx).
      assert (Hne : id <> td_id x).
      { intros ->. apply Hn. rewrite in_map_iff in *. destruct Hxid as (y & Ey & Hy). exists y. split; [exact Ey|]. apply in_flat_map. exists d. auto. }
      destruct (Z.eqb_spec id (td_id x)); [contradiction|]. cbn [app].
      pose proof (columns_read_included _ _ _ _ Hx) as Hid.
      assert (Hgo : forall ds vs, Forall2 (holds rows) (kept b ds) vs -> In d ds -> NoDup (map td_id (flat_map flatten ds)) ->
        flat_map (held (td_id x)) vs = flat_map (held (td_id x)) vs /\ exists w, holds rows d w /\ flat_map (held (td_id x)) vs = held (td_id x) w).
      { clear - Hx Hxid Hid. intros ds. induction ds as [|d0 ds IHd]; intros vs Hvs Hin Hnd; [destruct Hin|].
        split; [reflexivity|]. cbn [flat_map] in Hnd. rewrite map_app in Hnd. apply NoDup_app_l in Hnd. destruct Hnd as (N1 & N2 & N3).
        destruct Hin as [->|Hin].
        - unfold kept in Hvs. cbn [filter] in Hvs. rewrite Hid in Hvs. inversion Hvs as [|? w ? ws Hw Hws]; subst.
          exists w. split; [exact Hw|]. cbn [flat_map]. rewrite (held_none_kept _ rows ds ws (N3 _ Hxid) Hws). apply app_nil_r.
        - assert (Hnot : ~ In (td_id x) (map td_id (flatten d0))).
          { intros Hi. apply (N3 _ Hi). rewrite in_map_iff in Hxid |- *. destruct Hxid as (y & Ey & Hy). exists y. split; [exact Ey|]. apply in_flat_map. exists d. auto. }
          unfold kept in Hvs. cbn [filter] in Hvs. destruct (IsInclude b (td_id d0)).
          + inversion Hvs as [|? w ? ws Hw Hws]; subst. destruct (IHd ws Hws Hin N2) as (_ & w' & Hw' & E). exists w'. split; [exact Hw'|].
            cbn [flat_map]. rewrite (held_none _ d0 rows w Hw Hnot). exact E.
          + destruct (IHd vs Hvs Hin N2) as (_ & w' & Hw' & E). exists w'. auto. }
      destruct (Hgo cs vs Hvs Hdc Hd) as (_ & w & Hw & ->). rewrite Forall_forall in IH.
      eapply IH; [exact Hdc| |exact Hw|exact Hx].
      clear - Hd Hdc. induction cs as [|d0 ds IHd]; [destruct Hdc|]. cbn [flat_map] in Hd. rewrite map_app in Hd. apply NoDup_app_l in Hd.
      destruct Hdc as [->|Hdc]; [apply Hd|]. apply IHd; tauto.
Qed.
Lemma shows_concat x vs : forall rss, Forall2 (fun rows w => shows x (held (td_id x) w) rows) rss vs ->
  shows x (flat_map (held (td_id x)) vs) (concat rss).
Proof.
  intros rss H. induction H as [|rows w rss vs Hw Hvs IH]; [unfold shows; cbn; destruct (td_kind x); reflexivity|].
  cbn [flat_map concat]. unfold shows in *. destruct (td_kind x); unfold rows_of in *; rewrite ?column_of_app, !map_app; congruence.
Qed.
End Held.
