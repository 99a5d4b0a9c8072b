(** What a client gets, from the simulation of [EndMainP]. *)
From Coq Require Import ZifyBool ZifyNat.
From Verif.Model Require Import Go Codec ByteBool IntRle Chunk Stream Schema Rows Time File Column Wire Assembled.
From Verif.Spec Require Import BoolSpec Session StreamSpec ChunkSpec SchemaSpec RowsSpec FileSpec ColumnSpec AssemblySpec EndSpec.
From Verif.Proofs Require Import Base SchemaP ChunkP TailP RowsP FileP OpenP FileClaimsP WireP AssembledP BatchP EndP EndColP OpenTreeP EndFileP EndMainP.

Lemma same_cut {A} (a : list (list A)) : forall b, concat a = concat b -> map zlen a = map zlen b -> a = b.
Proof.
  induction a as [|x a IH]; intros [|y b] H1 H2; try discriminate; [reflexivity|]. cbn [map concat] in *.
  assert (Hz : zlen x = zlen y) by congruence. assert (Hm : map zlen a = map zlen b) by congruence.
  assert (Hl : length x = length y) by (unfold zlen in Hz; lia).
  assert (Hx : x = y).
  { pose proof (f_equal (firstn (length x)) H1) as E. rewrite firstn_app, Nat.sub_diag, firstn_all, firstn_O, app_nil_r in E.
    rewrite Hl in E. rewrite firstn_app, Nat.sub_diag, firstn_all, firstn_O, app_nil_r in E. exact E. }
  subst y. f_equal. apply IH; [|exact Hm]. eapply app_inv_head. exact H1.
Qed.

Section Deliver.
Variable inflate : list Z -> res (list Z).
Variable r : fileR colstats.
Variable bopt : batchOption.
Variable schema : td.
Hypothesis Hinc : IsInclude bopt (td_id schema) = true.
Hypothesis Hfl : flagged (fr_hasNulls r) schema.
Hypothesis Hnd : NoDup (map td_id (flatten schema)).
Variable c : Z.
Hypothesis Hc : 0 < c.

Lemma deliver_out x y v out : SimB inflate (readerOpts r) bopt schema x y -> fits bopt c false schema v -> Cap v = c ->
  Iter c y out -> delivers inflate bopt schema r x v out.
Proof.
  intros Hs Hf Hcap Hi.
  destruct (iter_batches inflate (readerOpts r) (fr_hasNulls r) bopt schema c Hc Hinc Hfl r eq_refl eq_refl y out Hi x v Hs (conj Hf Hcap))
    as (vs & rss & E1 & E2 & ->).
  exists vs. split; [exact E1|]. intros t p Ht. apply shows_concat.
  clear - E2 Hnd Ht. induction E2; constructor; auto. eapply held_shows; eassumption.
Qed.
Lemma deliver_inv x y v vs : SimB inflate (readerOpts r) bopt schema x y -> fits bopt c false schema v -> Cap v = c ->
  Batches inflate r x v vs -> exists out, Iter c y out /\
    forall t p, In (t, p) (columns_read bopt None schema) -> shows t (flat_map (held (td_id t)) vs) out.
Proof.
  intros Hs Hf Hcap Hb.
  destruct (batches_iter inflate (readerOpts r) (fr_hasNulls r) bopt schema c Hc Hinc Hfl r eq_refl eq_refl x v vs Hb y Hs (conj Hf Hcap))
    as (rss & E1 & E2).
  exists (concat rss). split; [exact E1|]. intros t p Ht. apply shows_concat.
  clear - E2 Hnd Ht. induction E2; constructor; auto. eapply held_shows; eassumption.
Qed.
End Deliver.

Lemma shows_length t vs rows : shows t vs rows -> length vs = length (column_of (col t) rows).
Proof. unfold shows, rows_of. intros H. destruct (td_kind t); apply (f_equal (@length _)) in H; rewrite !map_length in H; exact H. Qed.

Lemma delivered_incl {A} c (l : list A) x : In x (delivered c l) -> In x l.
Proof.
  unfold delivered. destruct (loses c (zlen l)); [|auto]. unfold ztake. intros H. rewrite <- (firstn_skipn (Z.to_nat (zlen l - 1)) l). apply in_or_app. left. exact H.
Qed.
Lemma delivered_last_incl {A} c (l : list A) x : In x (delivered_last c l) -> In x l.
Proof.
  unfold delivered_last. destruct (_ =? _); [|auto]. unfold ztake. intros H. rewrite <- (firstn_skipn (Z.to_nat (zlen l - 1)) l). apply in_or_app. left. exact H.
Qed.
Lemma delivered_shorter {A} c (ls : list (list A)) : (length (concat (map (delivered c) ls)) + lost c ls = length (concat ls))%nat.
Proof.
  unfold lost. induction ls as [|l ls IH]; [reflexivity|]. cbn [map concat filter]. rewrite !app_length. unfold delivered at 1.
  destruct (loses c (zlen l)) eqn:E; cbn [length]; [|lia]. unfold ztake. rewrite firstn_length. unfold loses in E.
  assert (2 <= zlen l) by lia. unfold zlen in *. lia.
Qed.
Lemma delivered_last_shorter {A} c (l : list A) : 1 <= zlen l -> (zlen l - 1) mod c = 0 -> length l = S (length (delivered_last c l)).
Proof.
  intros H E. unfold delivered_last. rewrite E, Z.eqb_refl. unfold ztake. rewrite firstn_length. unfold zlen in *. lia.
Qed.

(** What a client gets whose batch reader follows the one of Rows.v. *)
Lemma client_of inflate r bopt schema x ls last :
  IsInclude bopt (td_id schema) = true -> flagged (fr_hasNulls r) schema -> NoDup (map td_id (flatten schema)) ->
  SimB inflate (readerOpts r) bopt schema x (opened (ls ++ [last])) ->
  Forall (fun l => l <> []) (ls ++ [last]) -> zlen (concat (ls ++ [last])) < 2 ^ 62 ->
  Forall (fun q => single (col (fst q)) (concat (ls ++ [last]))) (columns_read bopt None schema) ->
  forall c v, 0 < c -> fits bopt c false schema v -> Cap v = c ->
    ((lost c ls = 0)%nat -> delivers inflate bopt schema r x v (concat ls ++ delivered_last c last)) /\
    ((lost c ls = 1)%nat -> delivers inflate bopt schema r x v (concat (map (delivered c) ls) ++ last)) /\
    ((lost c ls >= 2)%nat -> forall out, ~ Batches inflate r x v out) /\
    (columns_read bopt None schema <> [] ->
     (delivers inflate bopt schema r x v (concat (ls ++ [last])) <->
      Forall (fun l => zlen l = 1 \/ (zlen l - 1) mod c <> 0) ls /\ (zlen last - 1) mod c <> 0)).
Proof.
  intros Hincs Hfl Hnd Hsim Hne Hnrows Hst c v Hc Hf Hcap.
  assert (Hne1 : Forall (fun l : list (row value) => 1 <= zlen l) (ls ++ [last])).
  { eapply Forall_impl; [|exact Hne]. intros l Hl. destruct l; [contradiction|]. unfold zlen. cbn [length]. lia. }
  assert (Htot : total (ls ++ [last]) < 2 ^ 63 - 1).
  { unfold total. eapply Z.lt_trans; [exact Hnrows|]. reflexivity. }
  destruct (iterate_exact c ls last Hc Hne1 Htot) as (I0 & I1 & I2).
  pose proof (fun out => deliver_out inflate r bopt schema Hincs Hfl Hnd c Hc x _ v out Hsim Hf Hcap) as Hout.
  pose proof (fun out => deliver_inv inflate r bopt schema Hincs Hfl Hnd c Hc x _ v out Hsim Hf Hcap) as Hinv.
  split; [intros H; apply Hout, I0, H|]. split; [intros H; apply Hout, I1, H|]. split.
  { intros H out Hb. destruct (Hinv _ Hb) as (q & Hq & _). eapply I2; eassumption. }
  intros Hcr. split.
  - intros (bs & Hb & Hsh). apply (iterate_iff c ls last Hc Hne1 Htot). destruct (Hinv _ Hb) as (q & Hq & Hshq).
    destruct (columns_read bopt None schema) as [|[t p] rest] eqn:Ecr; [contradiction|].
    assert (Ht : In (t, p) ((t, p) :: rest)) by (left; reflexivity).
    assert (Hsg : single (col t) (concat (ls ++ [last]))) by (rewrite Forall_forall in Hst; exact (Hst _ Ht)).
    pose proof (shows_length _ _ _ (Hsh _ _ Ht)) as L1. pose proof (shows_length _ _ _ (Hshq _ _ Ht)) as L2.
    rewrite (single_length _ _ Hsg) in L1.
    assert (Hlt : forall q', Iter c (opened (ls ++ [last])) q' -> (forall z, In z q' -> In z (concat (ls ++ [last]))) -> length q' = length (concat (ls ++ [last]))).
    { intros q' Hq' Hin. assert (q' = q) as -> by (eapply iter_fun; eassumption). rewrite <- L1, L2. symmetry. apply single_length.
      unfold single in *. rewrite Forall_forall in *. intros z Hz. apply Hsg, Hin, Hz. }
    assert (Hal : lost c ls = 0%nat \/ lost c ls = 1%nat \/ (lost c ls >= 2)%nat) by lia.
    rewrite concat_app in *. cbn [concat] in *. rewrite app_nil_r in *. destruct Hal as [H0|[H0|H0]].
    + pose proof (Hlt _ (I0 H0)) as Hl. rewrite !app_length in Hl.
      destruct (Z.eq_dec ((zlen last - 1) mod c) 0) as [Hz|Hz].
      * exfalso. apply Forall_app in Hne1. destruct Hne1 as [_ Hla]. assert (Hla1 : 1 <= zlen last) by (inversion Hla; assumption).
        pose proof (delivered_last_shorter c last Hla1 Hz).
        assert (length (concat ls) + length (delivered_last c last) = length (concat ls) + length last)%nat; [|lia].
        apply Hl. intros z Hzz. apply in_app_or in Hzz. apply in_or_app. destruct Hzz; [left; assumption|right; eapply delivered_last_incl; eassumption].
      * specialize (I0 H0). unfold delivered_last in I0. destruct (Z.eqb_spec ((zlen last - 1) mod c) 0); [contradiction|exact I0].
    + exfalso. pose proof (Hlt _ (I1 H0)) as Hl. rewrite !app_length in Hl. pose proof (delivered_shorter c ls).
      assert (length (concat (map (delivered c) ls)) + length last = length (concat ls) + length last)%nat; [|lia].
      apply Hl. intros z Hzz. apply in_app_or in Hzz. apply in_or_app. destruct Hzz as [Hzz|Hzz]; [left|right; exact Hzz].
      clear - Hzz. apply in_concat in Hzz. destruct Hzz as (l & Hl & Hzz). apply in_map_iff in Hl. destruct Hl as (l' & <- & Hl'). apply in_concat. exists l'. split; [exact Hl'|]. eapply delivered_incl. exact Hzz.
    + exfalso. eapply I2; eassumption.
  - intros H. apply Hout. apply (iterate_iff c ls last Hc Hne1 Htot). exact H.
Qed.


Section Claims.
Variable deflate : list (list Z) -> list Z -> res (list Z).
Variable inflate : list Z -> res (list Z).
Variable F : floats.
Variable o : opts.
Variables stride StripeSize : Z.
Hypothesis Hflate : flate_ok deflate inflate.
Hypothesis Hcs : 1 <= ChunkSize o < 2 ^ 23.
Variables (t0 schema : td) (vs : list (cvec value)) (rows : list (row value)) (file : list Z).
Hypothesis Hsize : size t0 <= 2 ^ 32.
Hypothesis Hnorm : NormalizeSchema t0 = Ok schema.
Hypothesis Hclosed : closed deflate (columns deflate F o stride) wire o StripeSize schema vs file.
Hypothesis Hfile : zlen file < 2 ^ 62.
Hypothesis Hrows : Rows vs rows.
Hypothesis Hnrows : zlen rows < 2 ^ 62.
Variable r : fileR colstats.
Hypothesis Hopen : newFileReader inflate cs_hasNull unmarshalPS unmarshalFooter file = Ok r.
Variable bopt : batchOption.
Hypothesis Hread : readable_schema bopt false schema = true.
Hypothesis Hinc : IsInclude bopt 0 = true.
Hypothesis Hrow : RowSize bopt <> 0.

Lemma schema_ids : td_id schema = 0 /\ NoDup (map td_id (flatten schema)).
Proof.
  assert (Hs32 : size t0 <= 4294967296) by exact Hsize.
  destruct (normalize_spec _ _ Hs32 Hnorm) as (_ & Hnum & _). rewrite (Numbered_flat _ _ Hnum). split; [destruct schema; exact (proj1 (proj1 (Numbered_eq _ _ _ _ _ _ _) Hnum))|apply count_up_NoDup].
Qed.

Lemma client ls last : rows = concat (ls ++ [last]) -> map NumberOfRows (fr_stripes r) = map zlen (ls ++ [last]) ->
  Forall (fun l => l <> []) (ls ++ [last]) ->
  Forall (fun q => storable (fst q) (snd q) (ls ++ [last])) (columns_read bopt None schema) ->
  exists x, openBatches inflate bopt file = Ok (r, x) /\
    forall c v, 0 < c -> fits bopt c false schema v -> Cap v = c ->
    ((lost c ls = 0)%nat -> delivers inflate bopt schema r x v (concat ls ++ delivered_last c last)) /\
    ((lost c ls = 1)%nat -> delivers inflate bopt schema r x v (concat (map (delivered c) ls) ++ last)) /\
    ((lost c ls >= 2)%nat -> forall out, ~ Batches inflate r x v out) /\
    (columns_read bopt None schema <> [] ->
     (delivers inflate bopt schema r x v rows <->
      Forall (fun l => zlen l = 1 \/ (zlen l - 1) mod c <> 0) ls /\ (zlen last - 1) mod c <> 0)).
Proof.
  intros E1 E2 Hne Hst.
  destruct (file_batches deflate inflate F o stride StripeSize Hflate Hcs t0 schema vs rows file Hsize Hnorm Hclosed Hfile Hrows Hnrows r Hopen bopt Hread Hinc Hrow)
    as (rss & R1 & R2 & R3).
  assert (rss = ls ++ [last]) as -> by (apply same_cut; congruence).
  destruct (R3 Hne Hst) as (x & Hx & Hfl & Hsim0). pose proof (SimW_opened _ _ _ _ _ _ Hsim0 ltac:(destruct ls; discriminate)) as Hsim. exists x. split; [exact Hx|].
  destruct schema_ids as [Hid Hnd]. assert (Hincs : IsInclude bopt (td_id schema) = true) by (rewrite Hid; exact Hinc).
  rewrite E1. apply client_of; auto.
  - rewrite <- E1. exact Hnrows.
  - eapply Forall_impl; [|exact Hst]. intros q Hq. apply Hq.
Qed.

(** The rows are in fact cut that way. *)
Lemma cut : exists rss, rows = concat rss /\ map NumberOfRows (fr_stripes r) = map zlen rss.
Proof.
  destruct (file_batches deflate inflate F o stride StripeSize Hflate Hcs t0 schema vs rows file Hsize Hnorm Hclosed Hfile Hrows Hnrows r Hopen bopt Hread Hinc Hrow)
    as (rss & R1 & R2 & R3). exists rss. auto.
Qed.
End Claims.

(** ** CreateVector *)
Lemma initial_null k n : Forall (fun v => Null v = false) (repeat (initialValue k) n).
Proof. apply Forall_forall. intros v Hv. apply repeat_spec in Hv. subst. reflexivity. Qed.

Lemma createVector_fits bopt ok : NotCreateVector bopt = false -> 0 < RowSize bopt -> forall t par w, schema_of_kinds bopt ok par t = true ->
  createVector bopt t = Ok (Some w) -> fits bopt (RowSize bopt) par t (batchOf w).
Proof.
  intros Hnc Hrs t. induction t as [id k ns e h cs IH] using td_rect'. intros par w Hr Hw.
  cbn [createVector] in Hw. cbn [schema_of_kinds] in Hr. destruct (IsInclude bopt id) eqn:Hi; [|discriminate]. rewrite Hnc in Hw.
  assert (Hz : RowSize bopt =? 0 = false) by lia.
  assert (Hlen : zlen (repeat (initialValue k) (Z.to_nat (RowSize bopt)) ++ []) = RowSize bopt) by (rewrite app_nil_r; unfold zlen; rewrite repeat_length; lia).
  assert (Hleaf : isCompound k = false -> cs = [] -> w = Vec id k (RowSize bopt) [] -> fits bopt (RowSize bopt) par (Td id k ns e h cs) (batchOf w)).
  { intros Hk -> ->. cbn [batchOf flat_map]. rewrite Hz. constructor; [exact Hk|exact Hlen|]. intros _ _. rewrite app_nil_r. apply initial_null. }
  destruct (readerKind k e) as [ck| |] eqn:Ek; try discriminate.
  assert (Hcs : k <> STRUCT -> cs = []).
  { intros Hk. assert (ck <> KStruct) by (intros ->; apply Hk; apply readerKind_struct with (e := e); exact Ek).
    destruct cs; [reflexivity|]. destruct ck; try congruence; rewrite andb_false_r in Hr; discriminate. }
  destruct k; try (apply Hleaf; [reflexivity|apply Hcs; discriminate|congruence]); try (exfalso; unfold readerKind in Ek; discriminate).
  1:{ (* STRUCT *)
    assert (ck = KStruct) as -> by (unfold readerKind in Ek; destruct (e =? 0); congruence).
    apply andb_true_iff in Hr. destruct Hr as [Hp Hr]. apply rbind_inv in Hw. destruct Hw as (vs & Hgo & Hw).
    rewrite andb_true_r in Hw. assert (w = Vec id STRUCT (if h then RowSize bopt else 0) vs) as -> by congruence.
    cbn [batchOf]. constructor.
    - destruct h; [rewrite Hz|reflexivity]. eauto.
    - intros ->. destruct h; [reflexivity|discriminate].
    - clear Hleaf Hcs Hw Ek Hi Hlen. revert vs Hgo. induction cs as [|x cs IHc]; intros vs Hgo.
      + assert (vs = []) as -> by congruence. constructor.
      + inversion IH as [|? ? Hx Hxs]; subst. cbn [forallb] in Hr. apply andb_true_iff in Hr. destruct Hr as [Hr1 Hr2].
        apply rbind_inv in Hgo. destruct Hgo as (v & Hv & Hgo). apply rbind_inv in Hgo. destruct Hgo as (vs' & Hvs & Hgo).
        specialize (IHc Hxs Hr2 vs' Hvs). unfold kept. cbn [filter]. fold (kept bopt cs).
        assert (Hxi : IsInclude bopt (td_id x) = true <-> v <> None).
        { destruct x as [i' k' n' e' h' c']. cbn [createVector td_id] in *. destruct (IsInclude bopt i'); [|split; [discriminate|intros Q; exfalso; apply Q; congruence]].
          split; [|reflexivity]. intros _ ->.
          destruct k'; try discriminate Hv; try (apply rbind_inv in Hv; destruct Hv as (? & _ & Hv); discriminate Hv);
            destruct c' as [|? [|? ?]]; try discriminate Hv; repeat (apply rbind_inv in Hv; destruct Hv as (? & _ & Hv)); discriminate Hv. }
        destruct v as [w|].
        * rewrite (proj2 Hxi) by discriminate. assert (vs = Some w :: vs') as -> by congruence. cbn [flat_map app]. constructor; [|exact IHc].
          apply Hx; assumption.
        * destruct (IsInclude bopt (td_id x)); [exfalso; apply (proj1 Hxi); reflexivity|]. assert (vs = vs') as -> by congruence. exact IHc. }
Qed.
Lemma fits_Cap bopt c t : forall par v, fits bopt c par t v -> Cap v = c \/ Cap v = 0.
Proof.
  induction t as [id k ns e h cs IH] using td_rect'. intros par v H. inversion H as [? ? ? ? ? ? a rest Hk Hl Hn|? ? ? ? ? ? s vs Hs Hp Hv]; subst.
  - left. reflexivity.
  - destruct h.
    + destruct Hs as (a & rest & -> & Hl). left. exact Hl.
    + subst s. cbn [Cap]. inversion Hv as [|x w l m Hx Hxs E1 E2]; [right; reflexivity|]. subst.
      assert (Hin : In x cs) by (assert (Hin : In x (kept bopt cs)) by (rewrite <- E1; left; reflexivity); apply filter_In in Hin; apply Hin).
      rewrite Forall_forall in IH. eapply IH; eassumption.
Qed.
