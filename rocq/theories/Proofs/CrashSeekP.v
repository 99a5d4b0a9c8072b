(** Seeking in files of which nothing is known. *)
From Coq Require Import ZifyBool ZifyNat.
From Verif.Model Require Import Go Codec ByteBool IntRle Chunk Stream Schema Rows Time File Column Wire Tree Assembled.
From Verif.Spec Require Import RowsSpec FileSpec ColumnSpec EndSpec OrcColumn OrcFile ProjectSpec ProgressSpec CrashSpec.
From Verif.Proofs Require Import Base StripeNpP SchemaP TreeP ProjectP ProgressP CrashP SeekP SkipP.

(** ** One column *)
Section Column.
Variable inflate : list Z -> res (list Z).
Variable o : opts.
Hypothesis Htame : tame inflate.
Hypothesis Hchunk : CompressionKind o = NONE -> 0 < ChunkSize o.
Lemma chunk_ok r : okR r -> fine okR (readAChunk inflate o r).
Proof.
  intros H. destruct (Z_lt_dec (r_readLength r) (r_length r)) as [Hl|Hl].
  - pose proof (chunk_fine inflate o Htame Hchunk r H (or_introl Hl)) as F. destruct (readAChunk inflate o r); cbn in *; tauto.
  - assert (Hk : CompressionKind o = NONE \/ CompressionKind o <> NONE) by (destruct (CompressionKind o); [left; reflexivity|right; discriminate..]).
    destruct Hk as [Ek|Ek]; [|pose proof (chunk_fine inflate o Htame Hchunk r H (or_intror Ek)) as F; destruct (readAChunk inflate o r); cbn in *; tauto].
    destruct H as (F & R & B & L & RL). unfold readAChunk. rewrite Ek. eapply fine_bind; [apply copyN_fine; exact R|]. intros [p rest] (Hp & Hr & _). cbn [fst snd] in *. cbn [fine].
    unfold okR. cbn. split; [exact F|]. split; [exact Hr|]. split; [apply bytes_app; auto|]. split; [exact L|apply u64_range].
Qed.
Lemma seek_ok a n r : is_u64 a -> okR r -> fine okR (r_seek inflate o a n r).
Proof.
  intros Ha (F & R & B & L & RL). unfold r_seek. eapply fine_bind; [apply chunk_ok|].
  - unfold okR. cbn. split; [exact F|]. split; [apply bytes_zdrop; exact F|]. split; [constructor|]. split; [exact L|exact Ha].
  - intros r' (F' & R' & B' & L' & RL'). cbn [fine]. unfold okR. cbn. split; [exact F'|]. split; [exact R'|]. split; [apply bytes_zdrop; exact B'|]. split; assumption.
Qed.
Lemma u64_0 : is_u64 0. Proof. unfold is_u64. lia. Qed.
Lemma vseek_ok v : okV v -> fine okV (seekRun inflate o DecodeByteRL [0; 0; 0] v).
Proof.
  intros [H _]. unfold seekRun, v_Seek. eapply fine_bind; [apply seek_ok; [exact u64_0|exact H]|]. intros s Hs. cbn. split; [exact Hs|constructor].
Qed.
Lemma bseek_ok b : okB b -> fine okB (seekBool inflate o [0; 0; 0; 0] b).
Proof. intros H. unfold seekBool, bool_Seek. eapply fine_bind; [apply (vseek_ok (bl_r b)); exact H|]. intros r Hr. exact Hr. Qed.
Lemma back_ok c : okC c -> fine okC (SeekStride inflate o 0 c).
Proof.
  intros (K & P & D). unfold SeekStride. assert (match cr_kind c with KDate => true | _ => false end = false) as -> by (destruct (cr_kind c); try discriminate K; reflexivity). cbn [Z.eqb andb negb].
  unfold seekTo. apply (fine_bind (fun c1 => okC c1 /\ cr_kind c1 = cr_kind c)).
  - destruct (cr_present c) as [b|] eqn:Ep; [|cbn; split; [split; [exact K|rewrite Ep; auto]|reflexivity]].
    eapply fine_bind; [apply bseek_ok; exact P|]. intros b' Hb. cbn. split; [|reflexivity]. split; [exact K|]. split; [exact Hb|exact D].
  - intros c1 [(K1 & P1 & D1) E]. assert (hasSecond (cr_kind c) = false) as -> by (destruct (cr_kind c); try discriminate K; reflexivity).
    apply (fine_bind (fun d => okD (cr_kind c1) (Some d))); [|intros d Hd; cbn; split; [exact K1|split; [exact P1|exact Hd]]].
    rewrite <- E. unfold okD in D1 |- *. destruct (cr_kind c1) eqn:Ek; try discriminate K1; destruct (cr_data c1) as [[v|b|r]|]; try contradiction; cbn [seekData dataDec dataExtra repeat].
    + eapply fine_bind; [apply vseek_ok; exact D1|]. intros v' Hv. exact Hv.
    + eapply fine_bind; [apply bseek_ok; exact D1|]. intros v' Hv. exact Hv.
    + eapply fine_bind; [apply seek_ok; [exact u64_0|exact D1]|]. intros v' Hv. exact Hv.
    + eapply fine_bind; [apply seek_ok; [exact u64_0|exact D1]|]. intros v' Hv. exact Hv.
Qed.
Lemma skip_ok c : okC c -> fine okC (Skip inflate o 1 c).
Proof.
  intros (K & P & D). unfold Skip. change (Z.to_nat (i64 1)) with 1%nat. cbn [skipRows].
  eapply fine_bind; [apply (present_fine inflate o Htame Hchunk); exact P|]. intros [null c1] (P1 & K1 & D1). cbn [fst snd] in *.
  assert (H1 : okC c1) by (unfold okC; rewrite K1, D1; auto). destruct null; [exact H1|].
  eapply fine_bind; [eapply fine_bind; [apply (value_fine inflate o Htame Hchunk); exact H1|]|]; [intros [g c2] H2; exact H2|]. intros c2 H2. exact H2.
Qed.
Lemma deed_ok c a : okC c -> fine (fun r => exists c', r = RCol c' /\ okC c') (doDeed inflate o (RCol c) a).
Proof.
  intros H. destruct a as [vec| |]; cbn [doDeed].
  - eapply fine_bind; [apply (batch_fine inflate o Htame Hchunk vec); exact H|]. intros [x c'] H'. exists c'. auto.
  - eapply fine_bind; [apply back_ok; exact H|]. intros c' H'. exists c'. auto.
  - eapply fine_bind; [apply skip_ok; exact H|]. intros c' H'. exists c'. auto.
Qed.
Lemma okC_steady c : okC c -> steady inflate o (RCol c).
Proof.
  intros H l _. revert c H. induction l as [|a l IH]; intros c H; cbn [doDeeds]; [discriminate|].
  pose proof (deed_ok c a H) as F. destruct (doDeed inflate o (RCol c) a) as [r| |]; cbn [fine rbind] in *; [|discriminate|contradiction]. destruct F as (c' & -> & H'). apply IH. exact H'.
Qed.
Lemma sturdy_steady file k h l r : bytes file -> lengths_ok l -> has_stream sDATA l ->
  sturdy k = true -> openColumn inflate o file (RCol (newColR k h)) l = Ok r -> steady inflate o r.
Proof.
  intros Hf Hl Hd Hk H. destruct (open_col inflate o file l Hf (newColR k h) r Hl) as (c' & -> & (K & P & D) & Ek & Hn); [split; [exact Hk|split; [exact I|left; reflexivity]]|exact H|].
  apply okC_steady. split; [exact K|]. split; [exact P|]. destruct D as [D|D]; [|exact D]. exfalso. exact (Hn (or_introl Hd) D).
Qed.

(** A steady column stays steady. *)
Lemma deed_kind c a r : doDeed inflate o (RCol c) a = Ok r -> exists c', r = RCol c' /\ cr_kind c' = cr_kind c.
Proof.
  intros H. destruct a as [vec| |]; cbn [doDeed] in H; apply rbind_inv in H.
  - destruct H as ([x c'] & H & E). exists c'. split; [congruence|]. eapply NextBatch_kind. exact H.
  - destruct H as (c' & H & E). exists c'. split; [congruence|]. apply (same_kind c c'). eapply SeekStride_same. exact H.
  - destruct H as (c' & H & E). exists c'. split; [congruence|]. apply (same_kind c c'). unfold Skip in H. eapply skipRows_base. exact H.
Qed.
Lemma deed_dict d a r : doDeed inflate o (RDict d) a = Ok r -> exists d', r = RDict d'.
Proof. destruct a; cbn [doDeed]; intros H; apply rbind_inv in H; [destruct H as ([x d'] & _ & E)|destruct H as (d' & _ & E)..]; exists d'; congruence. Qed.
Lemma steady_deed r a : steady inflate o r -> fitting r a -> fine (fun r' => steady inflate o r') (doDeed inflate o r a).
Proof.
  intros H Ha. destruct (doDeed inflate o r a) as [r'| |] eqn:E; cbn [fine]; [|exact I|].
  - destruct r as [c|d| |]; try contradiction.
    + destruct (deed_kind c a r' E) as (c' & -> & K). intros l Hl Hp. apply (H (a :: l)); [constructor; [exact Ha|]|cbn [doDeeds]; rewrite E; exact Hp].
      eapply Forall_impl; [|exact Hl]. intros x Hx. destruct x; cbn [fitting] in *; [rewrite <- K; exact Hx|exact I..].
    + destruct (deed_dict d a r' E) as (d' & ->). intros l Hl Hp. apply (H (a :: l)); [constructor; [exact Ha|]|cbn [doDeeds]; rewrite E; exact Hp].
      eapply Forall_impl; [|exact Hl]. intros x Hx. exact I.
  - destruct r as [c|d| |]; try contradiction; apply (H [a]); [constructor; [exact Ha|constructor]|cbn [doDeeds]; rewrite E; reflexivity|constructor; [exact Ha|constructor]|cbn [doDeeds]; rewrite E; reflexivity].
Qed.
Lemma steady_col c vec : steady inflate o (RCol c) -> Forall (typed (cr_kind c)) vec -> fine (fun y => steady inflate o (RCol (snd y))) (NextBatch inflate o c vec).
Proof.
  intros H Hv. pose proof (steady_deed (RCol c) (DNext vec) H Hv) as F. cbn [doDeed] in F. destruct (NextBatch inflate o c vec) as [[x c']| |]; exact F.
Qed.
Lemma steady_dict d vec : steady inflate o (RDict d) -> fine (fun y => steady inflate o (RDict (snd y))) (dict_NextBatch inflate o d vec).
Proof.
  intros H. pose proof (steady_deed (RDict d) (DNext vec) H I) as F. cbn [doDeed] in F. destruct (dict_NextBatch inflate o d vec) as [[x c']| |]; exact F.
Qed.
Lemma steady_calm r : steady inflate o r -> calm inflate o r.
Proof.
  destruct r as [c|d| |]; cbn; try tauto.
  - intros H vec Hv. pose proof (steady_col c vec H Hv) as F. intros E. rewrite E in F. exact F.
  - intros H vec. pose proof (steady_dict d vec H) as F. intros E. rewrite E in F. exact F.
Qed.

(** ** The tree *)
Variable b : batchOption.
Notation Q := (steady inflate o).
Lemma each_fine (f : ctree -> res ctree) cs (g : list ctree -> res (list ctree)) :
  (forall ks, g ks = match ks with [] => Ok [] | t :: r => let! t' := f t in let! r' := g r in Ok (t' :: r') end) ->
  Forall (fun c => IsInclude b (td_id c) = true -> forall a, calmT b Q c a -> fine (calmT b Q c) (f a)) cs ->
  forall ks, each b (calmT b Q) cs ks -> fine (each b (calmT b Q) cs) (g ks).
Proof.
  intros Hg H. induction H as [|c cs Hc _ IH]; intros ks Hk; cbn [each] in *; [subst; rewrite Hg; reflexivity|].
  destruct (IsInclude b (td_id c)) eqn:Ei; [|apply IH; exact Hk]. destruct Hk as (a & ks' & -> & Ha & Hk). rewrite Hg.
  eapply fine_bind; [apply (Hc eq_refl a Ha)|]. intros a' Ha'. eapply fine_bind; [apply IH; exact Hk|]. intros ks'' Hk'. cbn. exists a', ks''. auto.
Qed.
Lemma tree_back t : IsInclude b (td_id t) = true -> forall a, calmT b Q t a -> fine (calmT b Q t) (tree_SeekStride inflate o 0 a).
Proof.
  induction t as [id k ns e h cs IH] using td_rect'. intros Hi a Ha. destruct (tkind_dec k) as [->|Hk].
  - destruct Ha as (p & i & ks & -> & Hp & Hph & Hks). cbn [tree_SeekStride].
    apply (fine_bind (fun p' => okP p' /\ (p' <> None -> h = true))).
    + destruct p as [x|]; [|cbn; auto]. cbn [Z.eqb rbind]. eapply fine_bind; [apply bseek_ok; exact Hp|]. intros x' Hx. cbn. split; [exact Hx|]. intros _. apply Hph. discriminate.
    + intros p' [Hp' Hph']. match goal with |- fine _ (rbind (?g ks) _) => apply (fine_bind (each b (calmT b Q) cs)); [apply (each_fine (tree_SeekStride inflate o 0) cs g)|] end.
      * intros [|? ?]; reflexivity.
      * eapply Forall_impl; [|exact IH]. intros c Hc Hci. apply Hc. exact Hci.
      * exact Hks.
      * intros ks' Hk'. cbn [fine]. exists p', i, ks'. auto.
  - rewrite calmT_other in Ha by exact Hk. destruct a as [c|d| | |]; try contradiction; cbn [tree_SeekStride]; destruct Ha as (Hc & T1 & T2).
    + pose proof (steady_deed (RCol c) DBack Hc I) as F. cbn [doDeed] in F. destruct (SeekStride inflate o 0 c) as [c'| |] eqn:E; cbn [rbind fine] in *; [|exact I|exact F].
      apply calmT_other; [exact Hk|]. split; [exact F|]. rewrite (same_kind c c' (SeekStride_same _ _ _ _ _ E)). auto.
    + pose proof (steady_deed (RDict d) DBack Hc I) as F. cbn [doDeed] in F. destruct (dict_SeekStride inflate o 0 d) as [d'| |] eqn:E; cbn [rbind fine] in *; [|exact I|exact F].
      apply calmT_other; [exact Hk|]. auto.
Qed.
Lemma tree_skip1 t : IsInclude b (td_id t) = true -> forall a, calmT b Q t a -> fine (calmT b Q t) (tree_Skip1 inflate o a).
Proof.
  induction t as [id k ns e h cs IH] using td_rect'. intros Hi a Ha. destruct (tkind_dec k) as [->|Hk].
  - destruct Ha as (p & i & ks & -> & Hp & Hph & Hks).
    assert (Hkids : fine (each b (calmT b Q) cs) (skipKids (tree_Skip1 inflate o) ks)).
    { apply (each_fine (tree_Skip1 inflate o) cs); [intros [|? ?]; reflexivity| |exact Hks]. eapply Forall_impl; [|exact IH]. intros c Hc Hci. apply Hc. exact Hci. }
    destruct p as [x|].
    + rewrite tree_Skip1_null. eapply fine_bind; [apply (bnext_fine inflate o Htame Hchunk); exact Hp|]. intros [q x'] Hx. cbn [snd] in Hx.
      apply (fine_bind (each b (calmT b Q) cs)); [destruct q; [exact Hkids|exact Hks]|]. intros ks' Hk'. cbn [fine]. exists (Some x'), i, ks'. split; [reflexivity|]. split; [exact Hx|]. split; [intros _; apply Hph; discriminate|exact Hk'].
    + rewrite tree_Skip1_plain. eapply fine_bind; [exact Hkids|]. intros ks' Hk'. cbn [fine]. exists None, i, ks'. auto.
  - rewrite calmT_other in Ha by exact Hk. destruct a as [c|d| | |]; try contradiction; destruct Ha as (Hc & T1 & T2).
    + rewrite tree_Skip1_leaf. pose proof (steady_deed (RCol c) DSkip Hc I) as F. cbn [doDeed] in F. unfold Skip in F. change (Z.to_nat (i64 1)) with 1%nat in F.
      destruct (skipRows inflate o 1 c) as [c'| |] eqn:E; cbn [rbind fine] in *; [|exact I|exact F].
      apply calmT_other; [exact Hk|]. split; [exact F|]. rewrite (same_kind c c' (skipRows_base _ _ _ _ _ E)). auto.
    + change (tree_Skip1 inflate o (CDict d)) with (let! d' := dict_Skip1 inflate o d in Ok (CDict d')).
      pose proof (steady_deed (RDict d) DSkip Hc I) as F. cbn [doDeed] in F. destruct (dict_Skip1 inflate o d) as [d'| |] eqn:E; cbn [rbind fine] in *; [|exact I|exact F].
      apply calmT_other; [exact Hk|]. auto.
Qed.
Lemma tree_skips t : IsInclude b (td_id t) = true -> forall n a, calmT b Q t a -> fine (calmT b Q t) (treeSkip inflate o n a).
Proof.
  intros Hi. unfold treeSkip. induction n as [|n IH]; intros a Ha; cbn [times]; [exact Ha|]. eapply fine_bind; [apply tree_skip1; [exact Hi|exact Ha]|]. exact IH.
Qed.
(** The offset within the stripe: no division by zero when there is a stride. *)
Lemma offset_fine stride row : u64 stride <> 0 -> is_u64 row -> fine (fun _ => True)
  (if row <? u64 stride then Ok row else if u64 stride =? 0 then Panic
   else let s := row / u64 stride in if u64 (s * u64 stride) =? 0 then Panic else Ok (row mod u64 (s * u64 stride))).
Proof.
  intros Hs Hr. pose proof (u64_range stride) as Hu. unfold is_u64 in *. destruct (Z.ltb_spec row (u64 stride)) as [|Hge]; [exact I|]. destruct (Z.eqb_spec (u64 stride) 0) as [|_]; [contradiction|]. cbv zeta.
  assert (H1 : 1 <= row / u64 stride) by (apply Z.div_le_lower_bound; lia).
  assert (H2 : u64 stride * (row / u64 stride) <= row) by (apply Z.mul_div_le; lia).
  rewrite u64_id by (unfold is_u64; nia). destruct (Z.eqb_spec (row / u64 stride * u64 stride) 0) as [E|_]; [nia|exact I].
Qed.
Variable schema : td.
Hypothesis Hincl : IsInclude b (td_id schema) = true.
Lemma stripe_seek stride s row : u64 stride <> 0 -> is_u64 row -> okSt b Q schema s -> fine (okSt b Q schema) (stripeSeek inflate o stride s row).
Proof.
  intros Hs Hr (Hcur & Hrows & a & Ea & Ha). unfold stripeSeek. eapply fine_bind; [apply (offset_fine stride row Hs Hr)|]. intros off _. rewrite Ea.
  eapply fine_bind; [apply tree_back; [exact Hincl|exact Ha]|]. intros a1 H1. eapply fine_bind; [apply tree_skips; [exact Hincl|exact H1]|]. intros a2 H2.
  cbn [fine]. split; [exact Hcur|]. split; [exact Hrows|]. exists a2. auto.
Qed.
Lemma seek_stripes stride row : u64 stride <> 0 -> forall ss before, Forall (okSt b Q schema) ss ->
  fine (fun ss' => Forall (okSt b Q schema) ss' /\ length ss' = length ss) (seekStripes inflate o stride row before ss).
Proof.
  intros Hs. induction ss as [|s ss IH]; intros before H; cbn [seekStripes]; [exact I|]. inversion H as [|? ? H1 H2]; subst. destruct (_ <? _).
  - eapply fine_bind; [apply stripe_seek; [exact Hs|apply u64_range|exact H1]|]. intros s' Hs'. cbn. split; [constructor; assumption|reflexivity].
  - eapply fine_bind; [apply IH; exact H2|]. intros ss' [Hf Hl]. cbn. split; [constructor; assumption|congruence].
Qed.
Lemma seek_fine stride row x : u64 stride <> 0 -> okBr b Q schema x -> fine (okBr b Q schema) (readSeek inflate o stride x row).
Proof.
  intros Hs [Hf Hi]. unfold readSeek. destruct (_ <? _); [exact I|]. eapply fine_bind; [apply seek_stripes; [exact Hs|exact Hf]|]. intros ss [Hss Hl]. cbn [fine]. split; [exact Hss|]. cbn. lia.
Qed.
End Column.

(** ** Files *)
Lemma crash_seek inflate b file schema r x w l : reading inflate b file schema r x w -> tame inflate -> bytes file ->
  fr_stripes r <> [] -> not_nested b schema -> flat_nulls b schema -> u64 (fr_stride r) <> 0 ->
  (forall fs, stripe_footers inflate b file r fs -> Forall (fun f => lengths_ok (snd f)) fs /\
    forall f y c, In f fs -> In y (flatten schema) -> IsInclude b (td_id y) = true -> td_kind y <> STRUCT -> column_alone inflate (readerOpts r) file f y c -> steady inflate (readerOpts r) c) ->
  calls inflate r x (batchOf w) l <> Panic.
Proof.
  intros H Ht Hfile Hne Hnest Hflat Hst Hcols.
  destruct (opened_calm inflate b file schema r x w (steady inflate (readerOpts r)) H Hfile Hne Hnest Hcols) as (Hch & Hc & Hf & Hi & Hw & Hx).
  clear - Ht Hch Hc Hf Hi Hw Hx Hnest Hflat Hst. revert Hw Hx. generalize (RowSize b) at 1 as m. generalize (batchOf w) as v. revert x.
  induction l as [|[|row] l IH]; intros x v m Hw Hx; cbn [calls]; [discriminate|..].
  - pose proof (next_batch_fine inflate (readerOpts r) Ht Hch b _ (steady_col inflate _) (steady_dict inflate _) (fr_hasNulls r) schema _ Hc Hf Hnest Hflat Hi m x v Hw Hx) as F.
    unfold batchNext. destruct (readNext _ _ _ x v) as [[[x' w'] e]| |]; cbn [fine rbind] in *; [|discriminate|contradiction].
    destruct F as (Hx' & m' & Hw'). specialize (IH x' w' m' Hw' Hx'). destruct (calls inflate r x' w' l); cbn [rbind]; congruence.
  - assert (Hs : u64 (i64 (fr_stride r)) <> 0) by (rewrite u64_i64; exact Hst).
    pose proof (seek_fine inflate (readerOpts r) Ht Hch b schema Hi (i64 (fr_stride r)) row x Hs Hx) as F. unfold batchSeek.
    destruct (readSeek _ _ _ x row) as [x'| |]; cbn [fine rbind] in *; [|discriminate|contradiction]. exact (IH x' v m Hw F).
Qed.
Lemma crash_sturdy_seek inflate b file schema r x w l : reading inflate b file schema r x w -> tame inflate -> bytes file ->
  fr_stripes r <> [] -> flat_nulls b schema -> u64 (fr_stride r) <> 0 ->
  (forall y, In y (flatten schema) -> IsInclude b (td_id y) = true -> sturdyT (td_kind y) = true) ->
  (forall fs f, stripe_footers inflate b file r fs -> In f fs -> lengths_ok (snd f) /\
    forall y, In y (flatten schema) -> IsInclude b (td_id y) = true -> td_kind y <> STRUCT -> has_stream sDATA (own (td_id y) (snd f))) ->
  calls inflate r x (batchOf w) l <> Panic.
Proof.
  intros H Ht Hf Hne Hflat Hstr Hst Hfs. pose proof (open_chunk _ _ _ _ _ (rd_open _ _ _ _ _ _ _ H)) as Hch. apply (crash_seek inflate b file schema r x w l H Ht Hf Hne); [|exact Hflat|exact Hstr|].
  - intros y Hy Hi. specialize (Hst y Hy Hi). destruct (td_kind y); try discriminate Hst; exact I.
  - intros fs E. split; [apply Forall_forall; intros f Hin; apply (Hfs fs f E Hin)|]. intros f y c Hin Hy Hi Hk (e & r0 & A1 & A2 & A3).
    destruct (Hfs fs f E Hin) as [Hl Hd]. specialize (Hst y Hy Hi). specialize (Hd y Hy Hi Hk).
    assert (Hown : lengths_ok (own (td_id y) (snd f))) by (unfold lengths_ok, own in *; rewrite Forall_forall in *; intros z Hz; apply filter_In in Hz; apply Hl; apply Hz).
    assert (exists k, r0 = RCol (newColR k (td_hasNulls y)) /\ sturdy k = true) as (k & -> & Hk').
    { unfold newAnyR, readerKind in A2. destruct (td_kind y); try discriminate Hst; try congruence; (destruct (e =? 0); [|discriminate A2]); cbn [rbind] in A2; match type of A2 with Ok (RCol (newColR ?z _)) = _ => exists z end; (split; [congruence|reflexivity]). }
    eapply sturdy_steady; try eassumption.
Qed.
(** Without a stride there is a division by zero. *)
Lemma no_stride inflate b file schema r x w v : reading inflate b file schema r x w -> fr_stripes r <> [] -> u64 (fr_stride r) = 0 ->
  calls inflate r x v [CSeek 0] = Panic.
Proof.
  intros [_ _ _ _ (Hrow & Hsum & HT) Hopen _] Hne Hs. unfold openBatches in Hopen.
  apply rbind_inv in Hopen. destruct Hopen as (r' & E1 & Hopen). destruct (_ =? 0); [discriminate|]. apply rbind_inv in Hopen.
  destruct Hopen as (ss & E3 & Hopen). assert (r' = r) as -> by congruence.
  assert (x = {| br_stripes := ss; br_index := 0; br_total := fr_rows r; br_cursor := 0 |}) as -> by congruence. clear Hopen.
  destruct (fr_stripes r) as [|i l] eqn:El; [congruence|]. cbn [openStripes] in E3. destruct (Z.eqb_spec (NumberOfRows i) 0) as [|Hn]; [discriminate|].
  apply rbind_inv in E3. destruct E3 as (y & _ & E3). apply rbind_inv in E3. destruct E3 as (s & Es & E3). apply rbind_inv in E3. destruct E3 as (ss' & _ & E3). assert (ss = s :: ss') as -> by congruence.
  assert (Hr : sr_rows s = NumberOfRows i).
  { unfold newStripeRd in Es. apply rbind_inv in Es. destruct Es as (rs & _ & Es). apply rbind_inv in Es. destruct Es as (rs' & _ & Es). apply rbind_inv in Es. destruct Es as (u & _ & Es). apply rbind_inv in Es. destruct Es as (t & _ & Es).
    assert (s = {| sr_rows := NumberOfRows i; sr_cursor := 0; sr_tree := t |}) as -> by congruence. reflexivity. }
  assert (Hrow1 : Forall (fun n => 0 <= n) (map NumberOfRows (i :: l))) by (rewrite Forall_map; exact Hrow).
  destruct (sum_bounds _ Hrow1) as [_ Hrow2]. cbn [map] in Hrow1, Hrow2. inversion Hrow1; subst. inversion Hrow2; subst. cbn [map] in Hsum. change (2 ^ 63) with 9223372036854775808 in *.
  cbn [calls]. unfold batchSeek, readSeek. cbn [br_total br_stripes seekStripes]. replace (fr_rows r <? 0) with false by lia.
  rewrite Hr, u64_id by (unfold is_u64; lia). replace (0 <? 0 + NumberOfRows i) with true by lia.
  unfold stripeSeek. change (u64 (0 - 0)) with 0. rewrite u64_i64, Hs. reflexivity.
Qed.
