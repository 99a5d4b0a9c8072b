(** The layout of a written file. *)
From Verif.Model Require Import Go Chunk Stream Schema Rows File.
From Verif.Spec Require Import FileSpec.
From Verif.Proofs Require Import Base.

Lemma cvec_ind' {V} (P : cvec V -> Prop) :
  (forall id vals ch, Forall P ch -> P (CVec id vals ch)) -> forall v, P v.
Proof.
  intros H. fix IH 1. intros [id vals ch]. apply H.
  induction ch as [|c r IHr]; constructor; [apply IH|exact IHr].
Qed.

(** ** Lists *)
Lemma set_nth_length {B} (l : list B) n x : length (set_nth l n x) = length l.
Proof. revert n. induction l as [|y r IH]; intros [|n]; cbn; auto. Qed.
Lemma set_nth_same {B} (l : list B) n x y : nth_error l n = Some y -> nth_error (set_nth l n x) n = Some x.
Proof. revert n. induction l as [|z r IH]; intros [|n] H; cbn in *; try discriminate; auto. Qed.
Lemma set_nth_other {B} (l : list B) n m x : n <> m -> nth_error (set_nth l n x) m = nth_error l m.
Proof. revert n m. induction l as [|z r IH]; intros [|n] [|m] H; cbn in *; auto; try congruence. Qed.

Lemma mapM_spec {A B} (f : A -> res B) l : forall l', mapM f l = Ok l' ->
  length l' = length l /\ forall k x, nth_error l k = Some x ->
     exists y, nth_error l' k = Some y /\ f x = Ok y.
Proof.
  induction l as [|x r IH]; intros l' H; cbn [mapM] in H.
  - assert (l' = []) as -> by congruence. split; [reflexivity|]. intros [|k] y; discriminate.
  - apply rbind_inv in H. destruct H as (y & Hy & H). apply rbind_inv in H. destruct H as (ys & Hys & H).
    assert (l' = y :: ys) as -> by congruence. destruct (IH _ Hys) as [Hl Hk]. split; [cbn; congruence|].
    intros [|k] z Hz; cbn [nth_error] in *.
    + assert (z = x) as -> by congruence. eauto.
    + auto.
Qed.
Lemma mapM_total {A B} (f : A -> res B) l : (forall x, In x l -> exists y, f x = Ok y) ->
  exists l', mapM f l = Ok l'.
Proof.
  induction l as [|x r IH]; intros H; cbn [mapM]; [eauto|].
  destruct (H x (or_introl eq_refl)) as (y & ->). cbn [rbind].
  destruct IH as (ys & ->); [intros z Hz; apply H; right; exact Hz|]. cbn [rbind]. eauto.
Qed.

Lemma u64_sum4 a b c d e : u64 (u64 (a + b) + u64 c + u64 d + u64 e) = u64 (a + (b + (c + (d + e)))).
Proof.
  unfold u64. zlia.
Qed.

Section Layout.
Variable deflate : list (list Z) -> list Z -> res (list Z).
Variables C V ST : Type.
Variable cw_Write : C -> V -> res C.
Variable cw_Size : C -> Z.
Variable cw_Flush : C -> res C.
Variable cw_Index : C -> res (list Z).
Variable cw_WriteOut : C -> res (list Z * Z * C).
Variable cw_Infos : C -> list strm.
Variable cw_Stats : C -> ST.
Variable cw_Reset : C -> res C.
Variable newColumn : td -> res C.
Variable marshalSF : stripeFooter -> res (list Z).
Variable marshalFooter : footer ST -> res (list Z).
Variable marshalPS : postscript -> res (list Z).
Variable o : opts.
Variable StripeSize : Z.

(** ** Rows and columns *)
Fixpoint writeRow (cs : list C) (r : row V) : res (list C) :=
  match r with
  | [] => Ok cs
  | (id, x) :: t =>
      match nth_error cs id with
      | Some c => let! c' := cw_Write c x in writeRow (set_nth cs id c') t
      | None => Panic
      end
  end.
Lemma writeRow_app r : forall cs s, writeRow cs (r ++ s) = (let! cs' := writeRow cs r in writeRow cs' s).
Proof.
  induction r as [|[id x] r IH]; intros cs s; cbn [writeRow app rbind]; [reflexivity|].
  destruct (nth_error cs id) as [c|]; [|reflexivity].
  destruct (cw_Write c x) as [c'| |]; cbn [rbind]; auto.
Qed.

Lemma writeValue_cells i v : forall cs cs', writeValue cw_Write i v cs = Ok cs' ->
  exists r, cells i v = Some r /\ writeRow cs r = Ok cs'.
Proof.
  induction v as [id vals ch IH] using cvec_ind'. intros cs cs' H. cbn [writeValue] in H.
  apply rbind_inv in H. destruct H as (cs1 & H1 & H).
  assert (Hch : exists r, fold_right (fun c acc => match cells i c, acc with
                                           | Some a, Some b => Some (a ++ b) | _, _ => None end)
                             (Some []) ch = Some r /\ writeRow cs1 r = Ok cs').
  { clear H1 vals. revert cs1 H. induction ch as [|c r IHr]; intros cs1 H.
    - exists []. split; [reflexivity|exact H].
    - apply rbind_inv in H. destruct H as (cs2 & H2 & H). inversion IH as [|? ? Hc Hr]; subst.
      destruct (Hc _ _ H2) as (a & Ea & Ha). destruct (IHr Hr _ H) as (b & Eb & Hb).
      exists (a ++ b). cbn [fold_right]. rewrite Ea, Eb. split; [reflexivity|].
      rewrite writeRow_app, Ha. exact Hb. }
  destruct Hch as (r & Er & Hr). cbn [cells]. rewrite Er. destruct vals as [l|].
  - destruct (nth_error l i) as [x|]; [|discriminate]. destruct (nth_error cs id) as [c|] eqn:Ec; [|discriminate].
    apply rbind_inv in H1. destruct H1 as (c' & Hc & H1). exists ((id, x) :: r). split; [reflexivity|].
    cbn [writeRow]. rewrite Ec, Hc. cbn [rbind]. assert (set_nth cs id c' = cs1) as -> by congruence. exact Hr.
  - exists r. split; [reflexivity|]. assert (cs1 = cs) as -> by congruence. exact Hr.
Qed.
Lemma writeValue_total i v : forall cs r, cells i v = Some r ->
  writeValue cw_Write i v cs = writeRow cs r.
Proof.
  induction v as [id vals ch IH] using cvec_ind'. intros cs r H. cbn [cells] in H. cbn [writeValue].
  assert (Hch : forall cs1 r1, fold_right (fun c acc => match cells i c, acc with
                                           | Some a, Some b => Some (a ++ b) | _, _ => None end)
                             (Some []) ch = Some r1 ->
     (fix go (l : list (cvec V)) (cs : list C) : res (list C) :=
         match l with
         | [] => Ok cs
         | c :: r => let! cs' := writeValue cw_Write i c cs in go r cs'
         end) ch cs1 = writeRow cs1 r1).
  { clear H vals. induction ch as [|c t IHr]; intros cs1 r1 H; cbn [fold_right] in H.
    - assert (r1 = []) as -> by congruence. reflexivity.
    - destruct (cells i c) as [a|] eqn:Ea; [|discriminate].
      destruct (fold_right _ _ t) as [b|] eqn:Eb; [|discriminate].
      assert (r1 = a ++ b) as -> by congruence. inversion IH as [|? ? Hc Ht]; subst.
      rewrite (Hc _ _ Ea), writeRow_app. destruct (writeRow cs1 a) as [cs2| |]; cbn [rbind]; auto. }
  destruct vals as [l|].
  - destruct (nth_error l i) as [x|]; [|discriminate]. destruct (fold_right _ _ ch) as [r1|]; [|discriminate].
    assert (r = (id, x) :: r1) as -> by congruence. cbn [writeRow].
    destruct (nth_error cs id) as [c|]; [|reflexivity].
    destruct (cw_Write c x) as [c'| |]; cbn [rbind]; auto.
  - cbn [rbind]. auto.
Qed.

Lemma column_of_app c (a b : list (row V)) : column_of c (a ++ b) = column_of c a ++ column_of c b.
Proof. unfold column_of. rewrite concat_app, filter_app, map_app. reflexivity. Qed.
Lemma writeVals_app vs : forall c ws, writeVals cw_Write c (vs ++ ws) = (let! c' := writeVals cw_Write c vs in writeVals cw_Write c' ws).
Proof.
  induction vs as [|v t IH]; intros c ws; cbn [writeVals app rbind]; [reflexivity|].
  destruct (cw_Write c v); cbn [rbind]; auto.
Qed.

(** Columns [cs] are what [cs0] become after the rows [rs]. *)
Definition Mid (cs0 : list C) (rs : list (row V)) (cs : list C) : Prop :=
  Forall (fun x => (fst x < length cs0)%nat) (concat rs) /\ length cs = length cs0 /\
  forall k c0, nth_error cs0 k = Some c0 -> exists c, nth_error cs k = Some c /\
     writeVals cw_Write c0 (column_of k rs) = Ok c.
Lemma Mid_nil cs : Mid cs [] cs.
Proof.
  split; [constructor|]. split; [reflexivity|]. intros k c Hc. exists c. split; [exact Hc|reflexivity].
Qed.
Lemma Mid_row cs0 rs cs r cs' : Mid cs0 rs cs -> writeRow cs r = Ok cs' -> Mid cs0 (rs ++ [r]) cs'.
Proof.
  intros (Hf & Hl & Hk) H.
  assert (G : forall (r : row V) cs cs', writeRow cs r = Ok cs' ->
     Forall (fun x => (fst x < length cs)%nat) r /\ length cs' = length cs /\
     forall k c, nth_error cs k = Some c -> exists c', nth_error cs' k = Some c' /\
       writeVals cw_Write c (column_of k [r]) = Ok c').
  { clear. intros r. induction r as [|[id x] t IH]; intros cs cs' H; cbn [writeRow] in H.
    - assert (cs' = cs) as -> by congruence. split; [constructor|]. split; [reflexivity|].
      intros k c Hc. exists c. split; [exact Hc|]. reflexivity.
    - destruct (nth_error cs id) as [c|] eqn:Ec; [|discriminate].
      apply rbind_inv in H. destruct H as (c' & Hw & H). destruct (IH _ _ H) as (Hf & Hl & Hk).
      rewrite set_nth_length in Hf, Hl. split.
      { constructor; [|exact Hf]. cbn. apply nth_error_Some. congruence. }
      split; [exact Hl|]. intros k c0 Hc0. unfold column_of in *. cbn [concat app] in *. rewrite app_nil_r in *.
      cbn [filter fst]. destruct (Nat.eqb_spec id k) as [->|Hne].
      + assert (c0 = c) as -> by congruence.
        destruct (Hk k c' (set_nth_same cs k c' c Ec)) as (c2 & Hc2 & Hv). exists c2. split; [exact Hc2|].
        cbn [map snd writeVals]. rewrite Hw. cbn [rbind]. exact Hv.
      + apply Hk. rewrite set_nth_other by exact Hne. exact Hc0. }
  destruct (G r cs cs' H) as (Hf' & Hl' & Hk'). split; [|split].
  - rewrite concat_app. apply Forall_app. split; [exact Hf|]. cbn. rewrite app_nil_r.
    rewrite Hl in Hf'. exact Hf'.
  - congruence.
  - intros k c0 Hc0. destruct (Hk k c0 Hc0) as (c & Hc & Hv). destruct (Hk' k c Hc) as (c' & Hc' & Hv').
    exists c'. split; [exact Hc'|]. rewrite column_of_app, writeVals_app, Hv. exact Hv'.
Qed.

(** ** One stripe *)
Hypothesis Hws : writes_streams cw_Flush cw_WriteOut cw_Infos.

Lemma writeOutAll_spec cs : forall b n cs', (forall c, In c cs -> exists c0, cw_Flush c0 = Ok c) ->
  writeOutAll cw_WriteOut cs = Ok (b, n, cs') ->
  length cs' = length cs /\ u64 n = u64 (zlen b) /\
  exists sss, length sss = length cs /\ b = concat (concat sss) /\
    forall k c, nth_error cs k = Some c -> exists ss c', nth_error sss k = Some ss /\
      nth_error cs' k = Some c' /\ (exists n, cw_WriteOut c = Ok (concat ss, n, c')) /\
      map st_length (cw_Infos c') = map zlen ss.
Proof.
  induction cs as [|c r IH]; intros b n cs' Hfl H; cbn [writeOutAll] in H.
  - assert (b = [] /\ n = 0 /\ cs' = []) as (-> & -> & ->) by (repeat split; congruence).
    split; [reflexivity|]. split; [reflexivity|]. exists []. split; [reflexivity|]. split; [reflexivity|].
    intros [|k] c; discriminate.
  - apply rbind_inv in H. destruct H as ([[b1 n1] c'] & H1 & H).
    apply rbind_inv in H. destruct H as ([[b2 n2] r'] & H2 & H).
    assert (b = b1 ++ b2 /\ n = u64 (u64 n1 + n2) /\ cs' = c' :: r') as (-> & -> & ->) by (repeat split; congruence).
    destruct (Hfl c (or_introl eq_refl)) as (c0 & Hc0).
    destruct (Hws _ _ _ _ _ Hc0 H1) as (-> & ss & -> & Hss).
    destruct (IH _ _ _ (fun x Hx => Hfl x (or_intror Hx)) H2) as (Hl & Hn & sss & Hls & -> & Hk).
    split; [cbn; congruence|]. split.
    { rewrite zlen_app, u64_u64, u64_add_l, <- u64_add_r, Hn, u64_add_r. reflexivity. }
    exists (ss :: sss). split; [cbn; congruence|]. split; [cbn [concat]; rewrite concat_app; reflexivity|].
    intros [|k] x Hx; cbn [nth_error] in *.
    + assert (x = c) as -> by congruence. exists ss, c'. split; [reflexivity|]. split; [reflexivity|].
      split; [eauto|exact Hss].
    + apply Hk. exact Hx.
Qed.

Notation SImage encs := (StripeImage deflate C V cw_Write cw_Flush cw_Index cw_WriteOut cw_Infos marshalSF o encs).

Fixpoint zip3 (a : list (list Z)) (b : list (list (list Z))) (c : list (list strm)) : list colimage :=
  match a, b, c with
  | x :: a, y :: b, z :: c => {| ci_index := x; ci_streams := y; ci_infos := z |} :: zip3 a b c
  | _, _, _ => []
  end.
Lemma zip3_spec a : forall b c, length a = length b -> length a = length c ->
  map ci_index (zip3 a b c) = a /\ map ci_streams (zip3 a b c) = b /\ map ci_infos (zip3 a b c) = c /\
  length (zip3 a b c) = length a /\
  forall k x y z, nth_error a k = Some x -> nth_error b k = Some y -> nth_error c k = Some z ->
    nth_error (zip3 a b c) k = Some {| ci_index := x; ci_streams := y; ci_infos := z |}.
Proof.
  induction a as [|x a IH]; intros [|y b] [|z c] H1 H2; try discriminate.
  - repeat split; auto. intros [|k] ? ? ?; discriminate.
  - injection H1 as H1. injection H2 as H2. destruct (IH b c H1 H2) as (E1 & E2 & E3 & E4 & E5).
    cbn [zip3 map length ci_index ci_streams ci_infos]. rewrite E1, E2, E3, E4.
    repeat split; auto. intros [|k] x' y' z' Hx Hy Hz; cbn [nth_error] in *; [congruence|auto].
Qed.

Lemma flushOut_spec w w' cs0 rs : Mid cs0 rs (sw_cols w) ->
  flushOut deflate cw_Flush cw_Index cw_WriteOut cw_Infos marshalSF o w = Ok w' ->
  exists m, SImage (map td_enc (sw_schemas w)) cs0 rs m (sw_cols w') /\
    sw_out w' = sw_out w ++ im_bytes m /\ sw_infos w' = sw_infos w /\ sw_schemas w' = sw_schemas w /\
    sw_info w' = {| Offset := Offset (sw_info w);
                    IndexLength := u64 (IndexLength (sw_info w) + zlen (im_index m));
                    DataLength := u64 (DataLength (sw_info w) + zlen (concat (im_streams m)));
                    FooterLength := u64 (zlen (im_footer m));
                    NumberOfRows := NumberOfRows (sw_info w) |}.
Proof.
  intros (Hf & Hl & Hk) H. unfold flushOut in H.
  apply rbind_inv in H. destruct H as (cs & Hfl & H). apply rbind_inv in H. destruct H as (ib & Hib & H).
  apply rbind_inv in H. destruct H as ([[db n] cs'] & Hwo & H).
  apply rbind_inv in H. destruct H as (ft & Hft & H). apply rbind_inv in H. destruct H as ([cb rest] & Hcb & H).
  match type of H with Ok ?x = _ => assert (w' = x) as -> by congruence end. clear H.
  destruct (mapM_spec _ _ _ Hfl) as [Hlf Hkf].
  assert (Hib' : exists l, ib = concat l /\ length l = length cs /\
      forall k c, nth_error cs k = Some c -> exists x, nth_error l k = Some x /\
         if WriteIndex o then cw_Index c = Ok x else x = []).
  { destruct (WriteIndex o).
    - apply rbind_inv in Hib. destruct Hib as (l & Hm & Hi). exists l. destruct (mapM_spec _ _ _ Hm) as [Hml Hmk].
      split; [congruence|]. split; [exact Hml|]. exact Hmk.
    - assert (ib = []) as -> by congruence. exists (map (fun _ => []) cs). rewrite map_length.
      split; [clear; induction cs; cbn; auto|]. split; [reflexivity|]. intros k c Hc.
      rewrite nth_error_map, Hc. cbn. eauto. }
  destruct Hib' as (il & -> & Hill & Hilk).
  assert (Hpre : forall c, In c cs -> exists c0, cw_Flush c0 = Ok c).
  { intros c Hc. apply In_nth_error in Hc. destruct Hc as (k & Hc).
    assert (Hb : (k < length (sw_cols w))%nat) by (rewrite <- Hlf; apply nth_error_Some; congruence).
    destruct (nth_error (sw_cols w) k) as [c0|] eqn:E0; [|apply nth_error_None in E0; lia].
    destruct (Hkf k c0 E0) as (y & Hy & Hfy). exists c0. congruence. }
  destruct (writeOutAll_spec cs db n cs' Hpre Hwo) as (Hlo & Hn & sss & Hls & -> & Hko).
  assert (E1 : length il = length sss) by congruence.
  assert (E2 : length il = length (map cw_Infos cs')) by (rewrite map_length; congruence).
  destruct (zip3_spec il sss (map cw_Infos cs') E1 E2) as (Z1 & Z2 & Z3 & Z4 & Z5).
  exists {| im_cols := zip3 il sss (map cw_Infos cs'); im_footer := cb |}.
  unfold im_bytes, im_index, im_streams. cbn [im_cols im_footer sw_cols sw_out sw_infos sw_schemas sw_info].
  rewrite Z1, Z2. split; [|split; [reflexivity|split; [reflexivity|split; [reflexivity|]]]].
  2: { f_equal. rewrite <- u64_add_r, Hn, u64_add_r. reflexivity. }
  split; [exact Hf|]. cbn [im_cols im_footer]. split; [rewrite Z4; congruence|]. split; [congruence|]. split.
  - intros k c0 Hc0. destruct (Hk k c0 Hc0) as (c1 & Hc1 & Hv). destruct (Hkf k c1 Hc1) as (c2 & Hc2 & Hfl2).
    destruct (Hilk k c2 Hc2) as (x & Hx & Hxi). destruct (Hko k c2 Hc2) as (ss & c' & Hss & Hc' & Hw & Hm).
    exists {| ci_index := x; ci_streams := ss; ci_infos := cw_Infos c' |}, c'.
    split; [apply Z5; auto; rewrite nth_error_map, Hc'; reflexivity|]. split; [exact Hc'|].
    exists c1, c2. cbn [ci_index ci_streams ci_infos]. split; [exact Hv|]. split; [exact Hfl2|].
    split; [exact Hxi|]. split; [exact Hw|]. split; [reflexivity|exact Hm].
  - exists ft, rest. unfold im_infos. cbn [im_cols im_footer]. rewrite Z3, <- flat_map_concat_map. auto.
Qed.

(** ** Several stripes *)
Notation Strs encs := (Stripes deflate C V cw_Write cw_Size cw_Flush cw_Index cw_WriteOut cw_Infos cw_Reset marshalSF o StripeSize encs).
Notation Lvl := (Level C V cw_Write cw_Size).
Notation Opn := (Open C V cw_Write cw_Size StripeSize).
Notation Ct := (Cut C V cw_Write cw_Size StripeSize).
Lemma sw_size_sum cs : sw_size cw_Size cs = fold_right Z.add 0 (map cw_Size cs).
Proof. unfold sw_size. induction cs as [|c r IH]; cbn [fold_right map]; [reflexivity|]. rewrite IH. reflexivity. Qed.
Lemma Mid_Level cs0 rs cs : Mid cs0 rs cs -> Lvl cs0 rs (sw_size cw_Size cs).
Proof. intros (_ & Hl & Hk). exists cs. split; [exact Hl|]. split; [exact Hk|]. apply sw_size_sum. Qed.
Lemma Open_nil cs : Opn cs [].
Proof. intros a b E Hne. destruct a; [congruence|discriminate E]. Qed.
Lemma Open_snoc cs rs r n : Opn cs rs -> Lvl cs (rs ++ [r]) n -> n < StripeSize -> Opn cs (rs ++ [r]).
Proof.
  intros Ho Hl Hn a b E Hne. destruct b as [|x b] using rev_ind.
  - rewrite app_nil_r in E. subst a. eauto.
  - clear IHb. rewrite app_assoc in E. apply app_inj_tail in E. destruct E as [E _]. eapply Ho; eassumption.
Qed.
Lemma Cut_ne cs rs : Ct cs rs -> rs <> [].
Proof. intros (b & l & n & -> & _). destruct b; discriminate. Qed.
Inductive Full (encs : list Z) : list C -> list (list (row V)) -> list image -> list C -> Prop :=
| FullNil cs : Full encs cs [] [] cs
| FullCons cs rows m cs' cs'' rss ms csf :
    SImage encs cs rows m cs' -> Ct cs rows -> mapM cw_Reset cs' = Ok cs'' ->
    Full encs cs'' rss ms csf -> Full encs cs (rows :: rss) (m :: ms) csf.
Lemma Full_snoc encs cs rss ms csf rows m cs' cs'' : Full encs cs rss ms csf ->
  SImage encs csf rows m cs' -> Ct csf rows -> mapM cw_Reset cs' = Ok cs'' ->
  Full encs cs (rss ++ [rows]) (ms ++ [m]) cs''.
Proof.
  induction 1 as [cs|cs rows0 m0 cs0 cs1 rss ms csf Hi Hne Hr H IH]; intros Hi' Hne' Hr'.
  - econstructor; eauto. constructor.
  - econstructor; eauto.
Qed.
Lemma Full_last encs cs rss ms csf rows m cs' : Full encs cs rss ms csf ->
  SImage encs csf rows m cs' -> Opn csf rows -> Strs encs cs (rss ++ [rows]) (ms ++ [m]) cs'.
Proof.
  induction 1 as [cs|cs rows0 m0 cs0 cs1 rss ms csf Hi Hne Hr H IH]; intros Hi' Ho.
  - constructor; assumption.
  - econstructor; eauto.
Qed.
(** The stripes without the question when a stripe ends. *)
Inductive Images (encs : list Z) : list C -> list (list (row V)) -> list image -> list C -> Prop :=
| ImagesLast cs rows m cs' : SImage encs cs rows m cs' -> Images encs cs [rows] [m] cs'
| ImagesMore cs rows m cs' cs'' rss ms csf :
    SImage encs cs rows m cs' -> mapM cw_Reset cs' = Ok cs'' ->
    Images encs cs'' rss ms csf -> Images encs cs (rows :: rss) (m :: ms) csf.
Lemma Stripes_Images encs cs rss ms csf : Strs encs cs rss ms csf -> Images encs cs rss ms csf.
Proof. induction 1; [constructor|econstructor]; eassumption. Qed.
Inductive Past (encs : list Z) : list C -> list (list (row V)) -> list image -> list C -> Prop :=
| PastNil cs : Past encs cs [] [] cs
| PastCons cs rows m cs' cs'' rss ms csf :
    SImage encs cs rows m cs' -> mapM cw_Reset cs' = Ok cs'' ->
    Past encs cs'' rss ms csf -> Past encs cs (rows :: rss) (m :: ms) csf.
Lemma Past_snoc encs cs rss ms csf rows m cs' cs'' : Past encs cs rss ms csf ->
  SImage encs csf rows m cs' -> mapM cw_Reset cs' = Ok cs'' -> Past encs cs (rss ++ [rows]) (ms ++ [m]) cs''.
Proof.
  induction 1 as [cs|cs rows0 m0 cs0 cs1 rss ms csf Hi Hr H IH]; intros Hi' Hr'.
  - econstructor; eauto. constructor.
  - econstructor; eauto.
Qed.
Lemma Past_Images encs cs rss ms csf rows m cs' : Past encs cs rss ms csf ->
  SImage encs csf rows m cs' -> Images encs cs (rss ++ [rows]) (ms ++ [m]) cs'.
Proof.
  induction 1 as [cs|cs rows0 m0 cs0 cs1 rss ms csf Hi Hr H IH]; intros Hi'.
  - constructor; assumption.
  - eapply ImagesMore; eauto.
Qed.
Lemma Past_length encs cs rss ms csf : Past encs cs rss ms csf -> length rss = length ms.
Proof. induction 1; cbn; auto. Qed.
Lemma Full_length encs cs rss ms csf : Full encs cs rss ms csf -> length rss = length ms.
Proof. induction 1; cbn; auto. Qed.

(** The directory as the code computes it, with wrap-around. *)
Fixpoint directoryU (off : Z) (rss : list (list (row V))) (ms : list image) : list stripeInfo :=
  match rss, ms with
  | rows :: rss, m :: ms =>
      {| Offset := u64 off; IndexLength := u64 (zlen (im_index m)); DataLength := u64 (zlen (concat (im_streams m)));
         FooterLength := u64 (zlen (im_footer m)); NumberOfRows := u64 (zlen rows) |}
        :: directoryU (off + zlen (im_bytes m)) rss ms
  | _, _ => []
  end.
Lemma directoryU_snoc rss : forall ms off rows m, length rss = length ms ->
  directoryU off (rss ++ [rows]) (ms ++ [m]) =
  directoryU off rss ms ++ directoryU (off + zlen (concat (map im_bytes ms))) [rows] [m].
Proof.
  induction rss as [|r rss IH]; intros [|m0 ms] off rows m Hl; try discriminate.
  - cbn [app map concat]. rewrite zlen_nil, Z.add_0_r. reflexivity.
  - cbn [app map concat directoryU]. rewrite (IH ms) by (cbn in Hl; lia).
    rewrite zlen_app, Z.add_assoc. reflexivity.
Qed.

Definition filedata (ms : list image) : list Z := concat (map im_bytes ms).

(** Between two rows of a batch; [count] rows are not yet in NumberOfRows. *)
Definition Inv (schemas : list td) (cs0 : list C) (rows : list (row V)) (count : Z) (w : stripeW C) : Prop :=
  exists rss ms csf rs, Full (map td_enc schemas) cs0 rss ms csf /\ rows = concat rss ++ rs /\
    Mid csf rs (sw_cols w) /\ sw_schemas w = schemas /\
    sw_out w = Magic ++ filedata ms /\ sw_infos w = directoryU 3 rss ms /\
    Offset (sw_info w) = u64 (3 + zlen (filedata ms)) /\ IndexLength (sw_info w) = 0 /\
    DataLength (sw_info w) = 0 /\ FooterLength (sw_info w) = 0 /\
    u64 (NumberOfRows (sw_info w) + count) = u64 (zlen rs) /\
    u64 (NumberOfRows (sw_info w)) = NumberOfRows (sw_info w) /\ Opn csf rs.

Notation wLoop := (writeLoop deflate cw_Write cw_Size cw_Flush cw_Index cw_WriteOut cw_Infos cw_Reset marshalSF o StripeSize).

Lemma writeLoop_spec schemas cs0 n : forall i count v w w' rows, Inv schemas cs0 rows count w ->
  wLoop n i count v w = Ok w' ->
  exists rs, Forall2 (fun i r => cells i v = Some r) (seq i n) rs /\ Inv schemas cs0 (rows ++ rs) 0 w'.
Proof.
  induction n as [|n IH]; intros i count v w w' rows Hi H; cbn [writeLoop] in H.
  - exists []. split; [constructor|]. rewrite app_nil_r.
    match type of H with Ok ?x = _ => assert (w' = x) as -> by congruence end.
    destruct Hi as (rss & ms & csf & rs & H1 & H2 & H3 & H4 & H5 & H6 & H7 & H8 & H9 & H10 & H11 & H12 & Hop).
    exists rss, ms, csf, rs. cbn. rewrite Z.add_0_r, u64_u64. repeat (split; [assumption|]).
    split; [reflexivity|exact Hop].
  - apply rbind_inv in H. destruct H as (cs & Hv & H).
    destruct (writeValue_cells _ _ _ _ Hv) as (r & Hr & Hw).
    destruct Hi as (rss & ms & csf & rs & H1 & H2 & H3 & H4 & H5 & H6 & H7 & H8 & H9 & H10 & H11 & H12 & Hop).
    pose proof (Mid_row _ _ _ _ _ H3 Hw) as Hm.
    assert (Hc : u64 (NumberOfRows (sw_info w) + u64 (count + 1)) = u64 (zlen (rs ++ [r]))).
    { rewrite zlen_app, zlen_cons, zlen_nil, u64_add_r, Z.add_assoc.
      rewrite <- u64_add_l, H11, u64_add_l. reflexivity. }
    pose proof (Mid_Level _ _ _ Hm) as Hlv.
    destruct (Z.leb_spec StripeSize (sw_size cw_Size cs)) as [Hfull|Hfree].
    + apply rbind_inv in H. destruct H as (w1 & Hfl & H). apply rbind_inv in H. destruct H as (w2 & Hfw & H).
      assert (Hm' : Mid csf (rs ++ [r]) (sw_cols (addRows (u64 (count + 1)) (setCols cs w)))) by exact Hm.
      destruct (flushOut_spec _ _ _ _ Hm' Hfl) as (m & Him & Ho & Hin & Hs & Hinfo).
      cbn [addRows setCols sw_info sw_out sw_infos sw_schemas Offset IndexLength DataLength FooterLength NumberOfRows] in *.
      unfold forward in Hfw. apply rbind_inv in Hfw. destruct Hfw as (cs2 & Hrs & Hfw).
      match type of Hfw with Ok ?x = _ => assert (w2 = x) as -> by congruence end. clear Hfw.
      match type of H with wLoop _ _ _ _ ?x = _ =>
        assert (Hinv2 : Inv schemas cs0 (rows ++ [r]) 0 x) end.
      2: { destruct (IH _ _ _ _ _ _ Hinv2 H) as (rs' & Hrs' & Hinv).
           exists (r :: rs'). split; [cbn [seq]; constructor; assumption|].
           replace (rows ++ r :: rs') with ((rows ++ [r]) ++ rs') by (rewrite <- app_assoc; reflexivity). exact Hinv. }
      rewrite H4 in Him.
      assert (Hne : Ct csf (rs ++ [r])) by (exists rs, r, (sw_size cw_Size cs); auto).
      exists (rss ++ [rs ++ [r]]), (ms ++ [m]), cs2, []. split; [eapply Full_snoc; eauto|].
      split. { subst rows. rewrite concat_app. cbn [concat]. rewrite !app_nil_r, !app_assoc. reflexivity. }
      split; [apply Mid_nil|]. cbn [sw_schemas sw_out sw_infos sw_info newInfo Offset IndexLength DataLength FooterLength NumberOfRows].
      split; [congruence|]. unfold filedata. rewrite map_app, concat_app. cbn [map concat]. rewrite app_nil_r.
      split. { rewrite Ho, H5. unfold filedata. rewrite <- app_assoc. reflexivity. }
      split. { rewrite (directoryU_snoc _ _ _ _ _ (Full_length _ _ _ _ _ H1)), Hin, H6. f_equal.
               cbn [directoryU]. rewrite Hinfo, H7, H8, H9. rewrite !Z.add_0_l, Hc. reflexivity. }
      rewrite Hinfo. cbn [Offset IndexLength DataLength FooterLength NumberOfRows].
      split. { rewrite H7, H8, H9, !Z.add_0_l. unfold im_bytes, filedata. rewrite !zlen_app.
               apply u64_sum4. }
      do 4 (split; [reflexivity|]). split; [reflexivity|apply Open_nil].
    + assert (Hinv1 : Inv schemas cs0 (rows ++ [r]) (u64 (count + 1)) (setCols cs w)).
      { exists rss, ms, csf, (rs ++ [r]). cbn [setCols sw_cols sw_info sw_out sw_infos sw_schemas].
        split; [exact H1|]. split; [subst rows; rewrite <- app_assoc; reflexivity|]. split; [exact Hm|].
        repeat (split; [assumption|]). eapply Open_snoc; eassumption. }
      destruct (IH _ _ _ _ _ _ Hinv1 H) as (rs' & Hrs' & Hinv).
      exists (r :: rs'). split; [cbn [seq]; constructor; assumption|].
      replace (rows ++ r :: rs') with ((rows ++ [r]) ++ rs') by (rewrite <- app_assoc; reflexivity). exact Hinv.
Qed.

Notation wr := (Write deflate cw_Write cw_Size cw_Flush cw_Index cw_WriteOut cw_Infos cw_Reset marshalSF o StripeSize).
Notation cl := (Close deflate cw_Flush cw_Index cw_WriteOut cw_Infos cw_Stats marshalSF marshalFooter marshalPS o).

Lemma writeBatches_spec schemas cs0 vs : forall w w' rows, Inv schemas cs0 rows 0 w ->
  writeBatches wr w vs = Ok w' ->
  exists rs, Rows vs rs /\ Inv schemas cs0 (rows ++ rs) 0 w'.
Proof.
  induction vs as [|v t IH]; intros w w' rows Hi H; cbn [writeBatches] in H.
  - exists []. split; [constructor|]. rewrite app_nil_r. assert (w' = w) as -> by congruence. exact Hi.
  - apply rbind_inv in H. destruct H as (w1 & H1 & H).
    destruct (writeLoop_spec _ _ _ _ _ _ _ _ _ Hi H1) as (r1 & Hr1 & Hi1).
    destruct (IH _ _ _ Hi1 H) as (r2 & Hr2 & Hi2). exists (r1 ++ r2). split; [constructor; assumption|].
    rewrite app_assoc. exact Hi2.
Qed.

Lemma Inv_new schema w : newFileWriter newColumn schema = Ok w ->
  Inv (sw_schemas w) (sw_cols w) [] 0 w /\ Flat schema = Ok (sw_schemas w) /\
  mapM newColumn (sw_schemas w) = Ok (sw_cols w).
Proof.
  intros H. unfold newFileWriter in H. apply rbind_inv in H. destruct H as (l & Hl & H).
  apply rbind_inv in H. destruct H as (cs & Hcs & H).
  match type of H with Ok ?x = _ => assert (w = x) as -> by congruence end. cbn [sw_schemas sw_cols].
  split; [|auto]. exists [], [], cs, []. split; [constructor|]. split; [reflexivity|]. split; [apply Mid_nil|].
  do 9 (split; [reflexivity|]). apply Open_nil.
Qed.

(** The directory is exact when the sizes are. *)
Lemma directoryU_exact rss : forall off ms, 0 <= off -> off + zlen (filedata ms) < W64 ->
  zlen (concat rss) < W64 -> directoryU off rss ms = directory off rss ms.
Proof.
  induction rss as [|rows rss IH]; intros off [|m ms] H0 Hb Hr; try reflexivity. cbn [directoryU directory].
  unfold filedata in *. cbn [map concat] in *. rewrite zlen_app in Hb. rewrite zlen_app in Hr.
  pose proof (zlen_nonneg rows). pose proof (zlen_nonneg (concat rss)).
  pose proof (zlen_nonneg (concat (map im_bytes ms))). unfold im_bytes in *. rewrite !zlen_app in *.
  pose proof (zlen_nonneg (im_index m)). pose proof (zlen_nonneg (concat (im_streams m))).
  pose proof (zlen_nonneg (im_footer m)).
  rewrite !u64_id by (unfold is_u64; lia). f_equal. apply IH; [lia| |lia].
  change (map (fun m0 => im_index m0 ++ concat (im_streams m0) ++ im_footer m0) ms) with (map im_bytes ms).
  unfold im_bytes. lia.
Qed.
Lemma sumU_gen {A} (f : A -> Z) l : forall a, 0 <= a -> (forall x, In x l -> 0 <= f x) ->
  a + fold_right (fun x n => f x + n) 0 l < W64 ->
  fold_left (fun n x => u64 (n + f x)) l a = a + fold_right (fun x n => f x + n) 0 l.
Proof.
  induction l as [|x l IH]; intros a Ha Hf Hb; cbn [fold_left fold_right] in *; [lia|].
  assert (0 <= fold_right (fun x n => f x + n) 0 l).
  { clear -Hf. induction l as [|y l IH]; cbn; [lia|]. pose proof (Hf y (or_intror (or_introl eq_refl))).
    assert (0 <= fold_right (fun x n => f x + n) 0 l); [|lia]. apply IH. intros z [->|Hz]; apply Hf; cbn; auto. }
  pose proof (Hf x (or_introl eq_refl)).
  rewrite u64_id by (unfold is_u64; lia). rewrite IH; [lia|lia| |lia]. intros y Hy. apply Hf. right. exact Hy.
Qed.

(** The whole file. *)
Definition closedFooter (schemas : list td) (rss : list (list (row V))) (ms : list image) (cs : list C) : footer ST :=
  {| f_headerLength := 3; f_contentLength := zlen (filedata ms); f_stripes := directory 3 rss ms;
     f_types := SchemasToTypes schemas; f_rows := zlen (concat rss); f_stats := map cw_Stats cs; f_stride := 0 |}.

Lemma directory_rows (rss : list (list (row V))) : forall off ms, length rss = length ms ->
  fold_right (fun i n => NumberOfRows i + n) 0 (directory off rss ms) = zlen (concat rss).
Proof.
  induction rss as [|rows rss IH]; intros off [|m ms] Hl; try discriminate; [reflexivity|].
  cbn [directory fold_right NumberOfRows concat]. rewrite IH by (cbn in Hl; lia). rewrite zlen_app. reflexivity.
Qed.
Lemma directory_bytes (rss : list (list (row V))) : forall off ms, length rss = length ms ->
  fold_right (fun i n => IndexLength i + DataLength i + FooterLength i + n) 0 (directory off rss ms) = zlen (filedata ms).
Proof.
  induction rss as [|rows rss IH]; intros off [|m ms] Hl; try discriminate; [reflexivity|].
  cbn [directory fold_right IndexLength DataLength FooterLength]. rewrite IH by (cbn in Hl; lia).
  unfold filedata. cbn [map concat]. rewrite zlen_app. unfold im_bytes at 2. rewrite !zlen_app. lia.
Qed.
Lemma directory_in (rss : list (list (row V))) : forall off ms i, In i (directory off rss ms) ->
  0 <= IndexLength i /\ 0 <= DataLength i /\ 0 <= FooterLength i /\ 0 <= NumberOfRows i.
Proof.
  induction rss as [|rows rss IH]; intros off [|m ms] i Hi; cbn [directory] in Hi; try contradiction.
  destruct Hi as [<-|Hi]; [|eapply IH; exact Hi]. cbn. repeat split; apply zlen_nonneg.
Qed.
Lemma fold_right_le {A} (f : A -> Z) l x : (forall y, In y l -> 0 <= f y) -> In x l ->
  f x <= fold_right (fun y n => f y + n) 0 l.
Proof.
  induction l as [|y l IH]; intros Hf Hx; [contradiction|]. cbn [fold_right].
  assert (0 <= fold_right (fun x n => f x + n) 0 l).
  { clear -Hf. induction l as [|z l IH]; cbn; [lia|]. pose proof (Hf z (or_intror (or_introl eq_refl))).
    assert (0 <= fold_right (fun x n => f x + n) 0 l); [|lia]. apply IH. intros u [->|Hu]; apply Hf; cbn; auto. }
  destruct Hx as [->|Hx]; [lia|]. pose proof (IH (fun z Hz => Hf z (or_intror Hz)) Hx).
  pose proof (Hf y (or_introl eq_refl)). lia.
Qed.

(** Close: [all] is what the columns of the last stripe hold, [rs] stands for the rows
    counted. *)
Lemma close_any w file schemas rss ms csf all rs :
  length rss = length ms -> Mid csf all (sw_cols w) -> sw_schemas w = schemas ->
  sw_out w = Magic ++ filedata ms -> sw_infos w = directoryU 3 rss ms ->
  Offset (sw_info w) = u64 (3 + zlen (filedata ms)) -> IndexLength (sw_info w) = 0 ->
  DataLength (sw_info w) = 0 -> FooterLength (sw_info w) = 0 -> NumberOfRows (sw_info w) = u64 (zlen rs) ->
  zlen (concat (rss ++ [rs])) < W64 -> cl w = Ok file -> zlen file < W64 ->
  exists m cs' raw fb psb, SImage (map td_enc schemas) csf all m cs' /\
    file = Magic ++ filedata (ms ++ [m]) ++ fb ++ psb ++ [u8 (zlen psb)] /\
    marshalFooter (closedFooter schemas (rss ++ [rs]) (ms ++ [m]) cs') = Ok raw /\
    match CompressionKind o with
    | NONE => fb = raw
    | k => exists rest, CompressingAllInChunks deflate k (ChunkSize o) raw = Ok (fb, rest)
    end /\
    marshalPS {| p_footerLength := zlen fb; p_compression := CompressionKind o;
                 p_blockSize := u64 (ChunkSize o); p_metadataLength := 0 |} = Ok psb.
Proof.
  intros Hlen H3 H4 H5 H6 H7 H8 H9 H10 H11 Hrows Hc Hf.
  unfold Close in Hc. apply rbind_inv in Hc. destruct Hc as (w' & Hfo & Hc).
  destruct (flushOut_spec _ _ _ _ H3 Hfo) as (m & Him & Ho & Hin & Hs & Hinfo).
  rewrite H4 in Him.
  unfold writeFileTail in Hc.
  apply rbind_inv in Hc. destruct Hc as (raw & Hraw & Hc). apply rbind_inv in Hc. destruct Hc as (fb & Hfb & Hc).
  apply rbind_inv in Hc. destruct Hc as (psb & Hps & Hc). cbn [sw_out] in Hc.
  assert (Hout : sw_out w' = Magic ++ filedata (ms ++ [m])).
  { rewrite Ho, H5. unfold filedata. rewrite map_app, concat_app. cbn [map concat]. rewrite app_nil_r, app_assoc. reflexivity. }
  rewrite Hout in Hc.
  assert (Hfile : file = Magic ++ filedata (ms ++ [m]) ++ fb ++ psb ++ [u8 (zlen psb)]).
  { rewrite <- app_assoc in Hc. congruence. }
  assert (Hsz : 3 + zlen (filedata (ms ++ [m])) + zlen fb < W64).
  { rewrite Hfile in Hf. rewrite !zlen_app in Hf. change (zlen Magic) with 3 in Hf.
    pose proof (zlen_nonneg psb). pose proof (zlen_nonneg [u8 (zlen psb)]). lia. }
  pose proof (zlen_nonneg fb). pose proof (zlen_nonneg (filedata (ms ++ [m]))).
  assert (Hlen2 : length (rss ++ [rs]) = length (ms ++ [m])) by (rewrite !app_length; cbn; lia).
  assert (Hdir : sw_infos w' ++ [sw_info w'] = directory 3 (rss ++ [rs]) (ms ++ [m])).
  { rewrite <- directoryU_exact; [|lia|lia|exact Hrows].
    rewrite (directoryU_snoc _ _ _ _ _ Hlen), Hin, H6. f_equal.
    cbn [directoryU]. rewrite Hinfo, H7, H8, H9, !Z.add_0_l. rewrite H11. reflexivity. }
  exists m, (sw_cols w'), raw, fb, psb. split; [exact Him|]. split; [exact Hfile|].
  split.
  { rewrite <- Hraw. f_equal. unfold fileFooter, closedFooter. cbn [sw_infos sw_schemas sw_cols].
    rewrite Hdir, Hs, H4. f_equal.
    - rewrite <- (directory_bytes (rss ++ [rs]) 3 _ Hlen2). unfold sumU.
      rewrite <- (Z.add_0_l (fold_right _ _ _)).
      pose proof (directory_bytes (rss ++ [rs]) 3 _ Hlen2) as Hdb.
      pose proof (directory_in (rss ++ [rs]) 3 (ms ++ [m])) as Hdi.
      rewrite <- (sumU_gen (fun i => IndexLength i + DataLength i + FooterLength i)).
      + assert (G : forall l a, (forall i, In i l -> 0 <= IndexLength i /\ 0 <= DataLength i /\ 0 <= FooterLength i /\
                     IndexLength i + DataLength i + FooterLength i < W64) ->
          fold_left (fun n x => u64 (n + (IndexLength x + DataLength x + FooterLength x))) l a =
          fold_left (fun n i => u64 (n + u64 (u64 (IndexLength i + DataLength i) + FooterLength i))) l a).
        { induction l as [|i l IH]; intros a Hb; cbn [fold_left]; [reflexivity|].
          destruct (Hb i (or_introl eq_refl)) as (B1 & B2 & B3 & B4).
          rewrite (u64_id (IndexLength i + DataLength i)) by (unfold is_u64; lia).
          rewrite (u64_id (IndexLength i + DataLength i + FooterLength i)) by (unfold is_u64; lia).
          apply IH. intros j Hj. apply Hb. right. exact Hj. }
        apply G. intros i Hi1. destruct (Hdi i Hi1) as (B1 & B2 & B3 & _). repeat split; try assumption.
        pose proof (fold_right_le (fun i => IndexLength i + DataLength i + FooterLength i)
                      (directory 3 (rss ++ [rs]) (ms ++ [m])) i) as Hle. cbn beta in Hle.
        rewrite Hdb in Hle. eapply Z.le_lt_trans; [apply Hle; [|exact Hi1]|lia].
        intros j Hj. destruct (Hdi j Hj) as (? & ? & ? & _). lia.
      + lia.
      + intros j Hj. destruct (Hdi j Hj) as (? & ? & ? & _). lia.
      + rewrite Hdb. lia.
    - rewrite <- (directory_rows (rss ++ [rs]) 3 _ Hlen2). unfold sumU.
      rewrite <- (Z.add_0_l (fold_right _ _ _)). rewrite <- (sumU_gen NumberOfRows); [reflexivity|lia| |].
      + intros j Hj. destruct (directory_in _ _ _ _ Hj) as (_ & _ & _ & Hj'). exact Hj'.
      + rewrite directory_rows by exact Hlen2. lia. }
  split.
  { destruct (CompressionKind o); try (apply rbind_inv in Hfb; destruct Hfb as ([c rest] & Hcc & Hfb);
      exists rest; assert (c = fb) as <- by congruence; exact Hcc). congruence. }
  rewrite u64_id in Hps by (unfold is_u64; lia). exact Hps.
Qed.
Lemma file_written schema w0 vs w file :
  newFileWriter newColumn schema = Ok w0 -> writeBatches wr w0 vs = Ok w -> cl w = Ok file ->
  zlen file < W64 ->
  (forall rows, Rows vs rows -> zlen rows < W64) ->
  exists rows rss ms csf raw fb psb,
    Rows vs rows /\ rows = concat rss /\
    Strs (map td_enc (sw_schemas w0)) (sw_cols w0) rss ms csf /\ length rss = length ms /\
    file = Magic ++ filedata ms ++ fb ++ psb ++ [u8 (zlen psb)] /\
    marshalFooter (closedFooter (sw_schemas w0) rss ms csf) = Ok raw /\
    match CompressionKind o with
    | NONE => fb = raw
    | k => exists rest, CompressingAllInChunks deflate k (ChunkSize o) raw = Ok (fb, rest)
    end /\
    marshalPS {| p_footerLength := zlen fb; p_compression := CompressionKind o;
                 p_blockSize := u64 (ChunkSize o); p_metadataLength := 0 |} = Ok psb.
Proof.
  intros Hn Hw Hc Hf Hrows. destruct (Inv_new _ _ Hn) as (Hi & Hfl & Hcs).
  destruct (writeBatches_spec _ _ _ _ _ _ Hi Hw) as (rows & Hr & Hi'). cbn [app] in Hi'.
  specialize (Hrows rows Hr).
  destruct Hi' as (rss & ms & csf & rs & H1 & H2 & H3 & H4 & H5 & H6 & H7 & H8 & H9 & H10 & H11 & H12 & Hop).
  assert (Hrow : rows = concat (rss ++ [rs])).
  { rewrite concat_app. cbn [concat]. rewrite app_nil_r. exact H2. }
  rewrite Hrow in Hrows. rewrite Z.add_0_r in H11. rewrite <- H12 in H11 at 1. rewrite u64_u64, H12 in H11.
  destruct (close_any w file (sw_schemas w0) rss ms csf rs rs (Full_length _ _ _ _ _ H1) H3 H4 H5 H6 H7 H8 H9 H10 H11 Hrows Hc Hf)
    as (m & cs' & raw & fb & psb & Him & Hfile & Hraw & Hfb & Hps).
  exists rows, (rss ++ [rs]), (ms ++ [m]), cs', raw, fb, psb. split; [exact Hr|]. split; [exact Hrow|].
  split; [exact (Full_last _ _ _ _ _ _ _ _ H1 Him Hop)|].
  split; [pose proof (Full_length _ _ _ _ _ H1) as Hlen; rewrite !app_length; cbn; lia|]. auto.
Qed.
End Layout.
