(** Opening a file this writer closed. *)
From Verif.Model Require Import Go Chunk Stream Schema Rows File.
From Verif.Spec Require Import ChunkSpec StreamSpec FileSpec.
From Verif.Proofs Require Import Base ChunkP StreamClaimsP FileP TailP.

Lemma streamStarts_spec file rest : forall infos ss a ix, zlen file < W64 -> file = a ++ concat ss ++ rest ->
  map st_length infos = map zlen ss -> Forall (fun s => st_kind s <> 6) infos ->
  map fst (streamStarts ix (zlen a) infos) = infos /\
  Consecutive file (zlen a) (streamStarts ix (zlen a) infos) ss (zlen a + zlen (concat ss)).
Proof.
  induction infos as [|s infos IH]; intros [|b ss] a ix Hb Hf Hm Hk; try discriminate.
  - cbn [streamStarts map concat]. rewrite zlen_nil, Z.add_0_r. split; [reflexivity|constructor].
  - cbn [map] in Hm. injection Hm as Hs Hm. inversion Hk as [|? ? Hks Hk']; subst.
    cbn [streamStarts]. destruct (Z.eqb_spec (st_kind s) 6); [contradiction|].
    assert (E : a ++ concat (b :: ss) ++ rest = (a ++ b) ++ concat ss ++ rest).
    { cbn [concat]. rewrite <- !app_assoc. reflexivity. }
    assert (Hab : u64 (zlen a + st_length s) = zlen (a ++ b)).
    { rewrite zlen_app, Hs. rewrite E in Hb. rewrite !zlen_app in Hb.
      pose proof (zlen_nonneg (concat ss)). pose proof (zlen_nonneg rest). pose proof (zlen_nonneg a).
      pose proof (zlen_nonneg b). apply u64_id. unfold is_u64. lia. }
    rewrite Hab. destruct (IH ss (a ++ b) ix Hb E Hm Hk') as (E1 & H1).
    cbn [map fst]. rewrite E1. split; [reflexivity|]. apply ConCons; [exact Hs| |].
    + rewrite zdrop_app. cbn [concat]. rewrite <- app_assoc, ztake_app. reflexivity.
    + rewrite <- zlen_app. cbn [concat]. rewrite !zlen_app in *. rewrite Z.add_assoc. exact H1.
Qed.

Lemma directory_nth {V} (rss : list (list (row V))) : forall ms pre post k rows m,
  nth_error rss k = Some rows -> nth_error ms k = Some m ->
  exists a b, pre ++ filedata ms ++ post = a ++ im_bytes m ++ b /\
    nth_error (directory (zlen pre) rss ms) k =
      Some {| Offset := zlen a; IndexLength := zlen (im_index m);
              DataLength := zlen (concat (im_streams m));
              FooterLength := zlen (im_footer m); NumberOfRows := zlen rows |}.
Proof.
  induction rss as [|r rss IH]; intros [|m0 ms] pre post [|k] rows m Hr Hm; try discriminate.
  - cbn [nth_error] in *. assert (r = rows) as -> by congruence. assert (m0 = m) as -> by congruence.
    exists pre, (filedata ms ++ post). unfold filedata. cbn [map concat]. rewrite <- app_assoc.
    split; reflexivity.
  - cbn [nth_error] in Hr, Hm. destruct (IH ms (pre ++ im_bytes m0) post k rows m Hr Hm) as (a & b & E & Hn).
    exists a, b. split.
    + rewrite <- E. unfold filedata. cbn [map concat]. rewrite <- !app_assoc. reflexivity.
    + cbn [directory nth_error]. rewrite <- zlen_app. exact Hn.
Qed.
Lemma directory_length {V} (rss : list (list (row V))) : forall ms off, length rss = length ms ->
  length (directory off rss ms) = length rss.
Proof.
  induction rss as [|r rss IH]; intros [|m ms] off H; try discriminate; [reflexivity|].
  cbn [directory length]. rewrite IH by (cbn in H; lia). reflexivity.
Qed.

Lemma all_zlib deflate k cs src x : CompressingAllInChunks deflate k cs src = Ok x -> k = ZLIB.
Proof.
  unfold CompressingAllInChunks. destruct k; cbn [CompressingChunks CompressingLeft rbind]; try discriminate; auto.
Qed.

Section Open.
Variable deflate : list (list Z) -> list Z -> res (list Z).
Variable inflate : list Z -> res (list Z).
Variables C V ST : Type.
Variable cw_Write : C -> V -> res C.
Variable cw_Size : C -> Z.
Variable cw_Flush : C -> res C.
Variable cw_Index : C -> res (list Z).
Variable cw_WriteOut : C -> res (list Z * Z * C).
Variable cw_Infos : C -> list strm.
Variable cw_Stats : C -> ST.
Variable cw_Reset : C -> res C.
Variable cw_of : C -> Z -> Prop.
Variable newColumn : td -> res C.
Variable hasNull : ST -> bool.
Variable marshalSF : stripeFooter -> res (list Z).
Variable marshalFooter : footer ST -> res (list Z).
Variable marshalPS : postscript -> res (list Z).
Variable unmarshalSF : list Z -> res stripeFooter.
Variable unmarshalFooter : list Z -> res (footer ST).
Variable unmarshalPS : list Z -> res postscript.
Variable o : opts.
Variable StripeSize : Z.

Hypothesis Hid : keeps_id cw_of cw_Write cw_Flush cw_WriteOut cw_Infos cw_Reset.
Hypothesis Hflate : flate_ok deflate inflate.
Hypothesis Hcs : 1 <= ChunkSize o < 2 ^ 23.
Hypothesis Hsf : invertible marshalSF unmarshalSF.

Notation SImage encs := (StripeImage deflate C V cw_Write cw_Flush cw_Index cw_WriteOut cw_Infos marshalSF o encs).
Notation Strs encs := (Stripes deflate C V cw_Write cw_Size cw_Flush cw_Index cw_WriteOut cw_Infos cw_Reset marshalSF o StripeSize encs).
Notation Imgs encs := (Images deflate C V cw_Write cw_Flush cw_Index cw_WriteOut cw_Infos cw_Reset marshalSF o encs).

Lemma writeVals_id vs i : forall c c', writeVals cw_Write c vs = Ok c' -> cw_of c i -> cw_of c' i.
Proof.
  destruct Hid as (H1 & _). induction vs as [|v t IH]; intros c c' H Hi; cbn [writeVals] in H; [congruence|].
  apply rbind_inv in H. destruct H as (c1 & Hw & H). apply (IH _ _ H). eauto.
Qed.
Definition numberedC (n : nat) (c : C) : Prop := exists i, cw_of c i /\ i < Z.of_nat n.

(** What is needed of every stripe. *)
Definition readable (encs : list Z) (n : nat) (m : image) : Prop :=
  map st_length (im_infos m) = map zlen (im_streams m) /\
  Forall (fun s => st_kind s <> 6 /\ st_column s < Z.of_nat n) (im_infos m) /\
  CompressionKind o = ZLIB /\
  exists ft, unmarshalSF ft = Ok {| sf_streams := im_infos m; sf_columns := encs |} /\
     DecompressChunks inflate ZLIB (im_footer m) = Ok ft.

Lemma image_readable encs cs rows m cs' : SImage encs cs rows m cs' ->
  Forall (numberedC (length cs)) cs ->
  readable encs (length cs) m /\ length cs' = length cs /\ Forall (numberedC (length cs)) cs'.
Proof.
  intros (_ & Hl & Hl' & Hk & ft & rest & Hft & Hc) Hids. destruct Hid as (_ & Hi2 & Hi3 & _ & Hi5).
  assert (Hx : forall k x, nth_error (im_cols m) k = Some x -> exists c c', nth_error cs k = Some c /\
      nth_error cs' k = Some c' /\ (forall i, cw_of c i -> cw_of c' i) /\ ci_infos x = cw_Infos c' /\
      map st_length (ci_infos x) = map zlen (ci_streams x)).
  { intros k x Hx. destruct (nth_error cs k) as [c|] eqn:Ec.
    2: { apply nth_error_None in Ec. assert (k < length (im_cols m))%nat; [|lia]. apply nth_error_Some. congruence. }
    destruct (Hk k c Ec) as (x' & c' & Hx' & Hc' & c1 & c2 & Hv & Hfl & _ & (n & Hwo) & Hin & Hm).
    assert (x' = x) as -> by congruence. exists c, c'. repeat split; auto.
    intros i Hi. apply (Hi3 _ _ _ _ _ Hwo), (Hi2 _ _ _ Hfl), (writeVals_id _ _ _ _ Hv), Hi. }
  assert (Hin : forall x, In x (im_cols m) -> map st_length (ci_infos x) = map zlen (ci_streams x) /\
      Forall (fun s => st_kind s <> 6 /\ st_column s < Z.of_nat (length cs)) (ci_infos x)).
  { intros x H. apply In_nth_error in H. destruct H as (k & H).
    destruct (Hx k x H) as (c & c' & Hc0 & Hc' & Eid & Ei & Em). split; [exact Em|].
    rewrite Ei. apply Forall_forall. intros s Hs. rewrite Forall_forall in Hids.
    destruct (Hids c (nth_error_In _ _ Hc0)) as (i & Hi & Hb).
    destruct (Hi5 c' s i (Eid _ Hi) Hs) as [E1 E2]. split; [exact E2|]. rewrite E1. exact Hb. }
  split; [|split; [exact Hl'|]].
  - split; [|split; [|split]].
    + unfold im_infos, im_streams. clear -Hin. induction (im_cols m) as [|x l IH]; [reflexivity|].
      cbn [map concat]. rewrite !map_app. f_equal; [apply Hin; left; reflexivity|].
      apply IH. intros y Hy. apply Hin. right. exact Hy.
    + unfold im_infos. clear -Hin. induction (im_cols m) as [|x l IH]; [constructor|].
      cbn [map concat]. apply Forall_app. split; [apply Hin; left; reflexivity|].
      apply IH. intros y Hy. apply Hin. right. exact Hy.
    + eapply all_zlib. exact Hc.
    + exists ft. split; [apply Hsf; exact Hft|]. pose proof (all_zlib _ _ _ _ _ Hc) as Hz. rewrite Hz in Hc.
      apply (chunk_lossless _ _ _ _ _ _ Hflate Hcs Hc).
  - apply Forall_forall. intros c' Hc'. apply In_nth_error in Hc'. destruct Hc' as (k & Hc').
    assert (Hb : (k < length (im_cols m))%nat). { rewrite Hl, <- Hl'. apply nth_error_Some. congruence. }
    destruct (nth_error (im_cols m) k) as [x|] eqn:Ex; [|apply nth_error_None in Ex; lia].
    destruct (Hx k x Ex) as (c & c2 & Hc0 & Hc2 & Eid & _). assert (c2 = c') as -> by congruence.
    rewrite Forall_forall in Hids. destruct (Hids c (nth_error_In _ _ Hc0)) as (i & Hi & Hbi). exists i. auto.
Qed.

Lemma Images_readable encs cs rss ms csf : Imgs encs cs rss ms csf ->
  Forall (numberedC (length cs)) cs ->
  Forall (readable encs (length cs)) ms /\ length csf = length cs.
Proof.
  induction 1 as [cs rows m cs' Hi|cs rows m cs' cs'' rss ms csf Hi Hr H IH]; intros Hids.
  - destruct (image_readable _ _ _ _ _ Hi Hids) as (Hrd & Hl & _). split; [constructor; auto|exact Hl].
  - destruct (image_readable _ _ _ _ _ Hi Hids) as (Hrd & Hl & Hids').
    destruct (mapM_spec _ _ _ Hr) as [Hlr Hkr]. assert (Hll : length cs'' = length cs) by congruence.
    destruct IH as [Hf Hlf].
    { rewrite Hll. apply Forall_forall. intros c Hc. apply In_nth_error in Hc. destruct Hc as (k & Hc).
      destruct (nth_error cs' k) as [c0|] eqn:E0.
      2: { apply nth_error_None in E0. assert (k < length cs'')%nat; [apply nth_error_Some; congruence|lia]. }
      destruct (Hkr k c0 E0) as (c1 & Hc1 & Hrc). assert (c1 = c) as -> by congruence.
      destruct Hid as (_ & _ & _ & Hi4 & _). rewrite Forall_forall in Hids'.
      destruct (Hids' c0 (nth_error_In _ _ E0)) as (ii & Hii & Hbi). exists ii. eauto. }
    rewrite Hll in *. split; [constructor; assumption|congruence].
Qed.
Lemma Stripes_readable encs cs rss ms csf : Strs encs cs rss ms csf ->
  Forall (numberedC (length cs)) cs ->
  Forall (readable encs (length cs)) ms /\ length csf = length cs.
Proof. intros H. apply Images_readable with (rss := rss). eapply Stripes_Images. exact H. Qed.

(** Opening one stripe. *)
Lemma openStripe_spec encs n file a m b rows : readable encs n m -> length encs = n ->
  file = a ++ im_bytes m ++ b -> zlen file < W63 ->
  exists starts, openStripe inflate unmarshalSF ZLIB file
      {| Offset := zlen a; IndexLength := zlen (im_index m); DataLength := zlen (concat (im_streams m));
         FooterLength := zlen (im_footer m); NumberOfRows := rows |} = Ok (encs, starts) /\
    map fst starts = im_infos m /\
    Consecutive file (zlen a + zlen (im_index m)) starts (im_streams m)
                (zlen a + zlen (im_index m) + zlen (concat (im_streams m))).
Proof.
  intros (Hlen & Hinf & _ & ft & Hft & Hdec) Hn Hf Hb.
  pose proof (zlen_nonneg a). pose proof (zlen_nonneg (im_index m)).
  pose proof (zlen_nonneg (concat (im_streams m))). pose proof (zlen_nonneg (im_footer m)). pose proof (zlen_nonneg b).
  assert (Hz : zlen file = zlen a + zlen (im_index m) + zlen (concat (im_streams m)) + zlen (im_footer m) + zlen b).
  { rewrite Hf. unfold im_bytes. rewrite !zlen_app. lia. }
  unfold openStripe. cbv zeta. cbn [Offset IndexLength DataLength FooterLength].
  rewrite i64_id by (unfold is_i64; lia).
  destruct (Z.ltb_spec (zlen a + zlen (im_index m) + zlen (concat (im_streams m))) 0); [lia|].
  assert (Ed : zdrop (zlen a + zlen (im_index m) + zlen (concat (im_streams m))) file = im_footer m ++ b).
  { assert (E : file = (a ++ im_index m ++ concat (im_streams m)) ++ im_footer m ++ b).
    { rewrite Hf. unfold im_bytes. rewrite <- !app_assoc. reflexivity. }
    rewrite E at 1. apply zdrop_exact. rewrite !zlen_app. lia. }
  rewrite Ed. rewrite zlen_app. destruct (Z.ltb_spec (zlen (im_footer m) + zlen b) (zlen (im_footer m))); [lia|].
  rewrite ztake_app, Hdec. cbn [rbind]. rewrite Hft. cbn [rbind sf_columns sf_streams].
  rewrite u64_id by (unfold is_u64; lia).
  destruct (streamStarts_spec file (im_footer m ++ b) (im_infos m) (im_streams m) (a ++ im_index m) (zlen a)) as (E1 & E2).
  - lia.
  - rewrite Hf. unfold im_bytes. rewrite <- !app_assoc. reflexivity.
  - exact Hlen.
  - eapply Forall_impl; [|exact Hinf]. intros s Hs. apply Hs.
  - rewrite zlen_app in *. eexists. split; [reflexivity|]. split; assumption.
Qed.

Lemma initStripes_spec encs n file : forall rss ms pre post, Forall (readable encs n) ms -> length encs = n ->
  length rss = length ms -> file = pre ++ filedata ms ++ post -> zlen file < W63 ->
  (Forall (fun r : list (row V) => r <> []) rss ->
     exists x, initStripes inflate unmarshalSF ZLIB file (directory (zlen pre) rss ms) = Ok x) /\
  (~ Forall (fun r : list (row V) => r <> []) rss ->
     initStripes inflate unmarshalSF ZLIB file (directory (zlen pre) rss ms) = Err).
Proof.
  induction rss as [|rows rss IH]; intros [|m ms] pre post Hr Hn Hl Hf Hb; try discriminate.
  - split; [intros _; exists []; reflexivity|]. intros H. exfalso. apply H. constructor.
  - inversion Hr as [|? ? Hrm Hrms]; subst. cbn [directory initStripes NumberOfRows].
    assert (Ef : pre ++ filedata (m :: ms) ++ post = (pre ++ im_bytes m) ++ filedata ms ++ post).
    { unfold filedata. cbn [map concat]. rewrite <- !app_assoc. reflexivity. }
    assert (Ef' : pre ++ filedata (m :: ms) ++ post = pre ++ im_bytes m ++ (filedata ms ++ post)).
    { unfold filedata. cbn [map concat]. rewrite <- !app_assoc. reflexivity. }
    destruct (IH ms (pre ++ im_bytes m) post Hrms eq_refl ltac:(cbn in Hl; lia) Ef Hb) as [I1 I2].
    rewrite zlen_app in I1, I2.
    destruct (openStripe_spec encs (length encs) _ pre m _ (zlen rows) Hrm eq_refl Ef' Hb) as (st & Ho & _).
    destruct rows as [|r0 rows].
    + cbn [Z.eqb zlen length Z.of_nat]. split; [intros H; inversion H; congruence|reflexivity].
    + destruct (Z.eqb_spec (zlen (r0 :: rows)) 0) as [Hz|Hz]; [rewrite zlen_cons in Hz; pose proof (zlen_nonneg rows); lia|].
      rewrite Ho. cbn [rbind]. split.
      * intros H. inversion H as [|? ? _ H']; subst. destruct (I1 H') as (x & ->). cbn [rbind]. eauto.
      * intros H. rewrite I2; [reflexivity|]. intros H'. apply H. constructor; [discriminate|exact H'].
Qed.
End Open.
