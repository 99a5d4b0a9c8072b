(** The file-level claims. *)
From Verif.Model Require Import Go Chunk Stream Schema Rows File.
From Verif.Spec Require Import ChunkSpec StreamSpec FileSpec.
From Verif.Proofs Require Import Base ChunkP StreamClaimsP FileP TailP OpenP.

Section Claims.
Variable deflate : list (list Z) -> list Z -> res (list Z).
Variable inflate : list Z -> res (list Z).
Variables C V ST : Type.
Variable I : iface C V ST.
Variable P : proto ST.
Variable o : opts.
Variable StripeSize : Z.
Variable hasNull : ST -> bool.
Notation Clo := (closed deflate I P o StripeSize).
Notation Strs encs := (Stripes deflate C V (i_Write I) (i_Size I) (i_Flush I) (i_Index I) (i_WriteOut I) (i_Infos I) (i_Reset I) (pb_SF P) o StripeSize encs).
Notation Imgs encs := (Images deflate C V (i_Write I) (i_Flush I) (i_Index I) (i_WriteOut I) (i_Infos I) (i_Reset I) (pb_SF P) o encs).
Notation newR := (newFileReader inflate hasNull (pb_unPS P) (pb_unFooter P)).
Notation batchRd := (CreateBatchReader inflate (pb_unSF P)).

Lemma Stripes_ne encs cs rss ms csf : Strs encs cs rss ms csf -> rss <> [].
Proof. destruct 1; discriminate. Qed.
Lemma Stripes_inner encs cs rss ms csf : Strs encs cs rss ms csf ->
  exists rs r, rss = rs ++ [r] /\ Forall (fun r => r <> []) rs.
Proof.
  induction 1 as [cs rows m cs' Hi Ho|cs rows m cs' cs'' rss ms csf Hi Hne Hr H IH].
  - exists [], rows. split; [reflexivity|constructor].
  - destruct IH as (rs & r & -> & Hf). exists (rows :: rs), r. split; [reflexivity|constructor; [eapply Cut_ne; exact Hne|exact Hf]].
Qed.

(** Everything about a closed file at once. *)
Lemma closed_facts schema vs file : contract I -> Clo schema vs file -> zlen file < W64 ->
  (forall rows, Rows vs rows -> zlen rows < W64) ->
  exists schemas cs rows rss ms csf raw fb psb,
    Flat schema = Ok schemas /\ mapM (i_New I) schemas = Ok cs /\
    Rows vs rows /\ rows = concat rss /\ Strs (map td_enc schemas) cs rss ms csf /\ length rss = length ms /\
    file = Magic ++ filedata ms ++ fb ++ psb ++ [u8 (zlen psb)] /\
    pb_Footer P (closedFooter C V ST (i_Stats I) schemas rss ms csf) = Ok raw /\
    CompressionKind o = ZLIB /\
    (exists rest, CompressingAllInChunks deflate ZLIB (ChunkSize o) raw = Ok (fb, rest)) /\
    pb_PS P {| p_footerLength := zlen fb; p_compression := ZLIB;
               p_blockSize := u64 (ChunkSize o); p_metadataLength := 0 |} = Ok psb.
Proof.
  intros (Hws & Hid & Hnew) (w0 & w & Hn & Hw & Hc) Hf Hr.
  destruct (Inv_new deflate C V (i_Write I) (i_Size I) (i_Flush I) (i_Index I) (i_WriteOut I) (i_Infos I) (i_Reset I)
              (i_New I) (pb_SF P) o StripeSize schema w0 Hn) as (_ & Hfl & Hcs).
  destruct (file_written deflate C V ST (i_Write I) (i_Size I) (i_Flush I) (i_Index I) (i_WriteOut I) (i_Infos I)
              (i_Stats I) (i_Reset I) (i_New I) (pb_SF P) (pb_Footer P) (pb_PS P) o StripeSize Hws
              schema w0 vs w file Hn Hw Hc Hf Hr)
    as (rows & rss & ms & csf & raw & fb & psb & H1 & H2 & H3 & H4 & H5 & H6 & H7 & H8).
  assert (Hz : CompressionKind o = ZLIB).
  { destruct H3 as [cs0 rows0 m cs' (_ & _ & _ & _ & ft & rest & _ & Hc0) _
                   |cs0 rows0 m cs' cs'' rss0 ms0 csf0 (_ & _ & _ & _ & ft & rest & _ & Hc0) _ _ _];
      eapply all_zlib; exact Hc0. }
  rewrite Hz in *. exists (sw_schemas w0), (sw_cols w0), rows, rss, ms, csf, raw, fb, psb. auto 12.
Qed.

Lemma tiles_directory (rss : list (list (row V))) : forall ms off, length rss = length ms ->
  Tiles off (directory off rss ms) (off + zlen (filedata ms)).
Proof.
  induction rss as [|r rss IH]; intros [|m ms] off H; try discriminate.
  - cbn [directory filedata map concat]. unfold filedata. cbn. rewrite Z.add_0_r. constructor.
  - cbn [directory]. unfold filedata. cbn [map concat]. rewrite zlen_app.
    apply (TilesCons {| Offset := off; IndexLength := zlen (im_index m); DataLength := zlen (concat (im_streams m));
             FooterLength := zlen (im_footer m); NumberOfRows := zlen r |});
      cbn [Offset IndexLength DataLength FooterLength]; try apply zlen_nonneg.
    replace (off + zlen (im_index m) + zlen (concat (im_streams m)) + zlen (im_footer m))
      with (off + zlen (im_bytes m)) by (unfold im_bytes; rewrite !zlen_app; lia).
    rewrite Z.add_assoc. apply IH. cbn in H. lia.
Qed.

Hypothesis Hcon : contract I.
Hypothesis Hpb : proto_ok P.
Hypothesis Hflate : flate_ok deflate inflate.
Hypothesis Hcs : 1 <= ChunkSize o < 2 ^ 23.

Lemma columns_in_range schema schemas cs : Flat schema = Ok schemas -> mapM (i_New I) schemas = Ok cs ->
  numbered schema -> length cs = length schemas /\ Forall (numberedC C (i_of I) (length cs)) cs.
Proof.
  intros Hf Hm (l & Hl & Hn). assert (l = schemas) as -> by congruence.
  destruct (mapM_spec _ _ _ Hm) as [Hlen Hk]. split; [exact Hlen|].
  apply Forall_forall. intros c Hc. apply In_nth_error in Hc. destruct Hc as (k & Hc).
  destruct (nth_error schemas k) as [t|] eqn:Et.
  2: { apply nth_error_None in Et. assert (k < length cs)%nat; [apply nth_error_Some; congruence|lia]. }
  destruct (Hk k t Et) as (c' & Hc' & Hnew). assert (c' = c) as -> by congruence.
  destruct Hcon as (_ & _ & Hid). exists (td_id t). split; [exact (Hid _ _ Hnew)|]. rewrite Forall_forall in Hn.
  specialize (Hn t (nth_error_In _ _ Et)). unfold zlen in Hn. lia.
Qed.

Lemma unmarshallNodes_length n l : forall ns, unmarshallNodes n l = Ok ns -> length ns = length l.
Proof.
  induction l as [|t l IH]; intros ns H; cbn [unmarshallNodes] in H.
  - assert (ns = []) as -> by congruence. reflexivity.
  - apply rbind_inv in H. destruct H as (x & _ & H). apply rbind_inv in H. destruct H as (y & Hy & H).
    assert (ns = x :: y) as -> by congruence. cbn. rewrite (IH _ Hy). reflexivity.
Qed.

(** The streams of every stripe; [rss] are the rows counted, [all] those the columns hold. *)
Lemma facts_streams schema schemas cs all (rss : list (list (row V))) ms csf file tail : Flat schema = Ok schemas -> mapM (i_New I) schemas = Ok cs ->
  numbered schema -> Imgs (map td_enc schemas) cs all ms csf -> length rss = length ms -> CompressionKind o = ZLIB ->
  file = Magic ++ filedata ms ++ tail -> zlen file < W63 ->
  forall k i, nth_error (directory 3 rss ms) k = Some i ->
      exists m starts, nth_error ms k = Some m /\
        openStripe inflate (pb_unSF P) ZLIB file i = Ok (map td_enc schemas, starts) /\
        map fst starts = im_infos m /\
        Consecutive file (Offset i + IndexLength i) starts (im_streams m) (Offset i + IndexLength i + DataLength i).
Proof.
  intros H1 H2 Hnum H5 H6 H9 H7 Hf.
  destruct (columns_in_range _ _ _ H1 H2 Hnum) as [Hlc Hids].
  destruct Hcon as (Hws & Hid & Hnew). destruct Hpb as (P1 & P2 & P3 & P4).
  destruct (Images_readable deflate inflate C V ST (i_Write I) (i_Size I) (i_Flush I) (i_Index I) (i_WriteOut I)
                (i_Infos I) (i_Stats I) (i_Reset I) (i_of I) hasNull (pb_SF P) (pb_unSF P) (pb_unFooter P) (pb_unPS P)
                o StripeSize Hid Hflate Hcs P1 _ _ _ _ _ H5 Hids) as [Hrd Hlf].
  intros k i Hi.
  assert (Hk : (k < length rss)%nat).
  { rewrite <- (directory_length rss ms 3 H6). apply nth_error_Some. congruence. }
  destruct (nth_error rss k) as [r|] eqn:Er; [|apply nth_error_None in Er; lia].
  destruct (nth_error ms k) as [m|] eqn:Em; [|apply nth_error_None in Em; lia].
  destruct (directory_nth rss ms Magic tail k r m Er Em) as (a & b & Ef & Hd).
  change (zlen Magic) with 3 in Hd. rewrite Hd in Hi.
  match type of Hi with Some ?x = _ => assert (i = x) as -> by congruence end.
  cbn [Offset IndexLength DataLength]. rewrite <- H7 in Ef.
  assert (Hrm : readable inflate (pb_unSF P) o (map td_enc schemas) (length cs) m).
  { rewrite Forall_forall in Hrd. apply Hrd. eapply nth_error_In. exact Em. }
  destruct (openStripe_spec inflate ST (pb_unSF P) (pb_unFooter P) (pb_unPS P) o (map td_enc schemas) (length cs) file a m b (zlen r) Hrm) as (st & Ho & Hm & Hcon').
  - rewrite map_length. congruence.
  - exact Ef.
  - exact Hf.
  - exists m, st. auto.
Qed.

(** Opening a file with these parts; [rss] are the rows counted, [all] those the columns hold. *)
Lemma stored_opens schema schemas cs all rss ms csf raw fb psb file :
  Flat schema = Ok schemas -> mapM (i_New I) schemas = Ok cs -> numbered schema ->
  Imgs (map td_enc schemas) cs all ms csf -> length rss = length ms ->
  file = Magic ++ filedata ms ++ fb ++ psb ++ [u8 (zlen psb)] ->
  pb_Footer P (closedFooter C V ST (i_Stats I) schemas rss ms csf) = Ok raw -> CompressionKind o = ZLIB ->
  (exists rest, CompressingAllInChunks deflate ZLIB (ChunkSize o) raw = Ok (fb, rest)) ->
  pb_PS P {| p_footerLength := zlen fb; p_compression := ZLIB;
             p_blockSize := u64 (ChunkSize o); p_metadataLength := 0 |} = Ok psb ->
  zlen file < 2 ^ 62 ->
    file = Magic ++ filedata ms ++ fb ++ psb ++ [zlen psb] /\
    (forall k i, nth_error (directory 3 rss ms) k = Some i ->
      exists m starts, nth_error ms k = Some m /\
        openStripe inflate (pb_unSF P) ZLIB file i = Ok (map td_enc schemas, starts) /\
        map fst starts = im_infos m /\
        Consecutive file (Offset i + IndexLength i) starts (im_streams m) (Offset i + IndexLength i + DataLength i)) /\
    (16384 < zlen fb + zlen psb + 1 -> newR file = Panic) /\
    (zlen fb + zlen psb + 1 <= 16384 -> concat rss = [] -> newR file = Err) /\
    (forall r, newR file = Ok r -> exists ns, unmarshallSchema (SchemasToTypes schemas) = Ok ns) /\
    (zlen fb + zlen psb + 1 <= 16384 -> concat rss <> [] ->
      forall ns, unmarshallSchema (SchemasToTypes schemas) = Ok ns ->
      exists r, newR file = Ok r /\ fr_rows r = zlen (concat rss) /\ fr_stripes r = directory 3 rss ms /\
        fr_kind r = ZLIB /\ fr_chunkSize r = ChunkSize o /\ fr_stride r = 0 /\ fr_nodes r = ns /\
        fr_stats r = map (i_Stats I) csf /\
        forall n, n <> 0 ->
          (Forall (fun r => r <> []) rss -> exists x, batchRd n file r = Ok x) /\
          (~ Forall (fun r => r <> []) rss -> batchRd n file r = Err)).
Proof.
  intros H1 H2 Hnum H5 H6 H7 H8 H9 (rest & H10) H11 Hf. change (2 ^ 62) with 4611686018427387904 in Hf.
  destruct Hpb as (P1 & P2 & P3 & P4). pose proof (P4 _ _ H11) as Hps.
  rewrite u8_id in H7 by (unfold is_u8; pose proof (zlen_nonneg psb); lia).
  assert (Hraw : DecompressChunks inflate ZLIB fb = Ok raw) by apply (chunk_lossless _ _ _ _ _ _ Hflate Hcs H10).
  pose proof (zlen_nonneg (filedata ms)). pose proof (zlen_nonneg fb). pose proof (zlen_nonneg psb).
  assert (Hsz : zlen file = 3 + zlen (filedata ms) + zlen fb + zlen psb + 1).
  { rewrite H7, !zlen_app, zlen_cons, zlen_nil. change (zlen Magic) with 3. lia. }
  assert (Ht : extractFileTail inflate (pb_unPS P) (pb_unFooter P) file =
     if zlen fb + zlen psb + 1 <=? 16384
     then Ok (Some ({| p_footerLength := zlen fb; p_compression := ZLIB;
                       p_blockSize := u64 (ChunkSize o); p_metadataLength := 0 |},
                    closedFooter C V ST (i_Stats I) schemas rss ms csf)) else Panic).
  { assert (E7 : file = (Magic ++ filedata ms) ++ fb ++ psb ++ [zlen psb]) by (rewrite H7, <- !app_assoc; reflexivity).
    rewrite E7. eapply tail_exact.
    - apply P3. exact H11.
    - reflexivity.
    - reflexivity.
    - exact Hps.
    - change (2 ^ 62) with 4611686018427387904. lia.
    - rewrite <- E7. change (2 ^ 62) with 4611686018427387904. lia.
    - cbn [p_compression]. exact Hraw.
    - apply P2. exact H8. }
  split; [exact H7|].
  split; [apply (facts_streams schema schemas cs all rss ms csf file (fb ++ psb ++ [zlen psb])); try assumption; lia|].
  unfold newFileReader. rewrite Ht. split; [|split; [|split]].
  - intros Hbig. destruct (Z.leb_spec (zlen fb + zlen psb + 1) 16384); [lia|]. reflexivity.
  - intros Hs He. destruct (Z.leb_spec (zlen fb + zlen psb + 1) 16384); [|lia]. cbn [rbind f_rows closedFooter].
    rewrite He. reflexivity.
  - intros r Hok. destruct (zlen fb + zlen psb + 1 <=? 16384); [|discriminate Hok]. cbn [rbind closedFooter f_rows f_types] in Hok.
    destruct (zlen (concat rss) =? 0); [discriminate Hok|]. apply rbind_inv in Hok. destruct Hok as (ns & Hns & _). exists ns. exact Hns.
  - intros Hs Hne ns Hns. destruct (Z.leb_spec (zlen fb + zlen psb + 1) 16384); [|lia]. cbn [rbind].
    destruct (columns_in_range _ _ _ H1 H2 Hnum) as [Hlc Hids].
    destruct Hcon as (Hws & Hid & Hnew).
    destruct (Images_readable deflate inflate C V ST (i_Write I) (i_Size I) (i_Flush I) (i_Index I) (i_WriteOut I)
                (i_Infos I) (i_Stats I) (i_Reset I) (i_of I) hasNull (pb_SF P) (pb_unSF P) (pb_unFooter P) (pb_unPS P)
                o StripeSize Hid Hflate Hcs P1 _ _ _ _ _ H5 Hids) as [Hrd Hlf].
    cbn [closedFooter f_rows f_types f_stats f_stride f_stripes p_compression p_blockSize].
    destruct (Z.eqb_spec (zlen (concat rss)) 0) as [Hz|_].
    { apply zlen_0 in Hz. contradiction. }
    rewrite Hns. cbn [rbind]. pose proof (unmarshallNodes_length _ _ _ Hns) as Hnl.
    unfold SchemasToTypes in Hnl. rewrite map_length in Hnl.
    destruct (Nat.ltb_spec (length ns) (length (map (i_Stats I) csf))) as [Hlt|_]; [rewrite map_length in Hlt; lia|].
    eexists. split; [reflexivity|]. cbn [fr_rows fr_stripes fr_kind fr_chunkSize fr_stride fr_nodes fr_stats].
    split; [reflexivity|]. split; [reflexivity|]. split; [reflexivity|].
    split; [apply u64_id; unfold is_u64; change (2 ^ 23) with 8388608 in Hcs; lia|].
    split; [reflexivity|]. split; [reflexivity|]. split; [reflexivity|].
    intros n Hn. unfold CreateBatchReader. destruct (Z.eqb_spec n 0); [contradiction|].
    cbn [fr_kind fr_nodes fr_stripes].
    pose proof (initStripes_spec inflate V ST (pb_unSF P) (pb_unFooter P) (pb_unPS P) o) as HI.
    specialize (HI (map td_enc schemas) (length schemas) file rss ms Magic (fb ++ psb ++ [zlen psb])).
    rewrite <- Hlc in *. apply HI.
    + exact Hrd.
    + rewrite map_length. congruence.
    + exact H6.
    + exact H7.
    + lia.
Qed.

(** Opening a closed file: everything. *)
Lemma closed_opens schema vs file : Clo schema vs file -> zlen file < 2 ^ 62 ->
  (forall rows, Rows vs rows -> zlen rows < W64) -> numbered schema ->
  exists schemas cs rows rss ms csf fb psb,
    Flat schema = Ok schemas /\ mapM (i_New I) schemas = Ok cs /\
    Rows vs rows /\ rows = concat rss /\ Strs (map td_enc schemas) cs rss ms csf /\ length rss = length ms /\
    file = Magic ++ filedata ms ++ fb ++ psb ++ [zlen psb] /\
    (forall k i, nth_error (directory 3 rss ms) k = Some i ->
      exists m starts, nth_error ms k = Some m /\
        openStripe inflate (pb_unSF P) ZLIB file i = Ok (map td_enc schemas, starts) /\
        map fst starts = im_infos m /\
        Consecutive file (Offset i + IndexLength i) starts (im_streams m) (Offset i + IndexLength i + DataLength i)) /\
    (16384 < zlen fb + zlen psb + 1 -> newR file = Panic) /\
    (zlen fb + zlen psb + 1 <= 16384 -> rows = [] -> newR file = Err) /\
    (forall r, newR file = Ok r -> exists ns, unmarshallSchema (SchemasToTypes schemas) = Ok ns) /\
    (zlen fb + zlen psb + 1 <= 16384 -> rows <> [] ->
      forall ns, unmarshallSchema (SchemasToTypes schemas) = Ok ns ->
      exists r, newR file = Ok r /\ fr_rows r = zlen rows /\ fr_stripes r = directory 3 rss ms /\
        fr_kind r = ZLIB /\ fr_chunkSize r = ChunkSize o /\ fr_stride r = 0 /\ fr_nodes r = ns /\
        fr_stats r = map (i_Stats I) csf /\
        forall n, n <> 0 ->
          (Forall (fun r => r <> []) rss -> exists x, batchRd n file r = Ok x) /\
          (~ Forall (fun r => r <> []) rss -> batchRd n file r = Err)).
Proof.
  intros Hc Hf Hr Hnum.
  destruct (closed_facts schema vs file Hcon Hc ltac:(change (2 ^ 62) with 4611686018427387904 in Hf; lia) Hr)
    as (schemas & cs & rows & rss & ms & csf & raw & fb & psb & H1 & H2 & H3 & H4 & H5 & H6 & H7 & H8 & H9 & H10 & H11).
  destruct (stored_opens schema schemas cs rss rss ms csf raw fb psb file H1 H2 Hnum (Stripes_Images _ _ _ _ _ _ _ _ _ _ _ _ _ _ _ _ _ _ H5) H6 H7 H8 H9 H10 H11 Hf) as (H7' & Hall).
  subst rows. exists schemas, cs, (concat rss), rss, ms, csf, fb, psb. do 3 (split; [assumption|]). split; [reflexivity|]. do 3 (split; [assumption|]). exact Hall.
Qed.

(** Nothing but ZLIB can be closed. *)
Lemma only_zlib w file : CompressionKind o <> ZLIB -> closeFile deflate I P o w <> Ok file.
Proof.
  intros Hk H. unfold closeFile, Close in H. apply rbind_inv in H. destruct H as (w' & H & _).
  unfold flushOut in H. apply rbind_inv in H. destruct H as (? & _ & H).
  apply rbind_inv in H. destruct H as (? & _ & H). apply rbind_inv in H. destruct H as ([[? ?] ?] & _ & H).
  apply rbind_inv in H. destruct H as (? & _ & H). apply rbind_inv in H. destruct H as (? & Hc & _).
  apply Hk. eapply all_zlib. exact Hc.
Qed.
End Claims.
