(** C26, C27, C30, C38, C41, C46: whole files, written by the concrete column writers.
    The protobuf library [P] is any that is invertible; [wire] is one. *)
From Coq Require Import ZifyBool ZifyNat.
From Verif.Model Require Import Go Chunk Stream Schema Rows Time File Column Wire Assembled.
From Verif.Spec Require Import ChunkSpec StreamSpec FileSpec ColumnSpec AssemblySpec.
From Verif.Proofs Require Import Base ChunkP FileP TailP OpenP FileClaimsP WireP AssembledP.
From Verif.Properties Require Import Columns.

(** A file with an int64 column and a nullable string column. *)
Definition sample_schema : td :=
  Td 0 STRUCT [[97]; [98]] 0 false [Td 1 LONG [] 2 false []; Td 2 STRING [] 2 true []].
Definition sample_batch (l : list (value * value)) : cvec value :=
  CVec 0 None [CVec 1 (Some (map fst l)) []; CVec 2 (Some (map snd l)) []].
Definition sample_rows : list (value * value) :=
  [(val (GInt64 5), val (GString [104; 105])); (val (GInt64 (-7)), vnull); (val (GInt64 9), val (GString [122]))].
Definition make (o : opts) (StripeSize : Z) (schema : td) (bs : list (cvec value)) : res (list Z) :=
  let! w0 := newFileWriter (i_New (columns toy_deflate fl o 10)) schema in
  let! w := writeBatches (write1 toy_deflate (columns toy_deflate fl o 10) wire o StripeSize) w0 bs in
  closeFile toy_deflate (columns toy_deflate fl o 10) wire o w.
Lemma make_closed o sz schema bs file : make o sz schema bs = Ok file ->
  closed toy_deflate (columns toy_deflate fl o 10) wire o sz schema bs file.
Proof.
  unfold make, closed. intros H. apply rbind_inv in H. destruct H as (w0 & H0 & H). apply rbind_inv in H. destruct H as (w & H1 & H).
  exists w0, w. auto.
Qed.
Definition the (x : res (list Z)) : list Z := match x with Ok b => b | _ => [] end.
(** One stripe; three stripes of which the last is empty; no batch at all. *)
Definition file1 : list Z := the (make zl64 1000 sample_schema [sample_batch sample_rows]).
Definition file3 : list Z := the (make zl64 1 sample_schema [sample_batch sample_rows]).
Definition file0 : list Z := the (make zl64 1000 sample_schema []).
Lemma file1_closed : closed toy_deflate (columns toy_deflate fl zl64 10) wire zl64 1000 sample_schema [sample_batch sample_rows] file1.
Proof. apply make_closed. vm_compute. reflexivity. Qed.
Lemma file3_closed : closed toy_deflate (columns toy_deflate fl zl64 10) wire zl64 1 sample_schema [sample_batch sample_rows] file3.
Proof. apply make_closed. vm_compute. reflexivity. Qed.
Lemma file0_closed : closed toy_deflate (columns toy_deflate fl zl64 10) wire zl64 1000 sample_schema [] file0.
Proof. apply make_closed. vm_compute. reflexivity. Qed.
Lemma sample_numbered : numbered sample_schema.
Proof. eexists. split; [reflexivity|]. repeat (constructor; [cbn; lia|]). constructor. Qed.

Lemma Forall2_length {A B} (R : A -> B -> Prop) l l' : Forall2 R l l' -> length l = length l'.
Proof. induction 1; cbn; congruence. Qed.
Lemma sample_few rows : Rows [sample_batch sample_rows] rows -> zlen rows < W64.
Proof.
  intros H. inversion H as [|v vs rs rows' Hf Hr E1 E2]; subst. inversion Hr; subst. rewrite app_nil_r.
  assert (E : length rs = 3%nat) by (clear - Hf; apply Forall2_length in Hf; rewrite <- Hf; reflexivity).
  unfold zlen. rewrite E. reflexivity.
Qed.

(** ** C26 *)
Theorem C26_stripes_tile : forall deflate F o stride P StripeSize schema vs file,
  closed deflate (columns deflate F o stride) P o StripeSize schema vs file ->
  zlen file < W64 -> (forall rows, Rows vs rows -> zlen rows < W64) ->
  exists rows ft raw rest pre fb psb,
    Rows vs rows /\
    file = pre ++ fb ++ psb ++ [u8 (zlen psb)] /\
    pb_Footer P ft = Ok raw /\ CompressingAllInChunks deflate ZLIB (ChunkSize o) raw = Ok (fb, rest) /\
    pb_PS P {| p_footerLength := zlen fb; p_compression := ZLIB; p_blockSize := u64 (ChunkSize o);
               p_metadataLength := 0 |} = Ok psb /\
    Tiles 3 (f_stripes ft) (zlen pre) /\ f_contentLength ft = zlen pre - 3 /\
    sum (map NumberOfRows (f_stripes ft)) = zlen rows /\ f_rows ft = zlen rows.
Proof.
  intros deflate F o stride P StripeSize schema vs file Hc Hf Hr.
  destruct (closed_facts deflate _ _ _ _ P o StripeSize _ _ _ (columns_contract deflate F o stride) Hc Hf Hr)
    as (schemas & cs & rows & rss & ms & csf & raw & fb & psb & _ & _ & H3 & H4 & _ & H6 & H7 & H8 & _ & (rest & H10) & H11).
  exists rows, (closedFooter colW value colstats (i_Stats (columns deflate F o stride)) schemas rss ms csf), raw, rest,
    (Magic ++ filedata ms), fb, psb.
  split; [exact H3|]. split; [rewrite H7, <- app_assoc; reflexivity|]. split; [exact H8|]. split; [exact H10|]. split; [exact H11|].
  cbn [closedFooter f_stripes f_contentLength f_rows]. rewrite zlen_app. change (zlen Magic) with 3.
  split; [apply tiles_directory; exact H6|]. split; [lia|]. split; [|rewrite H4; reflexivity].
  rewrite H4, <- (directory_rows value rss 3 ms H6). unfold sum. clear.
  induction (directory 3 rss ms) as [|i l IH]; [reflexivity|]. cbn [map fold_right]. rewrite IH. reflexivity.
Qed.
Print Assumptions C26_stripes_tile.

(** The three stripes of [file3] begin at 3, 72 and 141; the last is empty. *)
Example C26_ex :
  (let! r := newFileReader toy_inflate cs_hasNull unmarshalPS unmarshalFooter file3 in
   Ok (map (fun i => (Offset i, DataLength i, FooterLength i, NumberOfRows i)) (fr_stripes r)))
  = Ok [(3, 22, 47, 1); (72, 22, 47, 2); (141, 0, 47, 0)].
Proof. vm_compute. reflexivity. Qed.
Example C26_ex_hypotheses : exists rows ft raw rest pre fb psb,
    Rows [sample_batch sample_rows] rows /\ file3 = pre ++ fb ++ psb ++ [u8 (zlen psb)] /\
    pb_Footer wire ft = Ok raw /\ CompressingAllInChunks toy_deflate ZLIB 64 raw = Ok (fb, rest) /\
    pb_PS wire {| p_footerLength := zlen fb; p_compression := ZLIB; p_blockSize := u64 64;
               p_metadataLength := 0 |} = Ok psb /\
    Tiles 3 (f_stripes ft) (zlen pre) /\ f_contentLength ft = zlen pre - 3 /\
    sum (map NumberOfRows (f_stripes ft)) = zlen rows /\ f_rows ft = zlen rows.
Proof.
  apply (C26_stripes_tile toy_deflate fl zl64 10 wire 1 sample_schema _ _ file3_closed); [vm_compute; reflexivity|].
  exact sample_few.
Qed.

(** ** C46 *)
(** The rows written are cut into consecutive groups, one for each stripe; stripe [k]
    consists of exactly what the column writers produce for the values of group [k], in
    order; no group but the last is empty.  A group ends with the first row after which
    the columns report StripeSize bytes or more. *)
Theorem C46_rows_in_order : forall deflate F o stride P StripeSize schema vs file,
  closed deflate (columns deflate F o stride) P o StripeSize schema vs file ->
  zlen file < W64 -> (forall rows, Rows vs rows -> zlen rows < W64) ->
  exists schemas cs rows rss ms csf tail,
    Flat schema = Ok schemas /\ mapM (NewWriter o) schemas = Ok cs /\
    Rows vs rows /\ concat rss = rows /\
    Stripes deflate colW value (c_Write deflate F o stride) (c_Size o) (c_Flush deflate o) (fun c => marshalIndex (cw_index c))
      (c_WriteOut o) c_Infos (c_Reset o) (pb_SF P) o StripeSize (map td_enc schemas) cs rss ms csf /\
    file = [79; 82; 67] ++ concat (map im_bytes ms) ++ tail /\
    exists rs r, rss = rs ++ [r] /\ Forall (fun r => r <> []) rs.
Proof.
  intros deflate F o stride P StripeSize schema vs file Hc Hf Hr.
  destruct (closed_facts deflate _ _ _ _ P o StripeSize _ _ _ (columns_contract deflate F o stride) Hc Hf Hr)
    as (schemas & cs & rows & rss & ms & csf & raw & fb & psb & H1 & H2 & H3 & H4 & H5 & H6 & H7 & _).
  exists schemas, cs, rows, rss, ms, csf, (fb ++ psb ++ [u8 (zlen psb)]).
  split; [exact H1|]. split; [exact H2|]. split; [exact H3|]. split; [symmetry; exact H4|]. split; [exact H5|].
  split; [exact H7|]. eapply Stripes_inner; exact H5.
Qed.
Print Assumptions C46_rows_in_order.

(** ** C27 *)
(** A writer that was given no row closes without error, and the file cannot be opened;
    when the last row completed a stripe, the file has an empty stripe at its end and no
    batch reader can be created. *)
Theorem C27_every_file_opens_refuted :
  (closed toy_deflate (columns toy_deflate fl zl64 10) wire zl64 1000 sample_schema [] file0 /\
   newFileReader toy_inflate cs_hasNull unmarshalPS unmarshalFooter file0 = Err) /\
  (closed toy_deflate (columns toy_deflate fl zl64 10) wire zl64 1 sample_schema [sample_batch sample_rows] file3 /\
   exists r, newFileReader toy_inflate cs_hasNull unmarshalPS unmarshalFooter file3 = Ok r /\
             fr_rows r = 3 /\ CreateBatchReader toy_inflate unmarshalSF 10 file3 r = Err).
Proof.
  split; [split; [exact file0_closed|vm_compute; reflexivity]|]. split; [exact file3_closed|].
  destruct (newFileReader toy_inflate cs_hasNull unmarshalPS unmarshalFooter file3) as [r| |] eqn:E;
    [|exfalso; vm_compute in E; discriminate E..].
  exists r. split; [reflexivity|].
  assert (Hd : (let! r := newFileReader toy_inflate cs_hasNull unmarshalPS unmarshalFooter file3 in
                Ok (fr_rows r, CreateBatchReader toy_inflate unmarshalSF 10 file3 r)) = Ok (3, Err)) by (vm_compute; reflexivity).
  rewrite E in Hd. cbn [rbind] in Hd. split; congruence.
Qed.
Print Assumptions C27_every_file_opens_refuted.

(** Exactly when a closed file can be opened and a batch reader created: the tail fits
    into 16 KiB, every struct column of the schema has a name for each child, and there
    is no empty stripe (which includes that there are rows). *)
Theorem C27_opens_iff_partial : forall deflate inflate F o stride P StripeSize schema vs file n,
  proto_ok P -> flate_ok deflate inflate -> 1 <= ChunkSize o < 2 ^ 23 -> n <> 0 ->
  closed deflate (columns deflate F o stride) P o StripeSize schema vs file -> zlen file < 2 ^ 62 ->
  (forall rows, Rows vs rows -> zlen rows < W64) -> numbered schema ->
  exists schemas rows rss ms fb psb,
    Flat schema = Ok schemas /\ Rows vs rows /\ concat rss = rows /\ length ms = length rss /\
    file = [79; 82; 67] ++ concat (map im_bytes ms) ++ fb ++ psb ++ [zlen psb] /\
    ((exists r x, newFileReader inflate cs_hasNull (pb_unPS P) (pb_unFooter P) file = Ok r /\
                  CreateBatchReader inflate (pb_unSF P) n file r = Ok x) <->
     zlen fb + zlen psb + 1 <= 16384 /\ Forall (fun rs => rs <> []) rss /\
     exists ns, unmarshallSchema (SchemasToTypes schemas) = Ok ns).
Proof.
  intros deflate inflate F o stride P StripeSize schema vs file n Hpb Hfl Hcs Hn Hc Hf Hr Hnum.
  destruct (closed_opens deflate inflate _ _ _ _ P o StripeSize cs_hasNull (columns_contract deflate F o stride) Hpb Hfl Hcs _ _ _ Hc Hf Hr Hnum)
    as (schemas & cs & rows & rss & ms & csf & fb & psb & H1 & H2 & H3 & H4 & H5 & H6 & H7 & _ & Hbig & Hemp & Hsch & Hok).
  exists schemas, rows, rss, ms, fb, psb. split; [exact H1|]. split; [exact H3|]. split; [symmetry; exact H4|].
  split; [symmetry; exact H6|]. split; [exact H7|]. split.
  - intros (r & x & Hopen & Hx).
    destruct (Z.le_gt_cases (zlen fb + zlen psb + 1) 16384) as [Hs|Hs]; [|rewrite (Hbig ltac:(lia)) in Hopen; discriminate].
    split; [exact Hs|]. destruct (Hsch _ Hopen) as (ns & Hns). split; [|exists ns; exact Hns].
    assert (Hne : rows <> []) by (intros E; rewrite (Hemp Hs E) in Hopen; discriminate).
    destruct (Hok Hs Hne ns Hns) as (r' & Hr' & _ & _ & _ & _ & _ & _ & _ & Hb). assert (r' = r) as -> by congruence.
    destruct (Hb n Hn) as [_ Hb2].
    apply Forall_forall. intros rs Hin E. subst rs. rewrite Hb2 in Hx; [discriminate|].
    intros Hall. rewrite Forall_forall in Hall. apply (Hall [] Hin). reflexivity.
  - intros (Hs & Hall & ns & Hns).
    assert (Hne : rows <> []).
    { destruct rss as [|r0 rss]; [exfalso; eapply Stripes_ne; [exact H5|reflexivity]|].
      inversion Hall as [|? ? H0 _]; subst. destruct r0; [contradiction|discriminate]. }
    destruct (Hok Hs Hne ns Hns) as (r & Hr' & _ & _ & _ & _ & _ & _ & _ & Hb). destruct (proj1 (Hb n Hn) Hall) as (x & Hx).
    exists r, x. auto.
Qed.
Print Assumptions C27_opens_iff_partial.

(** [file1] can be opened. *)
Example C27_ex : exists r x, newFileReader toy_inflate cs_hasNull unmarshalPS unmarshalFooter file1 = Ok r /\
  CreateBatchReader toy_inflate unmarshalSF 10 file1 r = Ok x.
Proof.
  destruct (newFileReader toy_inflate cs_hasNull unmarshalPS unmarshalFooter file1) as [r| |] eqn:E;
    [|exfalso; vm_compute in E; discriminate E..].
  exists r. destruct (CreateBatchReader toy_inflate unmarshalSF 10 file1 r) as [x| |] eqn:Ex; [exists x; auto|exfalso..].
  - assert (Hd : (let! r := newFileReader toy_inflate cs_hasNull unmarshalPS unmarshalFooter file1 in
                let! _ := CreateBatchReader toy_inflate unmarshalSF 10 file1 r in Ok tt) = Ok tt) by (vm_compute; reflexivity).
    rewrite E in Hd. cbn [rbind] in Hd. rewrite Ex in Hd. discriminate.
  - assert (Hd : (let! r := newFileReader toy_inflate cs_hasNull unmarshalPS unmarshalFooter file1 in
                let! _ := CreateBatchReader toy_inflate unmarshalSF 10 file1 r in Ok tt) = Ok tt) by (vm_compute; reflexivity).
    rewrite E in Hd. cbn [rbind] in Hd. rewrite Ex in Hd. discriminate.
Qed.

(** ** C30 *)
(** For any file that ends in a footer, a postscript describing it and the length of the
    postscript: the footer is found exactly when the tail fits into 16 KiB; otherwise the
    reader panics. *)
Theorem C30_tail_iff_partial : forall inflate ST unPS (unFooter : list Z -> res (footer ST)) pre fb psb ps raw f,
  unPS psb = Ok ps -> p_footerLength ps = zlen fb -> p_metadataLength ps = 0 ->
  zlen psb < 256 -> 3 < zlen (pre ++ fb ++ psb ++ [zlen psb]) < 2 ^ 62 ->
  (match p_compression ps with NONE => Ok fb | k => DecompressChunks inflate k fb end) = Ok raw ->
  unFooter raw = Ok f ->
  extractFileTail inflate unPS unFooter (pre ++ fb ++ psb ++ [zlen psb]) =
    if zlen fb + zlen psb + 1 <=? 16384 then Ok (Some (ps, f)) else Panic.
Proof.
  intros inflate ST unPS unFooter pre fb psb ps raw f H1 H2 H3 H4 H5 H6 H7.
  apply (tail_exact inflate ST unPS unFooter pre fb psb ps f raw); try assumption.
  rewrite !zlen_app in H5. pose proof (zlen_nonneg pre). pose proof (zlen_nonneg psb). pose proof (zlen_nonneg [zlen psb]). lia.
Qed.
Print Assumptions C30_tail_iff_partial.

(** A footer of 17000 bytes (one long column name), an empty file, and four bytes. *)
Definition big_footer : footer colstats :=
  {| f_headerLength := 3; f_contentLength := 0; f_stripes := []; f_types := [{| t_kind := STRUCT; t_sub := [];
     t_names := [repeat 97 (Z.to_nat 17000)] |}]; f_rows := 1; f_stats := []; f_stride := 0 |}.
Definition big_fb : list Z := the (marshalFooter big_footer).
Definition big_ps : postscript :=
  {| p_footerLength := zlen big_fb; p_compression := NONE; p_blockSize := 0; p_metadataLength := 0 |}.
Theorem C30_tail_refuted :
  (marshalFooter big_footer = Ok big_fb /\ exists psb, marshalPS big_ps = Ok psb /\
   newFileReader toy_inflate cs_hasNull unmarshalPS unmarshalFooter (Magic ++ big_fb ++ psb ++ [zlen psb]) = Panic) /\
  newFileReader toy_inflate cs_hasNull unmarshalPS unmarshalFooter [] = Panic /\
  newFileReader toy_inflate cs_hasNull unmarshalPS unmarshalFooter [0; 0; 0; 255] = Panic.
Proof.
  split; [|split; vm_compute; reflexivity]. split; [vm_compute; reflexivity|].
  exists (the (marshalPS big_ps)). split; vm_compute; reflexivity.
Qed.
Print Assumptions C30_tail_refuted.

(** What is reported as an error: files of one to three bytes, and a postscript or footer
    that the protobuf library or the decompression rejects. *)
Theorem C30_short_error : forall inflate ST hasNull unPS (unFooter : list Z -> res (footer ST)) file,
  1 <= zlen file <= 3 -> newFileReader inflate hasNull unPS unFooter file = Err.
Proof. intros. unfold newFileReader. rewrite tail_short by assumption. reflexivity. Qed.
Print Assumptions C30_short_error.
(** Any file of at most 16 KiB whose last byte is at least its length panics. *)
Theorem C30_bad_length_panics : forall inflate ST hasNull unPS (unFooter : list Z -> res (footer ST)) pre b,
  4 <= zlen (pre ++ [b]) <= b -> b < 256 -> newFileReader inflate hasNull unPS unFooter (pre ++ [b]) = Panic.
Proof.
  intros inflate ST hasNull unPS unFooter pre b H Hb. unfold newFileReader.
  destruct (tail_panic inflate ST unPS unFooter pre b H) as [->|H2]; [reflexivity|lia].
Qed.
Print Assumptions C30_bad_length_panics.

(** A file of the writer: the footer found is the one written. *)
Example C30_ex : (let! t := extractFileTail toy_inflate unmarshalPS unmarshalFooter file1 in
                  Ok (option_map (fun x => (p_footerLength (fst x), f_rows (snd x), length (f_types (snd x)))) t))
  = Ok (Some (92, 3, 3%nat)).
Proof. vm_compute. reflexivity. Qed.

(** ** C38 *)
(** Without compression, rows can be written, but Close never succeeds, whatever the
    rows; the same holds for every kind other than ZLIB. *)
Theorem C38_every_kind_refuted :
  (exists w0 w, newFileWriter (i_New (columns toy_deflate fl no64 10)) sample_schema = Ok w0 /\
     write1 toy_deflate (columns toy_deflate fl no64 10) wire no64 1000 w0 (sample_batch sample_rows) = Ok w /\
     closeFile toy_deflate (columns toy_deflate fl no64 10) wire no64 w = Err) /\
  forall deflate F o stride P StripeSize schema vs file, CompressionKind o <> ZLIB ->
    ~ closed deflate (columns deflate F o stride) P o StripeSize schema vs file.
Proof.
  split.
  - destruct (newFileWriter (i_New (columns toy_deflate fl no64 10)) sample_schema) as [w0| |] eqn:E0;
      [|exfalso; vm_compute in E0; discriminate E0..].
    exists w0.
    assert (Hd : (let! w0 := newFileWriter (i_New (columns toy_deflate fl no64 10)) sample_schema in
      let! w := write1 toy_deflate (columns toy_deflate fl no64 10) wire no64 1000 w0 (sample_batch sample_rows) in
      Ok (closeFile toy_deflate (columns toy_deflate fl no64 10) wire no64 w)) = Ok Err) by (vm_compute; reflexivity).
    rewrite E0 in Hd. cbn [rbind] in Hd. apply rbind_inv in Hd. destruct Hd as (w & Hw & Hd). exists w.
    split; [reflexivity|]. split; [exact Hw|]. congruence.
  - intros deflate F o stride P StripeSize schema vs file Hk (w0 & w & _ & _ & H).
    eapply only_zlib; [exact Hk|exact H].
Qed.
Print Assumptions C38_every_kind_refuted.

(** ** C41 *)
(** In every stripe of a file the writer closed and the reader opened, the streams of the
    stripe footer lie one after the other, each where the reader looks for it, from the
    end of the index area to the beginning of the footer. *)
Theorem C41_streams_fill : forall deflate inflate F o stride P StripeSize schema vs file r,
  proto_ok P -> flate_ok deflate inflate -> 1 <= ChunkSize o < 2 ^ 23 ->
  closed deflate (columns deflate F o stride) P o StripeSize schema vs file -> zlen file < 2 ^ 62 ->
  (forall rows, Rows vs rows -> zlen rows < W64) -> numbered schema ->
  newFileReader inflate cs_hasNull (pb_unPS P) (pb_unFooter P) file = Ok r ->
  Forall (fun i => exists encs starts bs,
    openStripe inflate (pb_unSF P) (fr_kind r) file i = Ok (encs, starts) /\
    Consecutive file (Offset i + IndexLength i) starts bs (Offset i + IndexLength i + DataLength i)) (fr_stripes r).
Proof.
  intros deflate inflate F o stride P StripeSize schema vs file r Hpb Hfl Hcs Hc Hf Hr Hnum Hopen.
  destruct (closed_opens deflate inflate _ _ _ _ P o StripeSize cs_hasNull (columns_contract deflate F o stride) Hpb Hfl Hcs _ _ _ Hc Hf Hr Hnum)
    as (schemas & cs & rows & rss & ms & csf & fb & psb & H1 & H2 & H3 & H4 & H5 & H6 & H7 & Hst & Hbig & Hemp & Hsch & Hok).
  destruct (Z.le_gt_cases (zlen fb + zlen psb + 1) 16384) as [Hs|Hs]; [|rewrite (Hbig ltac:(lia)) in Hopen; discriminate].
  destruct (Hsch _ Hopen) as (ns & Hns).
  assert (Hne : rows <> []) by (intros E; rewrite (Hemp Hs E) in Hopen; discriminate).
  destruct (Hok Hs Hne ns Hns) as (r' & Hr' & _ & Hdir & Hk & _ & _ & Hnodes & _). assert (r' = r) as -> by congruence.
  rewrite Hdir, Hk. apply Forall_forall. intros i Hi. apply In_nth_error in Hi. destruct Hi as (k & Hi).
  destruct (Hst k i Hi) as (m & starts & _ & Ho & _ & Hcons). exists (map td_enc schemas), starts, (im_streams m). auto.
Qed.
Print Assumptions C41_streams_fill.

(** The four streams of [file1]'s only stripe. *)
Example C41_ex :
  (let! (_, starts) := openStripe toy_inflate unmarshalSF ZLIB file1
     {| Offset := 3; IndexLength := 0; DataLength := 25; FooterLength := 47; NumberOfRows := 3 |} in
   Ok (map (fun x => (st_column (fst x), st_kind (fst x), st_length (fst x), snd x)) starts))
  = Ok [(1, 1, 8, 3); (2, 0, 5, 11); (2, 1, 6, 16); (2, 2, 6, 22)].
Proof. vm_compute. reflexivity. Qed.
Example C41_ex_hypotheses : exists r,
  newFileReader toy_inflate cs_hasNull unmarshalPS unmarshalFooter file1 = Ok r /\
  Forall (fun i => exists encs starts bs,
    openStripe toy_inflate (pb_unSF wire) (fr_kind r) file1 i = Ok (encs, starts) /\
    Consecutive file1 (Offset i + IndexLength i) starts bs (Offset i + IndexLength i + DataLength i)) (fr_stripes r).
Proof.
  destruct (newFileReader toy_inflate cs_hasNull unmarshalPS unmarshalFooter file1) as [r| |] eqn:E;
    [|exfalso; vm_compute in E; discriminate E..].
  exists r. split; [reflexivity|].
  apply (C41_streams_fill toy_deflate toy_inflate fl zl64 10 wire 1000 sample_schema _ _ _ wire_ok toy_ok ltac:(cbn; lia) file1_closed).
  - vm_compute. reflexivity.
  - exact sample_few.
  - exact sample_numbered.
  - exact E.
Qed.
