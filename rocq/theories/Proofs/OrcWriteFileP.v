(** Whole files as this library's writer stores them, and the ORC specification. *)
From Coq Require Import ZifyBool ZifyNat.
From Verif.Model Require Import Go Codec ByteBool IntRle Chunk Stream Schema Rows Time File Column Wire Assembled.
From Verif.Spec Require Import BoolSpec Session StreamSpec ChunkSpec SchemaSpec RowsSpec FileSpec ColumnSpec AssemblySpec EndSpec OrcColumn OrcFile WriterSpec.
From Verif.Proofs Require Import Base SchemaP ChunkP TailP RowsP SessionP StreamClaimsP ReadP FileP OpenP FileClaimsP WireP ColumnP ColumnReadP StatsP AssembledP BatchP EndP EndColP OpenTreeP EndFileP EndMainP OrcFileP OrcWriteP.

(** ** The kinds of the streams *)
Section Kinds.
Variable deflate : list (list Z) -> list Z -> res (list Z).
Variable F : floats.
Variable o : opts.
Variable stride : Z.
Notation I := (columns deflate F o stride).
Notation CImage := (ColumnImage colW value (i_Write I) (i_Flush I) (i_Index I) (i_WriteOut I) (i_Infos I) o).
Notation CChain := (Chain colW value (i_Write I) (i_Flush I) (i_Index I) (i_WriteOut I) (i_Infos I) (i_Reset I) o).
Notation unindexed := (fun k => index_kind k = false).

Lemma writeRows_kinds vs : forall c c', writeRows deflate F o stride c vs = Ok c' -> AssembledP.kinds c' = AssembledP.kinds c.
Proof.
  induction vs as [|v t IH]; intros c c' H; cbn [writeRows] in H; [congruence|].
  apply rbind_inv in H. destruct H as (c1 & H1 & H). rewrite (IH _ _ H). apply c_Write_kinds in H1. apply H1.
Qed.
Lemma image_unindexed c vs x c' : CImage c vs x c' -> Forall unindexed (AssembledP.kinds c) ->
  AssembledP.kinds c' = AssembledP.kinds c /\ Forall (fun s => index_kind (st_kind s) = false) (ci_infos x) /\
  (WriteIndex o = false -> ci_index x = []).
Proof.
  intros (c1 & c2 & Hw & Hf & Hx & (n & Hwo) & Hi & _) Hk. rewrite writeVals_rows in Hw. cbn in Hf, Hwo, Hi.
  apply writeRows_kinds in Hw. apply c_Flush_kinds in Hf. apply c_WriteOut_kinds in Hwo.
  assert (E : AssembledP.kinds c' = AssembledP.kinds c) by (destruct Hf as (? & ? & ?), Hwo; congruence). split; [exact E|]. split.
  - rewrite <- Hi, c_Infos_streams. apply Forall_map. apply Forall_forall. intros [k w] Hin. cbn [info st_kind fst].
    unfold streams in Hin. apply in_app_iff in Hin. destruct Hin as [Hin|Hin].
    + destruct (cw_present c'); [|contradiction]. destruct Hin as [Hin|[]]. assert (k = 0) as -> by congruence. reflexivity.
    + rewrite <- E in Hk. rewrite Forall_forall in Hk. apply Hk. apply in_map_iff. exists (k, w). auto.
  - intros Hwi. rewrite Hwi in Hx. exact Hx.
Qed.
Lemma chain_unindexed c vss xs cf : CChain c vss xs cf -> Forall unindexed (AssembledP.kinds c) ->
  Forall (fun x => Forall (fun s => index_kind (st_kind s) = false) (ci_infos x) /\ (WriteIndex o = false -> ci_index x = [])) xs.
Proof.
  induction 1 as [c vs x c' H|c vs x c1 c2 vss xs cf H Hr _ IH]; intros Hk; destruct (image_unindexed _ _ _ _ H Hk) as (H1 & H2 & H3).
  - repeat constructor; assumption.
  - constructor; [split; assumption|]. apply c_Reset_kinds in Hr. apply IH. destruct Hr as [_ ->]. rewrite H1. exact Hk.
Qed.
Lemma new_unindexed id k h : Forall unindexed (AssembledP.kinds (newColW o id k h)).
Proof. unfold AssembledP.kinds, newColW. cbn [cw_data]. destruct k; repeat constructor. Qed.
End Kinds.

(** ** One stripe *)
Lemma restrict_flags a b rows : single (Z.to_nat a) rows -> single (Z.to_nat b) rows ->
  map Null (column_of (Z.to_nat a) rows) = map Null (column_of (Z.to_nat b) rows) ->
  forallb is_some (rows_of (column_of (Z.to_nat a) (alive b rows))) = true /\
  nonnull (rows_of (column_of (Z.to_nat a) (alive b rows))) = nonnull (rows_of (column_of (Z.to_nat a) rows)).
Proof.
  induction rows as [|r rows IH]; intros Ha Hb Hn; [split; reflexivity|].
  inversion Ha as [|? ? Ha1 Ha2]; subst. inversion Hb as [|? ? Hb1 Hb2]; subst.
  rewrite (column_of_cons (Z.to_nat a) r rows), (column_of_cons (Z.to_nat b) r rows) in Hn.
  rewrite (column_of_cons (Z.to_nat a) r rows).
  unfold alive in *. cbn [filter]. unfold null_in in *.
  destruct (column_of (Z.to_nat a) [r]) as [|x [|? ?]] eqn:Ea; cbn in Ha1; try lia.
  destruct (column_of (Z.to_nat b) [r]) as [|y [|? ?]] eqn:Eb; cbn in Hb1; try lia.
  cbn [app map] in Hn. injection Hn as Hxy Hn. destruct (IH Ha2 Hb2 Hn) as [E1 E2].
  cbn [existsb]. rewrite orb_false_r. destruct (Null y) eqn:Ey; cbn [negb].
  - split; [exact E1|]. rewrite E2. unfold rows_of. cbn [app map nonnull flat_map]. unfold row_of at 2. rewrite Hxy. reflexivity.
  - rewrite (column_of_cons (Z.to_nat a) r (filter _ rows)), Ea. unfold rows_of in *. cbn [app map forallb nonnull flat_map].
    fold (nonnull (map row_of (column_of (Z.to_nat a) rows))).
    assert (is_some (row_of x) = true) as -> by (unfold row_of; rewrite Hxy; reflexivity). rewrite E1. split; [reflexivity|]. f_equal. exact E2.
Qed.
Lemma some_rows vs : map is_some (rows_of vs) = bitsOf vs.
Proof. unfold rows_of, bitsOf. rewrite map_map. apply map_ext. intros v. unfold row_of. destruct (Null v); reflexivity. Qed.
Lemma no_null_some vs : Forall (fun v => Null v = false) vs -> forallb is_some (rows_of vs) = true.
Proof. induction 1 as [|v l Hv Hl IH]; [reflexivity|]. unfold rows_of in *. cbn [map forallb]. rewrite IH. unfold row_of. rewrite Hv. reflexivity. Qed.

Lemma orc_kind_leaf k e c : orc_kind k e = Some c -> k <> STRUCT /\ c <> KStruct.
Proof. unfold orc_kind. destruct k; try discriminate; destruct (e =? _); try discriminate; try (destruct (e =? _); try discriminate); intros E; split; congruence. Qed.

Section Stripe.
Variable inflate : list Z -> res (list Z).
Variable o : opts.
Variable file : list Z.
Variable bopt : batchOption.
Variable l : list (strm * Z).
Variable rows : list (row value).
Notation nonempty := (fun d : list Z => d <> []).
Notation stored := (OrcFile.stored any_run nonempty inflate o file bopt l).
Notation laid := (OrcWriteP.laid inflate o file).

Lemma laid_column k h vs vs' q : k <> KStruct -> written_kind k = true -> laid q k h vs ->
  nonnull (rows_of vs') = nonnull (rows_of vs) ->
  (if h then vs' = vs else forallb is_some (rows_of vs') = true) ->
  orc_column any_run nonempty inflate o file q k (rows_of vs').
Proof.
  intros Hk Hl (H1 & H2 & H3) Hn Hh. assert (H1' : OrcColumn.kinds q = (if h then [0] else []) ++ dataKinds k) by (destruct k; [..|congruence|]; exact H1).
  clear H1. split; [|split; [|split]].
  - rewrite H1'. unfold dataKinds. destruct h, k; cbn [app]; repeat constructor; cbn; intuition discriminate.
  - rewrite H1'. unfold dataKinds. destruct k; try discriminate Hl; destruct h; cbn [app]; intros z Hz; cbn in Hz |- *; tauto.
  - rewrite Hn. apply H3. exact Hk.
  - destruct h.
    + subst vs'. destruct (H2 eq_refl) as (b & Hb1 & Hb2). destruct (in_dec Z.eq_dec 0 (OrcColumn.kinds q)) as [_|Hni].
      * exists b. rewrite some_rows. auto.
      * exfalso. apply Hni. rewrite H1'. left. reflexivity.
    + destruct (in_dec Z.eq_dec 0 (OrcColumn.kinds q)) as [Hi|_]; [|exact Hh]. exfalso. rewrite H1' in Hi. unfold dataKinds in Hi.
      destruct k; cbn in Hi; intuition discriminate.
Qed.

Lemma stored_laid t : forall par, schema_of_kinds bopt written_kind (is_some par) t = true ->
  (forall x p, In (x, Some p) (columns_read bopt par t) -> td_hasNulls x = false) ->
  (forall x k, In x (flatten t) -> IsInclude bopt (td_id x) = true -> readerKind (td_kind x) (td_enc x) = Ok k ->
     laid (data_streams l (td_id x)) k (td_hasNulls x) (column_of (col x) rows)) ->
  (forall x p, In (x, p) (columns_read bopt par t) ->
     single (col x) rows /\ (td_kind x <> STRUCT -> orc_kind (td_kind x) (td_enc x) <> None) /\
     (td_hasNulls x = false -> match p with
        | None => Forall (fun v => Null v = false) (column_of (col x) rows)
        | Some p => map Null (column_of (col x) rows) = map Null (column_of (Z.to_nat p) rows) end)) ->
  (forall x, In x (flatten t) -> IsInclude bopt (td_id x) = true -> td_kind x = STRUCT -> td_hasNulls x = false ->
     Forall (fun v => Null v = false) (column_of (col x) rows)) ->
  (forall p, par = Some p -> single (Z.to_nat p) rows) ->
  stored (restrict rows par) t.
Proof.
  induction t as [id k ns e h cs IH] using td_rect'. intros par Hr Hsh Hla Hco Hpl Hpar.
  cbn [OrcFile.stored]. intros Ei. cbn [schema_of_kinds] in Hr. rewrite Ei in Hr.
  destruct (readerKind k e) as [ck| |] eqn:Ek; try discriminate.
  assert (Hhere := Hla (Td id k ns e h cs) ck). rewrite flatten_eq in Hhere. specialize (Hhere (or_introl eq_refl) Ei Ek).
  cbn [td_id td_hasNulls] in Hhere. unfold col in Hhere. cbn [td_id] in Hhere.
  destruct (tkind_struct_dec k) as [->|Hk].
  - assert (ck = KStruct /\ e = 0) as [-> He] by (unfold readerKind in Ek; destruct (Z.eqb_spec e 0); [split; congruence|discriminate]).
    apply andb_true_iff in Hr. destruct Hr as [Hp Hr]. rewrite forallb_forall in Hr.
    assert (par = None) as ->.
    { destruct par as [p|]; [|reflexivity]. exfalso. cbn [is_some andb] in Hp. destruct h; [|discriminate].
      specialize (Hsh (Td id STRUCT ns e true cs) p). cbn [columns_read td_hasNulls] in Hsh. rewrite Ei in Hsh.
      specialize (Hsh (or_introl eq_refl)). discriminate. }
    cbn [restrict] in *. destruct Hhere as (L1 & L2 & _). split; [exact He|]. split; [|split; [|split]].
    + rewrite L1. destruct h; repeat constructor. intros [].
    + rewrite L1. destruct h; intros z Hz; [exact Hz|destruct Hz].
    + destruct (in_dec Z.eq_dec 0 (OrcColumn.kinds (data_streams l id))) as [Hi|Hi]; rewrite L1 in Hi; destruct h.
      * apply L2. reflexivity.
      * destruct Hi.
      * exfalso. apply Hi. left. reflexivity.
      * apply (Hpl (Td id STRUCT ns e false cs)); auto. rewrite flatten_eq. left. reflexivity.
    + set (par' := if h then Some id else None).
      assert (Hrows : alive id rows = restrict rows par').
      { unfold par'. destruct h; [reflexivity|]. apply alive_all. apply (Hpl (Td id STRUCT ns e false cs)); auto. rewrite flatten_eq. left. reflexivity. }
      rewrite Hrows.
      assert (Hall : forall d, In d cs -> stored (restrict rows par') d).
      { rewrite Forall_forall in IH. intros d Hd. apply (IH d Hd par').
        - replace (is_some par') with h by (unfold par'; destruct h; reflexivity). apply Hr. exact Hd.
        - intros y p Hy. apply (Hsh y p). cbn [columns_read]. rewrite Ei. apply in_app_iff. right. apply in_flat_map. exists d. auto.
        - intros y c Hy. apply Hla. rewrite flatten_eq. right. apply in_flat_map. exists d. auto.
        - intros y p Hy. apply (Hco y p). cbn [columns_read]. rewrite Ei. apply in_app_iff. right. apply in_flat_map. exists d. auto.
        - intros y Hy. apply Hpl. rewrite flatten_eq. right. apply in_flat_map. exists d. auto.
        - intros p Ep. unfold par' in Ep. destruct h; [|discriminate]. assert (p = id) as -> by congruence.
          apply (Hco (Td id STRUCT ns e true cs) None). cbn [columns_read]. rewrite Ei. left. reflexivity. }
      clear - Hall. induction cs as [|c cs IH]; [exact I|]. split; [apply Hall; left; reflexivity|]. apply IH. intros d Hd. apply Hall. right. exact Hd.
  - assert (Hc : columns_read bopt par (Td id k ns e h cs) = [(Td id k ns e h cs, par)]).
    { cbn [columns_read]. rewrite Ei. destruct k; try reflexivity. contradiction. }
    rewrite Hc in Hsh, Hco. destruct (Hco _ _ (or_introl eq_refl)) as (C1 & C2 & C3). unfold col in *. cbn [td_id td_kind td_enc td_hasNulls] in *.
    destruct (orc_kind k e) as [c|] eqn:Eo; [|exfalso; apply (C2 Hk eq_refl)].
    assert (c = ck) as -> by (apply orc_kind_reader in Eo; congruence).
    assert (Hkc : ck <> KStruct) by (apply orc_kind_leaf in Eo; apply Eo).
    assert (Hlf : written_kind ck = true) by (destruct ck; try congruence; apply andb_true_iff in Hr; apply Hr).
    assert (Hgoal : orc_column any_run nonempty inflate o file (data_streams l id) ck (rows_of (column_of (Z.to_nat id) (restrict rows par)))).
    { destruct par as [p|]; cbn [restrict].
      - specialize (Hsh _ _ (or_introl eq_refl)). cbn [td_hasNulls] in Hsh. subst h. specialize (C3 eq_refl).
        destruct (restrict_flags id p rows C1 (Hpar p eq_refl) C3) as [E1 E2].
        eapply laid_column; [exact Hkc|exact Hlf|exact Hhere|exact E2|exact E1].
      - eapply laid_column; [exact Hkc|exact Hlf|exact Hhere|reflexivity|]. destruct h; [reflexivity|]. apply no_null_some. apply C3. reflexivity. }
    destruct k; try (exists ck; split; [reflexivity|exact Hgoal]). contradiction.
Qed.
End Stripe.

Lemma laid_same inflate o o' file l k h vs : sameReading o o' -> laid inflate o file l k h vs -> laid inflate o' file l k h vs.
Proof. destruct o, o'. intros [H1 H2]. cbn in H1, H2. subst. intros H. exact H. Qed.
Lemma orc_storable_segs x p rss k : orc_storable x p rss -> (td_kind x = STRUCT \/ orc_kind (td_kind x) (td_enc x) <> None) ->
  readerKind (td_kind x) (td_enc x) = Ok k -> (written_kind k = true \/ k = KStruct) ->
  orc_segs k (td_hasNulls x) (map (column_of (col x)) rss).
Proof.
  intros (H1 & H2 & _ & H4 & H5) Ho Hk Hl. split; [|split].
  - intros Hlk. rewrite Forall_map. apply H4. destruct Ho as [Ho|Ho].
    + rewrite Ho in Hk. unfold readerKind in Hk. destruct (_ =? 0); [|discriminate]. assert (k = KStruct) as -> by congruence. discriminate.
    + destruct (orc_kind (td_kind x) (td_enc x)) as [c|] eqn:Eo; [|contradiction]. apply orc_kind_reader in Eo. congruence.
  - intros Hh. rewrite removelast_map, Forall_map. specialize (H2 Hh). rewrite Forall_forall in *. intros rows Hr.
    unfold whole8. rewrite single_length by (eapply single_in; [apply Forall_forall; exact H1|apply In_removelast; exact Hr]). apply H2. exact Hr.
  - intros ->. rewrite removelast_map, Forall_map. apply H5. eapply readerKind_bool. exact Hk.
Qed.

Lemma Stripes_footers deflate C V w sz f i wo inf rs sf o ss encs cs rss ms csf :
  Stripes deflate C V w sz f i wo inf rs sf o ss encs cs rss ms csf ->
  Forall (fun m => exists ft rest, sf {| sf_streams := im_infos m; sf_columns := encs |} = Ok ft /\
     CompressingAllInChunks deflate (CompressionKind o) (ChunkSize o) ft = Ok (im_footer m, rest)) ms.
Proof.
  induction 1 as [cs rows m cs' Hi Ho|cs rows m cs' cs'' rss ms csf Hi Hne Hr H IH].
  - destruct Hi as (_ & _ & _ & _ & Hi). constructor; [exact Hi|constructor].
  - destruct Hi as (_ & _ & _ & _ & Hi). constructor; [exact Hi|exact IH].
Qed.
Lemma Forall2_by_nth {A B} (R : A -> B -> Prop) l : forall m, length l = length m ->
  (forall j a b, nth_error l j = Some a -> nth_error m j = Some b -> R a b) -> Forall2 R l m.
Proof.
  induction l as [|a l IH]; intros [|b m] Hl H; try discriminate; [constructor|].
  constructor; [apply (H O); reflexivity|]. apply IH; [cbn in Hl; lia|]. intros j. apply (H (S j)).
Qed.

(** ** The file *)
Section Main.
Variable deflate : list (list Z) -> list Z -> res (list Z).
Variable inflate : list Z -> res (list Z).
Variable F : floats.
Variable o : opts.
Variables stride StripeSize : Z.
Hypothesis Hflate : flate_ok deflate inflate.
Hypothesis Hcs : 1 <= ChunkSize o < 2 ^ 23.
Hypothesis Hwi : WriteIndex o = false.
Variables (t0 schema : td) (vs : list (cvec value)) (rows : list (row value)) (file : list Z).
Hypothesis Hsize : size t0 <= 2 ^ 32.
Hypothesis Hnorm : NormalizeSchema t0 = Ok schema.
Hypothesis Hclosed : closed deflate (columns deflate F o stride) wire o StripeSize schema vs file.
Hypothesis Hfile : zlen file < 2 ^ 62.
Hypothesis Hrows : Rows vs rows.
Hypothesis Hnrows : zlen rows < 2 ^ 62.
Variable r : fileR colstats.
Hypothesis Hopen : newFileReader inflate cs_hasNull unmarshalPS unmarshalFooter file = Ok r.
Variable bopt : batchOption.
Hypothesis Hread : schema_of_kinds bopt written_kind false schema = true.
Hypothesis Henc : orc_encodings bopt schema.
Hypothesis Hshal : shallow bopt schema.
Notation I := (columns deflate F o stride).
Notation nonempty := (fun d : list Z => d <> []).

Lemma file_orc : exists rss, rows = concat rss /\ map NumberOfRows (fr_stripes r) = map zlen rss /\
  (Forall (fun l => l <> []) rss -> Forall (fun q => orc_storable (fst q) (snd q) rss) (columns_read bopt None schema) ->
   plain_structs bopt schema rows ->
   exists xs, map snd xs = rss /\ orc_file any_run nonempty inflate bopt schema xs file r).
Proof.
  assert (Hs32 : size t0 <= 4294967296) by exact Hsize.
  destruct (normalize_spec _ _ Hs32 Hnorm) as (_ & Hnum & Hun).
  assert (Hflat : Flat schema = Ok (flatten schema)).
  { unfold Flat. rewrite (Numbered_CheckId _ Hnum Hun), Hun. reflexivity. }
  assert (Hids := ids_flatten schema Hnum).
  assert (Hcol_of : forall j t, nth_error (flatten schema) j = Some t -> col t = j).
  { intros j t Et. pose proof (f_equal (fun l => nth_error l j) Hids) as Hq. cbv beta in Hq. rewrite (map_nth_error _ _ _ Et) in Hq.
    rewrite SchemaP.count_up_nth in Hq by (apply nth_error_Some; congruence). unfold col. assert (td_id t = 0 + Z.of_nat j) by congruence. lia. }
  assert (Hnumd : numbered schema).
  { exists (flatten schema). split; [exact Hflat|]. apply Forall_forall. intros x Hx. apply (nth_id schema Hnum x Hx). }
  assert (Hrw : forall q, Rows vs q -> zlen q < W64).
  { intros q Hq. rewrite (Rows_fun _ _ Hq _ Hrows). change (2 ^ 62) with 4611686018427387904 in Hnrows. lia. }
  destruct (closed_opens deflate inflate _ _ _ _ wire o StripeSize cs_hasNull (columns_contract deflate F o stride) wire_ok Hflate Hcs _ _ _ Hclosed Hfile Hrw Hnumd)
    as (schemas & cs & rows' & rss & ms & csf & fb & psb & H1 & H2 & H3 & H4 & H5 & H6 & H7 & H8 & Hbig & Hempty & Hns & Hall).
  assert (rows' = rows) as -> by (eapply Rows_fun; eassumption). assert (schemas = flatten schema) as -> by congruence. clear H1.
  cbn [wire pb_unPS pb_unFooter] in *. destruct (Hns r Hopen) as (ns & Hn).
  destruct (Z_le_gt_dec (zlen fb + zlen psb + 1) 16384) as [Hle|Hgt]; [|rewrite Hbig in Hopen by lia; discriminate].
  assert (Hne : rows <> []) by (intros ->; rewrite Hempty in Hopen by (auto; lia); discriminate).
  destruct (Hall Hle Hne ns Hn) as (r' & Hr' & R1 & R2 & R3 & R4 & R5 & R6 & R7 & _). assert (r' = r) as -> by congruence.
  clear Hbig Hempty Hns Hall Hr' Hle. exists rss. split; [exact H4|]. split.
  { rewrite R2. clear - H6. generalize 3. revert ms H6. induction rss as [|q rss IH]; intros [|m ms] H z; try discriminate; [reflexivity|].
    cbn [directory map NumberOfRows]. f_equal. apply IH. cbn in H. lia. }
  intros Hnonempty Hst Hpl.
  assert (Hlen_ms : forall k m, nth_error ms k = Some m -> (k < length rss)%nat) by (intros k m Hm; rewrite H6; apply nth_error_Some; congruence).
  pose proof (unmarshall_nodes _ _ _ Hn) as Hnodes. pose proof (Forall2_len _ _ _ Hnodes) as Hlnodes.
  destruct (mapM_spec _ _ _ H2) as [Hlcs Hcsn].
  assert (Hchain : forall t, In t (flatten schema) -> exists kw ys cf,
      writerKind (td_kind t) (td_enc t) = Ok kw /\
      Chain colW value (i_Write I) (i_Flush I) (i_Index I) (i_WriteOut I) (i_Infos I) (i_Reset I) o (newColW o (td_id t) kw (td_hasNulls t)) (map (column_of (col t)) rss) ys cf /\
      nth_error csf (col t) = Some cf /\ Forall2 (fun m y => nth_error (im_cols m) (col t) = Some y) ms ys).
  { intros t Ht. destruct (nth_id schema Hnum t Ht) as [_ Hnt]. destruct (Hcsn _ _ Hnt) as (c & Hc & Hnew).
    cbn [i_New columns] in Hnew. unfold NewWriter in Hnew. apply rbind_inv in Hnew. destruct Hnew as (kw & Hkw & Hnew).
    assert (c = newColW o (td_id t) kw (td_hasNulls t)) as -> by congruence.
    destruct (Stripes_Chain _ _ _ _ _ _ _ _ _ _ _ _ _ _ (col t) _ _ _ _ H5 _ Hc) as (ys & cf & E1 & E2 & E3).
    exists kw, ys, cf. auto. }
  assert (Hzl : CompressionKind o = ZLIB).
  { destruct (CompressionKind o) eqn:E; [exfalso| reflexivity|exfalso|exfalso|exfalso|exfalso];
    destruct Hclosed as (w0 & w & _ & _ & Hcl); eapply (only_zlib deflate); try exact Hcl; rewrite E; discriminate. }
  assert (Hsup : supported o) by (split; [right; exact Hzl|exact Hcs]).
  assert (Hoo : sameReading o (readerOpts r)) by (split; [rewrite Hzl; symmetry; exact R3|symmetry; exact R4]).
  assert (Hflag : fr_hasNulls r = map td_hasNulls (flatten schema)).
  { rewrite (newFileReader_hasNulls _ _ _ _ _ Hopen), R6, R7, <- Hlnodes.
    apply nth_ext with (d := false) (d' := false).
    { rewrite !map_length, seq_length. reflexivity. }
    intros j Hj. rewrite map_length, seq_length in Hj.
    destruct (nth_error (flatten schema) j) as [t|] eqn:Et; [|apply nth_error_None in Et; lia].
    rewrite (nth_error_nth _ _ _ (map_nth_error td_hasNulls _ _ Et)).
    assert (Hseq : nth_error (seq 0 (length (flatten schema))) j = Some j).
    { rewrite (nth_error_nth' _ O) by (rewrite seq_length; exact Hj). rewrite seq_nth by exact Hj. reflexivity. }
    rewrite (nth_error_nth _ _ _ (map_nth_error _ _ _ Hseq)).
    assert (Ht : In t (flatten schema)) by (eapply nth_error_In; exact Et).
    pose proof (Hcol_of j t Et) as Hcj.
    destruct (Hchain t Ht) as (kw & ys & cf & Hkw & Hch & Hcf & _). rewrite Hcj in Hcf.
    rewrite (map_nth_error _ _ _ Hcf). cbn [i_Stats columns]. rewrite (chain_hasNull deflate F o stride _ _ _ _ Hch). destruct kw; reflexivity. }
  set (sfOf := fun m => {| sf_streams := im_infos m; sf_columns := map td_enc (flatten schema) |}).
  exists (combine (map sfOf ms) rss).
  assert (Hsnd : map snd (combine (map sfOf ms) rss) = rss).
  { clear - H6. revert ms H6. induction rss as [|q rss IH]; intros [|m ms] H; try discriminate; [reflexivity|]. cbn [map combine snd]. f_equal. apply IH. cbn in H. lia. }
  split; [exact Hsnd|]. split; [exact Hopen|]. split.
  { intros p x Hp. apply Numbered_id. apply (Numbered_at p 0 schema x Hnum Hp). }
  split. { rewrite R6. clear - Hnodes. induction Hnodes as [|x n l ns Hx Hl IH]; constructor; [unfold nodeFor in Hx; tauto|exact IH]. }
  split; [exact Hflag|]. split. { rewrite Hsnd, R1, H4. reflexivity. }
  assert (Hld : length (directory 3 rss ms) = length rss) by (apply directory_length; exact H6).
  apply Forall2_by_nth.
  { rewrite R2, Hld, combine_length, map_length. lia. }
  rewrite R2. intros j i [sf q] Hi Hx.
  assert (Hq : nth_error rss j = Some q) by (rewrite <- Hsnd; rewrite (map_nth_error snd _ _ Hx); reflexivity).
  destruct (nth_error ms j) as [m|] eqn:Hm.
  2: { apply nth_error_None in Hm. assert (j < length rss)%nat by (apply nth_error_Some; congruence). lia. }
  assert (sf = sfOf m) as ->.
  { assert (Hfst : map fst (combine (map sfOf ms) rss) = map sfOf ms).
    { clear - H6. revert ms H6. induction rss as [|q rss IH]; intros [|m ms] H; try discriminate; [reflexivity|]. cbn [map combine fst]. f_equal. apply IH. cbn in H. lia. }
    pose proof (map_nth_error fst _ _ Hx) as E. rewrite Hfst, (map_nth_error _ _ _ Hm) in E. cbn [fst] in E. congruence. }
  destruct (directory_nth rss ms Magic (fb ++ psb ++ [zlen psb]) j q m Hq Hm) as (a & b & Ef & Hd).
  change (zlen Magic) with 3 in Hd. rewrite Hd in Hi. assert (i = {| Offset := zlen a; IndexLength := zlen (im_index m); DataLength := zlen (concat (im_streams m)); FooterLength := zlen (im_footer m); NumberOfRows := zlen q |}) as -> by congruence.
  rewrite <- H7 in Ef. assert (Hqin : In q rss) by (eapply nth_error_In; exact Hq).
  assert (Hcolim : forall t, In t (flatten schema) -> exists y, nth_error (im_cols m) (col t) = Some y /\
      Forall (fun s => st_column s = td_id t) (ci_infos y) /\ Forall (fun s => index_kind (st_kind s) = false) (ci_infos y) /\ ci_index y = [] /\
      (forall k, IsInclude bopt (td_id t) = true -> readerKind (td_kind t) (td_enc t) = Ok k ->
         lays inflate o k (td_hasNulls t) (column_of (col t) q) y)).
  { intros t Ht. destruct (Hchain t Ht) as (kw & ys & cf & Hkw & Hch & Hcf & Hys).
    pose proof (Forall2_nth _ _ _ Hys j) as Hy. rewrite Hm in Hy. destruct (nth_error ys j) as [y|] eqn:Ey; [|contradiction].
    pose proof (chain_unindexed deflate F o stride _ _ _ _ Hch (new_unindexed _ _ _ _)) as Hui. rewrite Forall_forall in Hui.
    destruct (Hui y (nth_error_In _ _ Ey)) as [U1 U2].
    exists y. split; [exact Hy|]. split; [|split; [exact U1|split; [apply U2; exact Hwi|]]].
    - pose proof (chain_id deflate F o stride _ _ _ _ Hch) as Hci. rewrite Forall_forall in Hci. apply (Hci y). eapply nth_error_In. exact Ey.
    - intros k Hit Hk. rewrite (readerKind_writer _ _ _ Hk) in Hkw. assert (kw = k) as -> by congruence.
      assert (Hlk : written_kind k = true \/ k = KStruct).
      { destruct (readable_included bopt written_kind eq_refl schema false Hread t Ht) as [Hok _]. destruct (Hok Hit) as (k' & Hk' & Hl). assert (k' = k) as -> by congruence. exact Hl. }
      assert (Hseg : orc_segs k (td_hasNulls t) (map (column_of (col t)) rss)).
      { destruct (included_read bopt written_kind eq_refl schema false None Hread t Ht Hit) as [(p & Hp)|[Hp1 Hp2]].
        - rewrite Forall_forall in Hst. pose proof (Hst _ Hp) as Hs1. cbn [fst snd] in Hs1.
          eapply orc_storable_segs; [exact Hs1| |exact Hk|exact Hlk]. destruct (tkind_struct_dec (td_kind t)) as [E|E]; [left; exact E|right; eapply Henc; eassumption].
        - rewrite Hp1 in Hk. unfold readerKind in Hk. destruct (td_enc t =? 0); [|discriminate]. assert (k = KStruct) as -> by congruence.
          rewrite Hp2. repeat split; intros; discriminate. }
      pose proof (chain_lays deflate inflate o Hsup Hflate F stride _ _ _ _ _ _ Hch Hlk Hseg) as Hop.
      pose proof (Forall2_nth _ _ _ Hop j) as Hoj. rewrite (map_nth_error _ _ _ Hq), Ey in Hoj. exact Hoj. }
  assert (Hat : forall k y, nth_error (im_cols m) k = Some y -> exists t, In t (flatten schema) /\ col t = k /\ Z.of_nat k = td_id t).
  { pose proof (Stripes_images _ _ _ _ _ _ _ _ _ _ _ _ _ _ _ _ _ _ H5) as Him. rewrite Forall_forall in Him.
    destruct (Him m (nth_error_In _ _ Hm)) as [Hl _]. rewrite Hlcs in Hl. intros k y Hy.
    destruct (nth_error (flatten schema) k) as [t|] eqn:Et.
    2: { apply nth_error_None in Et. assert (k < length (im_cols m))%nat; [apply nth_error_Some; congruence|lia]. }
    exists t. split; [eapply nth_error_In; exact Et|]. pose proof (Hcol_of k t Et) as Hck. split; [exact Hck|].
    destruct (nth_id schema Hnum t (nth_error_In _ _ Et)) as [Hb _]. unfold col in Hck. lia. }
  assert (Hcf0 : colsFrom 0 (im_cols m)).
  { pose proof (Stripes_images _ _ _ _ _ _ _ _ _ _ _ _ _ _ _ _ _ _ H5) as Him. rewrite Forall_forall in Him.
    destruct (Him m (nth_error_In _ _ Hm)) as [_ Hlen]. intros k y Hy. split; [|eapply Hlen; exact Hy].
    destruct (Hat k y Hy) as (t & Ht & Hck & Hid). destruct (Hcolim t Ht) as (y' & Hy' & Hc & _). rewrite Hck in Hy'. assert (y' = y) as -> by congruence.
    rewrite Nat.add_0_l, Hid. exact Hc. }
  assert (Hper : forall y, In y (im_cols m) -> Forall (fun s => index_kind (st_kind s) = false) (ci_infos y) /\ ci_index y = [] /\
     map st_length (ci_infos y) = map zlen (ci_streams y) /\ Forall (fun s => 0 <= st_column s < size schema) (ci_infos y)).
  { intros y Hy. destruct (In_nth_error _ _ Hy) as [k Hk]. destruct (Hat k y Hk) as (t & Ht & Hck & Hid).
    destruct (Hcolim t Ht) as (y' & Hy' & Hc & U1 & U2 & _). rewrite Hck in Hy'. assert (y' = y) as -> by congruence.
    split; [exact U1|]. split; [exact U2|]. split; [apply (Hcf0 k y Hk)|].
    destruct (nth_id schema Hnum t Ht) as [Hb _]. rewrite flatten_length in Hb. eapply Forall_impl; [|exact Hc]. intros s Hs. cbv beta in Hs. lia. }
  assert (Hix : im_index m = []).
  { unfold im_index. clear - Hper. induction (im_cols m) as [|y l IH]; [reflexivity|]. cbn [map concat].
    rewrite (proj1 (proj2 (Hper y (or_introl eq_refl)))). apply IH. intros z Hz. apply Hper. right. exact Hz. }
  assert (Hun' : Forall (fun s => index_kind (st_kind s) = false /\ 0 <= st_length s /\ 0 <= st_column s < size schema) (im_infos m)).
  { unfold im_infos. clear - Hper. induction (im_cols m) as [|y l IH]; [constructor|]. cbn [map concat]. apply Forall_app. split.
    - destruct (Hper y (or_introl eq_refl)) as (U1 & _ & U3 & U4). rewrite Forall_forall in *. intros s Hs. split; [apply U1; exact Hs|]. split; [|apply U4; exact Hs].
      assert (Hin : In (st_length s) (map zlen (ci_streams y))) by (rewrite <- U3; apply in_map; exact Hs).
      apply in_map_iff in Hin. destruct Hin as (z & <- & _). apply zlen_nonneg.
    - apply IH. intros z Hz. apply Hper. right. exact Hz. }
  assert (Htot : total_length (im_infos m) = zlen (concat (im_streams m))).
  { unfold total_length, im_infos, im_streams. rewrite zlen_concat. f_equal. clear - Hper. induction (im_cols m) as [|y l IH]; [reflexivity|].
    cbn [map concat]. rewrite !map_app. f_equal; [apply Hper; left; reflexivity|]. apply IH. intros z Hz. apply Hper. right. exact Hz. }
  assert (Hfoot : exists bs, framed (fun _ => True) inflate (readerOpts r) (im_footer m) bs /\ unmarshalSF bs = Ok (sfOf m)).
  { pose proof (Stripes_footers _ _ _ _ _ _ _ _ _ _ _ _ _ _ _ _ _ _ H5) as Hfs. rewrite Forall_forall in Hfs.
    destruct (Hfs m (nth_error_In _ _ Hm)) as (ft & rest & E1 & E2). rewrite Hzl in E2.
    destruct (chunk_lossless _ _ _ _ _ _ Hflate Hcs E2) as (_ & _ & ds & D1 & D2). exists ft. split.
    - unfold framed. destruct Hoo as [O1 O2]. rewrite <- O1, Hzl, <- O2. exists ds. split; [exact D1|]. split; [|exact D2]. apply Forall_forall. intros; exact Logic.I.
    - pose proof wire_ok as (P1 & _). apply P1. exact E1. }
  unfold orc_stripe, sfOf. cbn [Offset IndexLength DataLength FooterLength NumberOfRows sf_streams sf_columns].
  rewrite Hix. change (zlen (@nil Z)) with 0. rewrite ?Z.add_0_r.
  split. { rewrite Forall_forall in Hnonempty. apply Hnonempty. exact Hqin. }
  split; [reflexivity|]. split; [apply zlen_nonneg|]. split.
  { exists [], (im_infos m). split; [reflexivity|]. split; [constructor|]. split; [|split; [reflexivity|exact Htot]].
    eapply Forall_impl; [|exact Hun']. intros s Hs. apply Hs. }
  split. { eapply Forall_impl; [|exact Hun']. intros s Hs. split; apply Hs. }
  split; [reflexivity|]. split.
  { destruct Hfoot as (bs & F1 & F2). exists (a ++ concat (im_streams m)), (im_footer m), b, bs.
    split; [rewrite Ef; unfold im_bytes; rewrite Hix, <- !app_assoc; reflexivity|].
    split; [rewrite zlen_app; reflexivity|]. split; [reflexivity|]. split; [exact F1|exact F2]. }
  split.
  { intros s off Hs Hk6. exfalso. assert (Hs' : In s (im_infos m)).
    { rewrite <- (offsets_fst (zlen a) (im_infos m)). apply in_map_iff. exists (s, off). auto. }
    rewrite Forall_forall in Hun'. destruct (Hun' s Hs') as [Hu _]. rewrite Hk6 in Hu. discriminate. }
  apply (stored_laid inflate (readerOpts r) file bopt (offsets (zlen a) (im_infos m)) q schema None).
  - exact Hread.
  - intros x p Hp. eapply Hshal. exact Hp.
  - intros x k Hxx Hi0 Hk. destruct (Hcolim x Hxx) as (y & Hy & Hyc & Hyu & _ & Hly).
    destruct (placed (im_cols m) 0 a (im_footer m ++ b) (col x) y Hcf0 Hy) as (a' & b' & E1 & E2).
    assert (Hf : file = a' ++ concat (ci_streams y) ++ b').
    { rewrite <- E1, Ef. unfold im_bytes, im_streams. rewrite Hix, <- !app_assoc. reflexivity. }
    assert (Hds : data_streams (offsets (zlen a) (im_infos m)) (td_id x) = offsets (zlen a') (ci_infos y)).
    { rewrite <- E2. unfold data_streams, im_infos. rewrite Nat.add_0_l. apply filter_ext_in. intros [s off] Hs. cbn [fst]. unfold ofCol. cbn [fst].
      assert (Hs' : In s (im_infos m)).
      { rewrite <- (offsets_fst (zlen a) (im_infos m)). apply in_map_iff. exists (s, off). auto. }
      rewrite Forall_forall in Hun'. destruct (Hun' s Hs') as [-> _]. cbn [negb]. rewrite andb_true_r.
      destruct (nth_id schema Hnum x Hxx) as [Hb _]. unfold col. rewrite Z2Nat.id by lia. reflexivity. }
    rewrite Hds. eapply laid_same; [exact Hoo|]. rewrite Hf. apply Hly; assumption.
  - intros x p Hp. rewrite Forall_forall in Hst. destruct (Hst _ Hp) as (S1 & _ & S3 & _). cbn [fst snd] in *. split; [eapply single_in; eassumption|].
    split; [intros Hns'; eapply Henc; eassumption|]. intros Hh. specialize (S3 Hh). destruct p as [p|]; rewrite Forall_forall in S3; [apply S3; exact Hqin|].
    apply Forall_forall. intros v Hv. apply S3. clear - Hqin Hv. unfold column_of in *. rewrite in_map_iff in *. destruct Hv as (z & Ez & Hz).
    exists z. split; [exact Ez|]. apply filter_In in Hz. apply filter_In. split; [|apply Hz]. destruct Hz as [Hz _].
    apply in_concat in Hz. destruct Hz as (l & Hl & Hz). apply in_concat. exists l. split; [|exact Hz]. apply in_concat. eauto.
  - intros x Hxx Hi0 Hs0 Hh0. pose proof (Hpl x Hxx Hi0 Hs0 Hh0) as Hp0. rewrite H4 in Hp0. rewrite Forall_forall in Hp0.
    apply Forall_forall. intros v Hv. apply Hp0. clear - Hqin Hv. unfold column_of in *. rewrite in_map_iff in *. destruct Hv as (z & Ez & Hz).
    exists z. split; [exact Ez|]. apply filter_In in Hz. apply filter_In. split; [|apply Hz]. destruct Hz as [Hz _].
    apply in_concat in Hz. destruct Hz as (l & Hl & Hz). apply in_concat. exists l. split; [|exact Hz]. apply in_concat. eauto.
  - discriminate.
Qed.
End Main.

(** ** Index streams are never listed *)
Section Unindexed.
Variable deflate : list (list Z) -> list Z -> res (list Z).
Variable inflate : list Z -> res (list Z).
Variable F : floats.
Variable o : opts.
Variables stride StripeSize : Z.
Hypothesis Hflate : flate_ok deflate inflate.
Variables (schema : td) (rows : list (row value)) (file : list Z) (r : fileR colstats).
Hypothesis Hw : written_and_opened deflate inflate F o stride StripeSize schema rows file r.
Notation I := (columns deflate F o stride).

Lemma app_split {A} (a b c a' b' c' : list A) : a ++ b ++ c = a' ++ b' ++ c' -> zlen a = zlen a' -> zlen b = zlen b' -> b = b'.
Proof.
  intros H Ha Hb. assert (Hs : a = a' /\ b ++ c = b' ++ c').
  { clear Hb. revert a' Ha H. induction a as [|x a IH]; intros [|y a'] Ha H; rewrite ?zlen_cons, ?zlen_nil in Ha; try (pose proof (zlen_nonneg a); pose proof (zlen_nonneg a'); lia).
    - auto.
    - pose proof (zlen_nonneg a'). lia.
    - pose proof (zlen_nonneg a). lia.
    - injection H as -> H. destruct (IH a') as [-> E]; [lia|exact H|]. auto. }
  destruct Hs as [_ Hs]. clear - Hs Hb. revert b' Hb Hs. induction b as [|x b IH]; intros [|y b'] Hb H; rewrite ?zlen_cons, ?zlen_nil in Hb.
  - reflexivity.
  - pose proof (zlen_nonneg b'). lia.
  - pose proof (zlen_nonneg b). lia.
  - injection H as -> H. f_equal. apply IH; [lia|exact H].
Qed.

Lemma never_indexed P Q bopt schema' xs : orc_file P Q inflate bopt schema' xs file r ->
  Forall (fun i => IndexLength i = 0) (fr_stripes r).
Proof.
  destruct Hw as (Hcs & (t0 & Hsize & Hnorm) & (vs & Hrows & Hclosed) & Hfile & Hnrows & Hopen).
  assert (Hs32 : size t0 <= 4294967296) by exact Hsize.
  destruct (normalize_spec _ _ Hs32 Hnorm) as (_ & Hnum & Hun).
  assert (Hflat : Flat schema = Ok (flatten schema)).
  { unfold Flat. rewrite (Numbered_CheckId _ Hnum Hun), Hun. reflexivity. }
  assert (Hids := ids_flatten schema Hnum).
  assert (Hcol_of : forall j t, nth_error (flatten schema) j = Some t -> col t = j).
  { intros j t Et. pose proof (f_equal (fun l => nth_error l j) Hids) as Hq. cbv beta in Hq. rewrite (map_nth_error _ _ _ Et) in Hq.
    rewrite SchemaP.count_up_nth in Hq by (apply nth_error_Some; congruence). unfold col. assert (td_id t = 0 + Z.of_nat j) by congruence. lia. }
  assert (Hnumd : numbered schema).
  { exists (flatten schema). split; [exact Hflat|]. apply Forall_forall. intros x Hx. apply (nth_id schema Hnum x Hx). }
  assert (Hrw : forall q, Rows vs q -> zlen q < W64).
  { intros q Hq. rewrite (Rows_fun _ _ Hq _ Hrows). change (2 ^ 62) with 4611686018427387904 in Hnrows. lia. }
  destruct (closed_opens deflate inflate _ _ _ _ wire o StripeSize cs_hasNull (columns_contract deflate F o stride) wire_ok Hflate Hcs _ _ _ Hclosed Hfile Hrw Hnumd)
    as (schemas & cs & rows' & rss & ms & csf & fb & psb & H1 & H2 & H3 & H4 & H5 & H6 & H7 & H8 & Hbig & Hempty & Hns & Hall).
  assert (rows' = rows) as -> by (eapply Rows_fun; eassumption). assert (schemas = flatten schema) as -> by congruence. clear H1 H8.
  cbn [wire pb_unPS pb_unFooter] in *. destruct (Hns r Hopen) as (ns & Hn).
  destruct (Z_le_gt_dec (zlen fb + zlen psb + 1) 16384) as [Hle|Hgt]; [|rewrite Hbig in Hopen by lia; discriminate].
  assert (Hne : rows <> []) by (intros ->; rewrite Hempty in Hopen by (auto; lia); discriminate).
  destruct (Hall Hle Hne ns Hn) as (r' & Hr' & R1 & R2 & R3 & R4 & _). assert (r' = r) as -> by congruence.
  clear Hbig Hempty Hns Hall Hr' Hle. destruct (mapM_spec _ _ _ H2) as [Hlcs Hcsn].
  assert (Hzl : CompressionKind o = ZLIB).
  { destruct (CompressionKind o) eqn:E; [exfalso| reflexivity|exfalso|exfalso|exfalso|exfalso];
    destruct Hclosed as (w0 & w & _ & _ & Hcl); eapply (only_zlib deflate); try exact Hcl; rewrite E; discriminate. }
  intros (_ & _ & _ & _ & _ & Hst). apply Forall_forall. intros i Hin. apply In_nth_error in Hin. destruct Hin as [j Hi].
  pose proof (Forall2_nth _ _ _ Hst j) as Hs. rewrite Hi in Hs. destruct (nth_error xs j) as [[sf q']|]; [|contradiction].
  assert (Hld : length (directory 3 rss ms) = length rss) by (apply directory_length; exact H6). rewrite R2 in Hi.
  assert (Hj : (j < length rss)%nat) by (rewrite <- Hld; apply nth_error_Some; congruence).
  destruct (nth_error rss j) as [q|] eqn:Hq; [|apply nth_error_None in Hq; lia].
  destruct (nth_error ms j) as [m|] eqn:Hm; [|apply nth_error_None in Hm; lia].
  destruct (directory_nth rss ms Magic (fb ++ psb ++ [zlen psb]) j q m Hq Hm) as (a & b & Ef & Hd).
  change (zlen Magic) with 3 in Hd. rewrite Hd in Hi. assert (i = {| Offset := zlen a; IndexLength := zlen (im_index m); DataLength := zlen (concat (im_streams m)); FooterLength := zlen (im_footer m); NumberOfRows := zlen q |}) as -> by congruence.
  rewrite <- H7 in Ef.
  assert (Hui : Forall (fun s => index_kind (st_kind s) = false) (im_infos m)).
  { pose proof (Stripes_images _ _ _ _ _ _ _ _ _ _ _ _ _ _ _ _ _ _ H5) as Him. rewrite Forall_forall in Him.
    destruct (Him m (nth_error_In _ _ Hm)) as [Hl _]. rewrite Hlcs in Hl. unfold im_infos.
    assert (Hper : forall y, In y (im_cols m) -> Forall (fun s => index_kind (st_kind s) = false) (ci_infos y)).
    { intros y Hy. apply In_nth_error in Hy. destruct Hy as [k Hk].
      assert (k < length (im_cols m))%nat by (apply nth_error_Some; congruence).
      destruct (nth_error (flatten schema) k) as [t|] eqn:Et; [|apply nth_error_None in Et; lia].
      destruct (Hcsn _ _ Et) as (c & Hc & Hnew). cbn [i_New columns] in Hnew. unfold NewWriter in Hnew. apply rbind_inv in Hnew. destruct Hnew as (kw & Hkw & Hnew).
      assert (c = newColW o (td_id t) kw (td_hasNulls t)) as -> by congruence.
      destruct (Stripes_Chain _ _ _ _ _ _ _ _ _ _ _ _ _ _ k _ _ _ _ H5 _ Hc) as (ys & cf & E1 & E2 & E3).
      pose proof (chain_unindexed deflate F o stride _ _ _ _ E1 (new_unindexed _ _ _ _)) as Hu. rewrite Forall_forall in Hu.
      pose proof (Forall2_nth _ _ _ E3 j) as Hy. rewrite Hm in Hy. destruct (nth_error ys j) as [y'|] eqn:Ey; [|contradiction].
      assert (y' = y) as -> by congruence. apply (Hu y (nth_error_In _ _ Ey)). }
    clear - Hper. induction (im_cols m) as [|y l IH]; [constructor|]. cbn [map concat]. apply Forall_app. split; [apply Hper; left; reflexivity|].
    apply IH. intros z Hz. apply Hper. right. exact Hz. }
  cbn [IndexLength]. unfold orc_stripe in Hs. cbn [Offset IndexLength DataLength FooterLength NumberOfRows] in Hs.
  destruct Hs as (_ & _ & _ & (idx & data & S1 & S2 & S3 & S4 & _) & _ & _ & (pre & enc & post & bs & T1 & T2 & T3 & T4 & T5) & _).
  assert (enc = im_footer m) as ->.
  { apply (app_split pre enc post (a ++ im_index m ++ concat (im_streams m)) (im_footer m) b).
    - rewrite <- T1, Ef. unfold im_bytes. rewrite <- !app_assoc. reflexivity.
    - rewrite T2, !zlen_app. lia.
    - symmetry. exact T3. }
  assert (sf_streams sf = im_infos m) as Hsf.
  { pose proof (Stripes_footers _ _ _ _ _ _ _ _ _ _ _ _ _ _ _ _ _ _ H5) as Hfs. rewrite Forall_forall in Hfs.
    destruct (Hfs m (nth_error_In _ _ Hm)) as (ft & rest & E1 & E2). rewrite Hzl in E2.
    destruct (chunk_lossless _ _ _ _ _ _ Hflate Hcs E2) as (_ & D & _).
    unfold framed, readerOpts in T4. cbn [CompressionKind ChunkSize] in T4. rewrite R3, R4 in T4. destruct T4 as (ds & D1 & _ & D2).
    apply (decompress_spec inflate (ChunkSize o) Hcs) in D1. assert (bs = ft) as -> by congruence.
    pose proof wire_ok as (P1 & _). apply P1 in E1. cbn [wire pb_unSF] in E1. assert (E : sf = {| sf_streams := im_infos m; sf_columns := map td_enc (flatten schema) |}) by congruence.
    rewrite E. reflexivity. }
  rewrite S1 in Hsf. rewrite <- Hsf in Hui. apply Forall_app in Hui. destruct Hui as [Hui _].
  destruct idx as [|s idx]; [symmetry; exact S4|]. inversion S2; inversion Hui; congruence.
Qed.
End Unindexed.
