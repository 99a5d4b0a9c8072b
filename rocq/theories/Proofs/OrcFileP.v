(** Whole files of any writer that follows the ORC specification. *)
From Coq Require Import ZifyBool ZifyNat.
From Verif.Model Require Import Go Codec ByteBool IntRle Chunk Stream Schema Rows Time File Column Wire Nested Tree Assembled.
From Verif.Spec Require Import BoolSpec Session Bits IntSpec OrcInt StreamSpec ChunkSpec SchemaSpec RowsSpec FileSpec ColumnSpec AssemblySpec EndSpec OrcColumn OrcFile.
From Verif.Proofs Require Import Base OpenBatchP SchemaP ChunkP RowsP SessionP OrcIntP StreamClaimsP ReadP ColumnP ColumnReadP TreeP LeafP BatchP EndP EndColP OpenTreeP EndFileP EndMainP EndClaimsP OrcColumnP ColumnFaultsP.
Notation leaf := ColumnSpec.readable.

(** ** Schemas *)
Lemma preorder_Numbered t : forall n, (forall p x, at_path t p = Some x -> td_id x = n + before t p) -> Numbered n t.
Proof.
  induction t as [id k ns e h cs IH] using td_rect'. intros n H. apply Numbered_eq. split.
  - specialize (H [] _ eq_refl). cbn [td_id before] in H. lia.
  - assert (Hc : forall j c p x, nth_error cs j = Some c -> at_path c p = Some x ->
      td_id x = n + 1 + sizes (firstn j cs) + before c p).
    { intros j c p x Hj Hp. specialize (H (j :: p) x). cbn [at_path td_children before] in H. rewrite Hj in H.
      specialize (H Hp). unfold sizes. lia. }
    clear H. revert n Hc. induction cs as [|c cs IHc]; intros n Hc; [exact I|]. inversion IH as [|? ? Hc0 Hcs]; subst.
    cbn [NumberedL]. split.
    + apply Hc0. intros p x Hp. specialize (Hc 0%nat c p x eq_refl Hp). cbn [firstn] in Hc. change (sizes []) with 0 in Hc. lia.
    + replace (n + 1 + size c) with (n + size c + 1) by lia. apply IHc; [exact Hcs|].
      intros j d p x Hj Hp. specialize (Hc (S j) d p x Hj Hp). cbn [firstn] in Hc. rewrite sizes_cons in Hc. lia.
Qed.

Lemma orc_kind_reader k e c : orc_kind k e = Some c -> readerKind k e = Ok c.
Proof.
  unfold orc_kind, readerKind. destruct k; try discriminate; repeat match goal with |- context [e =? ?n] => destruct (Z.eqb_spec e n) end; try discriminate; intros H; congruence.
Qed.

(** ** Where the streams are *)
Lemma starts_index ix d idx data : 0 <= ix -> Forall (fun s => st_kind s = 6 /\ 0 <= st_length s) idx ->
  ix + total_length idx < W64 ->
  streamStarts ix d (idx ++ data) = offsets ix idx ++ streamStarts (ix + total_length idx) d data.
Proof.
  intros H0 H. revert ix H0. induction H as [|s l [Hk Hs] Hl IH]; intros ix H0 Hb.
  - cbn [app offsets]. unfold total_length. cbn. rewrite Z.add_0_r. reflexivity.
  - unfold total_length in *. cbn [app streamStarts offsets map fold_right] in *. rewrite Hk. cbn [Z.eqb Pos.eqb].
    assert (Hpos : 0 <= fold_right Z.add 0 (map st_length l)).
    { clear - Hl. induction Hl as [|x l [_ Hx] Hl IH]; cbn [map fold_right]; lia. }
    rewrite u64_id by (unfold is_u64; lia). rewrite IH by lia. rewrite Z.add_assoc. reflexivity.
Qed.
Lemma starts_data ix d data : 0 <= d -> Forall (fun s => st_kind s <> 6 /\ 0 <= st_length s) data ->
  d + total_length data < W64 -> streamStarts ix d data = offsets d data.
Proof.
  intros H0 H. revert d H0. induction H as [|s l [Hk Hs] Hl IH]; intros d H0 Hb; [reflexivity|].
  unfold total_length in *. cbn [streamStarts offsets map fold_right] in *. destruct (Z.eqb_spec (st_kind s) 6); [contradiction|].
  assert (Hpos : 0 <= fold_right Z.add 0 (map st_length l)).
  { clear - Hl. induction Hl as [|x l [_ Hx] Hl IH]; cbn [map fold_right]; lia. }
  rewrite u64_id by (unfold is_u64; lia). rewrite IH by lia. reflexivity.
Qed.
Lemma offsets_fst n l : map fst (offsets n l) = l.
Proof. revert n. induction l as [|s l IH]; intros n; cbn [offsets map fst]; [reflexivity|]. rewrite IH. reflexivity. Qed.

Section Column.
Variable inflate : list Z -> res (list Z).
Variable o : opts.
Hypothesis Ho : supported o.
Variable file : list Z.
Hypothesis Hfile : zlen file < 2 ^ 62.

Lemma unframe Q enc bs : framed Q inflate o enc bs ->
  (match CompressionKind o with NONE => Ok enc | _ => DecompressChunks inflate (CompressionKind o) enc end) = Ok bs.
Proof.
  unfold framed. destruct Ho as [[Hk|Hk] Hc]; rewrite Hk; [congruence|]. intros (ds & Hd & _ & <-).
  eapply decompress_spec; [exact Hc|exact Hd].
Qed.
Lemma part pre enc post : file = pre ++ enc ++ post -> ztake (zlen enc) (zdrop (zlen pre) file) = enc /\
  (zlen (zdrop (zlen pre) file) <? zlen enc) = false /\ i64 (zlen pre) = zlen pre.
Proof.
  clear Ho. clear inflate o. intros Hf. assert (Hz : zdrop (zlen pre) file = enc ++ post) by (rewrite Hf; apply zdrop_app).
  rewrite Hz. split; [|split].
  - unfold ztake, zlen. rewrite Nat2Z.id, firstn_app, Nat.sub_diag, firstn_all, firstn_O. apply app_nil_r.
  - rewrite zlen_app. pose proof (zlen_nonneg post). lia.
  - apply i64_id. pose proof (zlen_nonneg pre). pose proof (zlen_nonneg enc). pose proof (zlen_nonneg post).
    rewrite Hf, !zlen_app in Hfile. unfold is_i64. lia.
Qed.

(** Index streams set the index and nothing else. *)
Definition freshAny (k : ckind) (h : bool) (r : anyR) : Prop :=
  match r with
  | RCol c => k <> KDict /\ cr_kind c = k /\ cr_hasNulls c = h /\ cr_present c = None
  | RDict d => k = KDict /\ dr_hasNulls d = h /\ dr_present d = None /\ dr_loaded d = false /\ dr_strings d = []
  | _ => False
  end.
Lemma newAny_fresh k h : freshAny k h (newAny k h).
Proof. unfold newAny. destruct k; cbn; auto; repeat (split; [congruence|]); reflexivity. Qed.
Lemma index_streams bopt all l k h : indexed inflate o file bopt all -> forall r,
  Forall (fun q => st_kind (fst q) = 6 /\ IsInclude bopt (st_column (fst q)) = true /\ In q all) l -> freshAny k h r ->
  exists r', initAny inflate o file r l = Ok r' /\ freshAny k h r'.
Proof.
  intros Hx r H. revert r. induction H as [|[s off] l (Hk & Hi & Hin) Hl IH]; intros r Hr; [exists r; auto|].
  cbn [fst] in *. destruct (Hx s off Hin Hk Hi) as (pre & enc & post & bs & x & Hf & -> & Hlen & Hfr & Hu).
  destruct (part pre enc post Hf) as (E1 & E2 & E3).
  assert (Eb : readIndex inflate o file (zlen pre) (st_length s) = Ok x).
  { unfold readIndex. rewrite E3, Hlen, E2, E1. pose proof (zlen_nonneg pre). destruct (Z.ltb_spec (zlen pre) 0); [lia|].
    pose proof (unframe _ _ _ Hfr) as Hb. destruct (CompressionKind o); rewrite Hb; exact Hu. }
  cbn [initAny]. unfold initOne. rewrite Hk. cbn [Z.eqb Pos.eqb]. destruct r as [c|d|y iy|hh y iy]; cbn [freshAny] in Hr; [| |contradiction..].
  - cbn [any_InitIndex]. unfold InitIndex. rewrite Eb. cbn [rbind]. apply IH. exact Hr.
  - cbn [any_InitIndex]. rewrite Eb. cbn [rbind]. apply IH. exact Hr.
Qed.
Lemma initAny_app a b : forall r, initAny inflate o file r (a ++ b) =
  let! r' := initAny inflate o file r a in initAny inflate o file r' b.
Proof.
  induction a as [|[s off] a IH]; intros r; [reflexivity|]. cbn [app initAny]. destruct (initOne _ _ _ _ _ _); cbn [rbind]; auto.
Qed.
Lemma initAny_dict l : Forall (fun q => st_kind (fst q) <> 6) l -> forall d,
  initAny inflate o file (RDict d) l = let! d' := dict_InitStreams file d l in Ok (RDict d').
Proof.
  clear. induction 1 as [|[s off] l Hk Hl IH]; intros d; [reflexivity|]. cbn [initAny dict_InitStreams fst] in *. unfold initOne.
  destruct (Z.eqb_spec (st_kind s) 6); [contradiction|]. cbn [any_InitStream]. destruct (dict_InitStream file d s off); cbn [rbind]; auto.
Qed.

Notation column := (orc_column orc_supported (fun d => d <> []) inflate o file).
Lemma Hf64 : zlen file < W64.
Proof. change (2 ^ 62) with 4611686018427387904 in Hfile. lia. Qed.

(** A primitive column. *)
Lemma leaf_reads k l c rows : leaf k = true -> k <> KFloat -> cr_kind c = k -> cr_present c = None ->
  (In 0 (kinds l) <-> cr_hasNulls c = true) -> column l k rows ->
  exists r, InitStreams file c l = Ok r /\ cr_kind r = k /\
    if cr_hasNulls c then cr_present r <> None /\ Yields (rowNext inflate o) r rows
    else cr_present r = None /\ Yields (fun c => nextValue inflate o c GNil) r (nonnull rows) /\ forallb is_some rows = true.
Proof.
  intros Hrd Hnf Hkc Hpc Hst Hc.
  assert (Hpa : present_allowed k (cr_hasNulls c) l) by (intros H; left; apply Hst; exact H).
  destruct (opened_from inflate o file k l rows c (or_introl Hrd) Hkc Hpc Hpa Hc) as (r & Hr & Hop & Hnp).
  exists r. split; [exact Hr|]. pose proof Hop as (Hk & _). split; [exact Hk|]. destruct Hc as (_ & _ & Hd & Hpres).
  destruct (data_values inflate o Ho file Hf64 k l r _ Hrd Hnf Hop Hd) as (mv & Hv).
  destruct (in_dec Z.eq_dec 0 (kinds l)) as [Hi|Hi].
  - rewrite (proj1 Hst Hi). destruct Hpres as (b & Hh & Hbits).
    destruct (holds_serves inflate o Ho file Hf64 _ _ _ _ _ Hop Hh) as (rr & Hs & Hb & H0 & _).
    specialize (H0 eq_refl). split; [congruence|]. destruct (bits_yield inflate o b _ rr Hs Hb Hbits) as (mb & Hy).
    destruct (deal_rows rows mb mv) as (more & Hm). eapply Yields_prefix. rewrite <- Hm.
    eapply yields_rows_bits; [rewrite Hk; exact Hrd|exact H0|exact Hy|exact Hv].
  - destruct (cr_hasNulls c); [exfalso; apply Hi, Hst; reflexivity|]. split; [exact (Hnp Hi)|]. split; [|exact Hpres].
    eapply Yields_prefix. exact Hv.
Qed.

(** A primitive column, whatever its reader. *)
Lemma prim_reads k h l r0 rows : foreign_kind k = true -> k <> KFloat -> freshAny k h r0 ->
  (In 0 (kinds l) <-> h = true) -> Forall (fun q => st_kind (fst q) <> 6) l -> column l k rows ->
  exists r t, initAny inflate o file r0 l = Ok r /\ leafOf r = Some t /\
    forall cl, nonnull (rows_of cl) = nonnull rows -> (h = true -> rows_of cl = rows) -> LeafAt inflate o h cl t.
Proof.
  intros Hk Hnf Hr0 Hst H6 Hc. destruct r0 as [c|d|y iy|hh y iy]; cbn [freshAny] in Hr0; [| |contradiction..].
  - destruct Hr0 as (Hd & Hck & Hch & Hcp). rewrite initAny_col, initCol_streams by exact H6. rewrite <- Hch in Hst.
    destruct (leaf k) eqn:El.
    + destruct (leaf_reads k l c rows El Hnf Hck Hcp Hst Hc) as (r & Hr & Hkr & Hy). exists (RCol r), (CLeaf r). rewrite Hr. cbn [rbind].
      split; [reflexivity|]. split; [cbn [leafOf]; rewrite Hkr; destruct k; try discriminate El; reflexivity|].
      intros cl Hn Hrows. apply LCol; [rewrite Hkr; exact El|]. unfold colAt. rewrite <- Hch in *. destruct (cr_hasNulls c).
      * rewrite (Hrows eq_refl). exact Hy.
      * rewrite Hn. split; apply Hy.
    + assert (k = KBinary) as -> by (clear - Hk El Hd; destruct k; try reflexivity; try discriminate El; try discriminate Hk; contradiction).
      destruct (binary_as_string _ _ _ _ _ Hc) as (Hc' & _ & Hby).
      set (c0 := {| cr_kind := KString; cr_hasNulls := cr_hasNulls c; cr_present := cr_present c; cr_data := cr_data c; cr_second := cr_second c; cr_index := cr_index c |}).
      assert (Hbin : c = bin c0) by (unfold c0; clear - Hck; destruct c; cbn in Hck; unfold bin; cbn; rewrite Hck; reflexivity).
      destruct (leaf_reads KString l c0 _ eq_refl ltac:(discriminate) eq_refl Hcp Hst Hc') as (r & Hr & Hkr & Hy).
      destruct (InitStreams_bin file l c0 r eq_refl (proj1 Hst) Hr) as [_ Hr']. exists (RCol (bin r)), (CLeaf (bin r)). rewrite Hbin, Hr'. cbn [rbind].
      split; [reflexivity|]. split; [reflexivity|]. intros cl Hn Hrows. change (cr_hasNulls c0) with (cr_hasNulls c) in Hy.
      assert (Hrt : rows_of (map tosV cl) = map (option_map tos) (rows_of cl)).
      { unfold rows_of. rewrite !map_map. apply map_ext. intros v. unfold row_of, tosV. cbn. destruct (Null v); reflexivity. }
      assert (Hnt : forall q, nonnull (map (option_map tos) q) = map tos (nonnull q)).
      { clear. induction q as [|[g|] q IH]; [reflexivity| |exact IH]. unfold nonnull in *. cbn [map option_map flat_map app]. rewrite IH. reflexivity. }
      apply LBin; [exact Hkr| |].
      * apply Forall_forall. intros v Hv Hnv. assert (Hin : In (V v) (nonnull (rows_of cl))).
        { unfold nonnull, rows_of. apply in_flat_map. exists (row_of v). split; [apply in_map; exact Hv|]. unfold row_of. rewrite Hnv. left. reflexivity. }
        rewrite Hn in Hin. unfold nonnull in Hin. apply in_flat_map in Hin. destruct Hin as ([g|] & Hg & Hin); [|destruct Hin].
        destruct Hin as [E|[]]. rewrite Forall_forall in Hby. destruct (Hby _ Hg g eq_refl) as (s & Es). exists s. congruence.
      * unfold colAt. rewrite Hrt. rewrite <- Hch in *. destruct (cr_hasNulls c).
        -- rewrite (Hrows eq_refl). exact Hy.
        -- rewrite Hnt, Hn, <- Hnt. split; apply Hy.
  - destruct Hr0 as (-> & Hdh & Hdp & Hdl & Hds). rewrite initAny_dict by exact H6.
    destruct (dict_opens inflate o Ho file Hf64 l d rows Hc Hdl Hds Hdp) as (r & ss & Hr & Hp & _ & Hat); [rewrite Hdh; apply Hst|].
    exists (RDict r), (CDict r). rewrite Hr. cbn [rbind]. split; [reflexivity|]. split; [reflexivity|]. intros cl Hn Hrows.
    apply (LDict _ _ _ _ ss).
    + apply Hat; [exact Hn|]. intros H. apply Hrows, Hst, H.
    + rewrite Hp. rewrite Hst. destruct h; split; intros; congruence.
Qed.

(** A struct. *)
Lemma struct_reads l c bits : cr_kind c = KStruct -> cr_present c = None ->
  (In 0 (kinds l) <-> cr_hasNulls c = true) -> NoDup (kinds l) -> incl (kinds l) [0] ->
  (In 0 (kinds l) -> exists b, OrcColumn.holds (fun d => d <> []) inflate o file l 0 b /\ orc_bits b bits) ->
  exists r, InitStreams file c l = Ok r /\ cr_kind r = KStruct /\
    if cr_hasNulls c then exists p, cr_present r = Some p /\ Yields (bool_Next inflate o) p bits else cr_present r = None.
Proof.
  intros Hkc Hpc Hst Hnd Hin Hb. destruct l as [|[s off] l].
  - exists c. split; [reflexivity|]. split; [exact Hkc|]. destruct (cr_hasNulls c) eqn:E; [|exact Hpc]. exfalso. apply (proj2 Hst eq_refl).
  - unfold kinds in *. cbn [map fst] in *. assert (Hs : st_kind s = 0) by (destruct (Hin _ (or_introl eq_refl)) as [H|[]]; auto).
    rewrite Hs in *. assert (Hl : l = []).
    { destruct l as [|[s2 off2] l]; [reflexivity|]. exfalso. inversion Hnd as [|? ? Hn _]; subst. apply Hn. cbn [map fst].
      left. destruct (Hin (st_kind s2)) as [H|[]]; [right; left; reflexivity|]. congruence. }
    subst l. rewrite (proj1 Hst (or_introl eq_refl)). cbn [InitStreams]. unfold InitStream. rewrite Hs, Hkc.
    rewrite (proj1 Hst (or_introl eq_refl)). cbn [Z.eqb rbind].
    eexists. split; [reflexivity|]. split; [exact Hkc|]. eexists. split; [reflexivity|].
    destruct (Hb (or_introl eq_refl)) as (b & (s' & off' & pre & enc & post & Hi & _ & Hf & Hoff & Hlen & Hfr & Hby) & Hbits).
    destruct Hi as [Hi|[]]. assert (s' = s /\ off' = off) as [-> ->] by (split; congruence).
    subst off. rewrite Hlen. pose proof (framed_serves inflate o Ho file Hf64 pre enc post b Hf Hfr) as Hsv.
    destruct (bits_yield inflate o b _ _ Hsv Hby Hbits) as (mb & Hy). eapply Yields_prefix. exact Hy.
Qed.
End Column.

(** ** From the streams of a stripe to its columns *)
Lemma tkind_struct_dec k : k = STRUCT \/ k <> STRUCT.
Proof. destruct k; try (right; discriminate). left. reflexivity. Qed.
Lemma alive_all j rows : Forall (fun v => Null v = false) (column_of (Z.to_nat j) rows) -> alive j rows = rows.
Proof.
  induction rows as [|r rows IH]; intros H; [reflexivity|]. rewrite column_of_cons in H. apply Forall_app in H. destruct H as [H1 H2].
  unfold alive in *. cbn [filter]. assert (E : null_in j r = false).
  { unfold null_in. clear - H1. induction H1 as [|v l Hv Hl IH]; [reflexivity|]. cbn [existsb]. rewrite Hv, IH. reflexivity. }
  rewrite E. cbn [negb]. rewrite IH by exact H2. reflexivity.
Qed.
Lemma flags_rows a b rows : single (Z.to_nat a) rows -> single (Z.to_nat b) rows ->
  Forall (fun r => null_in b r = true -> null_in a r = true) rows ->
  forallb is_some (rows_of (column_of (Z.to_nat a) (alive b rows))) = true ->
  map Null (column_of (Z.to_nat a) rows) = map Null (column_of (Z.to_nat b) rows) /\
  nonnull (rows_of (column_of (Z.to_nat a) (alive b rows))) = nonnull (rows_of (column_of (Z.to_nat a) rows)).
Proof.
  induction rows as [|r rows IH]; intros Ha Hb Hn Hs; [split; reflexivity|].
  inversion Ha as [|? ? Ha1 Ha2]; subst. inversion Hb as [|? ? Hb1 Hb2]; subst. inversion Hn as [|? ? Hn1 Hn2]; subst.
  unfold alive in *. cbn [filter] in *. rewrite (column_of_cons (Z.to_nat a) r rows), (column_of_cons (Z.to_nat b) r rows).
  unfold null_in in *. destruct (column_of (Z.to_nat a) [r]) as [|x [|? ?]] eqn:Ea; cbn in Ha1; try lia.
  destruct (column_of (Z.to_nat b) [r]) as [|y [|? ?]] eqn:Eb; cbn in Hb1; try lia.
  cbn [existsb] in *. rewrite !orb_false_r in *. cbn [app map].
  destruct (Null y) eqn:Ey; cbn [negb] in *.
  - destruct (IH Ha2 Hb2 Hn2 Hs) as [E1 E2]. specialize (Hn1 eq_refl). rewrite E1, Hn1. split; [reflexivity|]. rewrite E2.
    unfold rows_of. cbn [map nonnull flat_map]. unfold row_of at 2. rewrite Hn1. reflexivity.
  - rewrite (column_of_cons (Z.to_nat a) r (filter _ rows)), Ea in Hs |- *. cbn [app rows_of map forallb] in Hs. apply andb_true_iff in Hs. destruct Hs as [Hx Hs].
    destruct (IH Ha2 Hb2 Hn2 Hs) as [E1 E2]. assert (Null x = false) as Hnx by (unfold row_of in Hx; destruct (Null x); [discriminate|reflexivity]).
    rewrite E1, Hnx. split; [reflexivity|]. cbn [app]. unfold rows_of in *. cbn [map nonnull flat_map]. fold (nonnull (map row_of (column_of (Z.to_nat a) rows))).
    f_equal. exact E2.
Qed.
Lemma some_flags l : forallb is_some (rows_of l) = true -> Forall (fun v => Null v = false) l.
Proof.
  induction l as [|v l IH]; intros H; [constructor|]. cbn [rows_of map forallb] in H. apply andb_true_iff in H. destruct H as [Hv H].
  constructor; [|apply IH; exact H]. unfold row_of in Hv. destruct (Null v); [discriminate|reflexivity].
Qed.
Lemma parent_read bopt t x p : forall par, In (x, Some p) (columns_read bopt par t) ->
  par = Some p \/ exists y q, In (y, q) (columns_read bopt par t) /\ td_id y = p.
Proof.
  induction t as [id k ns e h cs IH] using td_rect'. intros par H. cbn [columns_read] in *. destruct (IsInclude bopt id); [|destruct H].
  destruct k; try (destruct H as [H|[]]; left; congruence). apply in_app_iff in H. destruct H as [H|H].
  { destruct h; [|destruct H]. destruct H as [H|[]]. left. congruence. }
  right. apply in_flat_map in H. destruct H as (c & Hc & H). rewrite Forall_forall in IH.
  destruct (IH c Hc _ H) as [E|(y & q & Hy & Hq)].
  - destruct h; [|discriminate]. exists (Td id STRUCT ns e true cs), par. split; [left; reflexivity|]. cbn [td_id]. congruence.
  - exists y, q. split; [|exact Hq]. apply in_app_iff. right. apply in_flat_map. eauto.
Qed.

Section Stored.
Variable inflate : list Z -> res (list Z).
Variable o : opts.
Variable file : list Z.
Variable bopt : batchOption.
Variable l : list (strm * Z).
Variable rows : list (row value).
Notation nonempty := (fun d : list Z => d <> []).
Notation column := (orc_column orc_supported nonempty inflate o file).
Notation stored := (stored orc_supported nonempty inflate o file bopt l).
Definition restrict (p : option Z) : list (row value) := match p with None => rows | Some j => alive j rows end.
Definition presence (x : td) : Prop :=
  td_enc x = 0 /\ NoDup (kinds (data_streams l (td_id x))) /\ incl (kinds (data_streams l (td_id x))) [0] /\
  (if in_dec Z.eq_dec 0 (kinds (data_streams l (td_id x)))
   then exists b, OrcColumn.holds nonempty inflate o file (data_streams l (td_id x)) 0 b /\
                  orc_bits b (map (fun v => negb (Null v)) (column_of (col x) rows))
   else Forall (fun v => Null v = false) (column_of (col x) rows)).
Lemma stored_struct rs id ns e h cs : stored rs (Td id STRUCT ns e h cs) -> IsInclude bopt id = true ->
  e = 0 /\ NoDup (kinds (data_streams l id)) /\ incl (kinds (data_streams l id)) [0] /\
  (if in_dec Z.eq_dec 0 (kinds (data_streams l id))
   then exists b, OrcColumn.holds nonempty inflate o file (data_streams l id) 0 b /\
                  orc_bits b (map (fun v => negb (Null v)) (column_of (Z.to_nat id) rs))
   else Forall (fun v => Null v = false) (column_of (Z.to_nat id) rs)) /\
  Forall (stored (alive id rs)) cs.
Proof.
  intros H Hi. cbn [OrcFile.stored] in H. destruct (H Hi) as (H1 & H2 & H3 & H4 & H5). clear H.
  split; [exact H1|]. split; [exact H2|]. split; [exact H3|]. split; [exact H4|]. clear - H5.
  induction cs as [|c cs IH]; [constructor|]. destruct H5 as [Hc H5]. constructor; auto.
Qed.
Lemma stored_leaf rs id k ns e h cs : k <> STRUCT -> stored rs (Td id k ns e h cs) -> IsInclude bopt id = true ->
  exists c, orc_kind k e = Some c /\ column (data_streams l id) c (rows_of (column_of (Z.to_nat id) rs)).
Proof. intros Hk H Hi. cbn [OrcFile.stored] in H. specialize (H Hi). destruct k; try exact H. contradiction. Qed.

Lemma stored_columns ok (Hok : ok KStruct = false) t : forall par, schema_of_kinds bopt ok (is_some par) t = true -> stored (restrict par) t ->
  (forall x p, In (x, Some p) (columns_read bopt par t) -> td_hasNulls x = false) ->
  (forall x, In x (flatten t) -> IsInclude bopt (td_id x) = true -> td_hasNulls x = false -> ~ In 0 (kinds (data_streams l (td_id x)))) ->
  (forall x, In x (flatten t) -> IsInclude bopt (td_id x) = true ->
    (td_kind x = STRUCT /\ presence x) \/ (td_kind x <> STRUCT /\ exists p, In (x, p) (columns_read bopt par t))) /\
  (forall x p, In (x, p) (columns_read bopt par t) -> td_kind x <> STRUCT ->
    exists c, orc_kind (td_kind x) (td_enc x) = Some c /\
       column (data_streams l (td_id x)) c (rows_of (column_of (col x) (restrict p)))).
Proof.
  induction t as [id k ns e h cs IH] using td_rect'. intros par Hr Hs Hsh Hst.
  cbn [schema_of_kinds] in Hr. destruct (IsInclude bopt id) eqn:Ei.
  2: { split.
       - intros x Hx Hi. rewrite forallb_forall in Hr. specialize (Hr x Hx). rewrite Hi in Hr. discriminate.
       - intros x p Hx. cbn [columns_read] in Hx. rewrite Ei in Hx. destruct Hx. }
  destruct (readerKind k e) as [ck| |] eqn:Ek; try discriminate.
  assert (Hleaf : k <> STRUCT -> cs = [] /\ columns_read bopt par (Td id k ns e h cs) = [(Td id k ns e h cs, par)]).
  { intros Hk. split.
    - assert (ck <> KStruct) by (intros ->; apply Hk; eapply readerKind_struct; exact Ek).
      destruct cs; [reflexivity|]. destruct ck; try congruence; rewrite andb_false_r in Hr; discriminate.
    - cbn [columns_read]. rewrite Ei. destruct k; try reflexivity. contradiction. }
  destruct (tkind_struct_dec k) as [->|Hk].
  2: { destruct (Hleaf Hk) as [-> Hc]. rewrite Hc. split.
       - intros x Hx Hi. rewrite flatten_eq in Hx. destruct Hx as [<-|[]]. right. split; [exact Hk|]. exists par. left. reflexivity.
       - intros x p [Hx|[]] _. assert (x = Td id k ns e h [] /\ p = par) as [-> ->] by (split; congruence).
         exact (stored_leaf _ _ _ _ _ _ _ Hk Hs Ei). }
  clear Hleaf. assert (ck = KStruct) as -> by (unfold readerKind in Ek; destruct (e =? 0); congruence).
  apply andb_true_iff in Hr. destruct Hr as [Hp Hr]. rewrite forallb_forall in Hr.
  assert (par = None) as ->.
  { destruct par as [p|]; [|reflexivity]. exfalso. cbn [is_some andb] in Hp. destruct h; [|discriminate].
    specialize (Hsh (Td id STRUCT ns e true cs) p). cbn [columns_read td_hasNulls] in Hsh. rewrite Ei in Hsh.
    specialize (Hsh (or_introl eq_refl)). discriminate. }
  cbn [restrict] in Hs. destruct (stored_struct _ _ _ _ _ _ Hs Ei) as (H1 & H2 & H3 & H4 & H5).
  rewrite Forall_forall in IH, H5. set (par' := if h then Some id else None).
  assert (HIH : forall d, In d cs ->
    (forall x, In x (flatten d) -> IsInclude bopt (td_id x) = true ->
      (td_kind x = STRUCT /\ presence x) \/ (td_kind x <> STRUCT /\ exists p, In (x, p) (columns_read bopt par' d))) /\
    (forall x p, In (x, p) (columns_read bopt par' d) -> td_kind x <> STRUCT ->
      exists c, orc_kind (td_kind x) (td_enc x) = Some c /\
         column (data_streams l (td_id x)) c (rows_of (column_of (col x) (restrict p))))).
  { intros d Hd. apply (IH d Hd par').
    - replace (is_some par') with h by (unfold par'; destruct h; reflexivity). apply Hr. exact Hd.
    - specialize (H5 d Hd). unfold par'. destruct h; [exact H5|]. cbn [restrict].
      rewrite alive_all in H5; [exact H5|]. destruct (in_dec Z.eq_dec 0 (kinds (data_streams l id))) as [Hin|_]; [|exact H4].
      exfalso. apply (Hst (Td id STRUCT ns e false cs)); auto. rewrite flatten_eq. left. reflexivity.
    - intros y p Hy. apply (Hsh y p). cbn [columns_read]. rewrite Ei. apply in_app_iff. right. apply in_flat_map. exists d. auto.
    - intros y Hy. apply Hst. rewrite flatten_eq. right. apply in_flat_map. exists d. auto. }
  split.
  - intros x Hx Hi. rewrite flatten_eq in Hx. destruct Hx as [<-|Hx].
    { left. split; [reflexivity|]. split; [exact H1|]. split; [exact H2|]. split; [exact H3|]. exact H4. }
    apply in_flat_map in Hx. destruct Hx as (d & Hd & Hx). destruct (proj1 (HIH d Hd) x Hx Hi) as [Hl|(Hk & p & Hp')]; [left; exact Hl|].
    right. split; [exact Hk|]. exists p. cbn [columns_read]. rewrite Ei. apply in_app_iff. right. apply in_flat_map. exists d. auto.
  - intros x p Hx Hk. cbn [columns_read] in Hx. rewrite Ei in Hx. apply in_app_iff in Hx. destruct Hx as [Hx|Hx].
    { destruct h; [|destruct Hx]. destruct Hx as [Hx|[]]. assert (x = Td id STRUCT ns e true cs) as -> by congruence. cbn [td_kind] in Hk. contradiction. }
    apply in_flat_map in Hx. destruct Hx as (d & Hd & Hx). apply (proj2 (HIH d Hd) x p Hx Hk).
Qed.
End Stored.

Lemma read_column bopt t x p : forall par, In (x, p) (columns_read bopt par t) ->
  IsInclude bopt (td_id x) = true /\ (td_kind x = STRUCT -> td_hasNulls x = true).
Proof.
  induction t as [id k ns e h cs IH] using td_rect'. intros par Hx.
  cbn [columns_read] in Hx. destruct (IsInclude bopt id) eqn:E; [|destruct Hx].
  destruct (tkind_struct_dec k) as [->|Hk].
  2: { assert (Hx' : In (x, p) [(Td id k ns e h cs, par)]) by (destruct k; try exact Hx; contradiction). destruct Hx' as [Hx'|[]].
       assert (x = Td id k ns e h cs) as -> by congruence. cbn [td_kind td_id]. split; [exact E|contradiction]. }
  apply in_app_iff in Hx. destruct Hx as [Hx|Hx].
  - destruct h; [|destruct Hx]. destruct Hx as [Hx|[]]. assert (x = Td id STRUCT ns e true cs) as -> by congruence. split; [exact E|reflexivity].
  - apply in_flat_map in Hx. destruct Hx as (d & Hd & Hx). rewrite Forall_forall in IH. eapply IH; eauto.
Qed.

(** ** One stripe *)
Section Stripe.
Variable inflate : list Z -> res (list Z).
Variable o : opts.
Hypothesis Ho : supported o.
Variable file : list Z.
Hypothesis Hfile : zlen file < 2 ^ 62.
Variable schema : td.
Hypothesis Hnum : Numbered 0 schema.
Variable nodes : list node.
Hypothesis Hnodes : Forall2 nodeFor (flatten schema) nodes.
Variable bopt : batchOption.
Hypothesis Hinc : IsInclude bopt 0 = true.
Hypothesis Hread : foreign_schema bopt schema = true.
Hypothesis Hshallow : shallow bopt schema.
Hypothesis Hfloat : no_floats bopt schema.
Notation nonempty := (fun d : list Z => d <> []).
Variables (i : stripeInfo) (sf : stripeFooter) (rows : list (row value)).
Hypothesis Hstripe : orc_stripe orc_supported nonempty inflate o file bopt schema i (sf, rows).
Hypothesis Hbloom : no_bloom sf.
Hypothesis Hsteady : steady bopt schema sf.
Hypothesis Hshape : well_shaped bopt schema rows.

Lemma total_length_nonneg l : Forall (fun s => 0 <= st_length s) l -> 0 <= total_length l.
Proof. clear. unfold total_length. induction 1; cbn [map fold_right]; lia. Qed.
Notation starts := (offsets (Offset i) (sf_streams sf)).

Lemma stripe_footer : openStripe inflate unmarshalSF (CompressionKind o) file i
  = Ok (map td_enc (flatten schema), starts) /\ NumberOfRows i = zlen rows /\ rows <> [].
Proof.
  clear Hnum Hinc Hread Hshallow Hfloat Hsteady Hshape.
  destruct Hstripe as (Hne & Hn & Hoff & (idx & data & Hs & Hidx & Hdata & Li & Ld) & Hlen & Hcols & (pre & enc & post & bs & Hf & Hpre & Hfl & Hfr & Hu) & _).
  split; [|auto]. destruct (part file Hfile pre enc post Hf) as (E1 & E2 & E3).
  unfold openStripe. rewrite <- Hpre, E3, Hfl, E2, E1. pose proof (zlen_nonneg pre). destruct (Z.ltb_spec (zlen pre) 0); [lia|].
  assert (Hall : Forall (fun s => 0 <= st_length s) idx /\ Forall (fun s => 0 <= st_length s) data).
  { rewrite Hs in Hlen. apply Forall_app in Hlen. destruct Hlen as [A B]. split; eapply Forall_impl; try eassumption; cbn; tauto. }
  destruct Hall as [Lidx Ldata]. pose proof (total_length_nonneg _ Lidx) as Ti. pose proof (total_length_nonneg _ Ldata) as Td_.
  assert (Hbound : Offset i + IndexLength i + DataLength i < 2 ^ 62).
  { rewrite <- Hpre. rewrite Hf, !zlen_app in Hfile. pose proof (zlen_nonneg enc). pose proof (zlen_nonneg post). lia. }
  change (2 ^ 62) with 4611686018427387904 in Hbound.
  rewrite (unframe inflate o Ho _ _ _ Hfr). cbn [rbind]. rewrite Hu. cbn [rbind]. rewrite Hcols.
  f_equal. f_equal. rewrite Hs.
  assert (H6 : Forall (fun s => st_kind s = 6 /\ 0 <= st_length s) idx).
  { apply Forall_forall. intros s Hin. rewrite Forall_forall in Hidx, Lidx. split; [|apply Lidx; exact Hin].
    unfold no_bloom in Hbloom. rewrite Hs, Forall_forall in Hbloom. destruct (Hbloom s) as [B1 B2]; [apply in_app_iff; auto|].
    specialize (Hidx s Hin). unfold index_kind in Hidx. lia. }
  rewrite (starts_index _ _ _ _ Hoff H6) by lia. rewrite offsets_app. f_equal. fold (total_length idx). rewrite Li.
  rewrite u64_id by (unfold is_u64; lia). apply starts_data; [lia| |lia].
  apply Forall_forall. intros s Hin. rewrite Forall_forall in Hdata, Ldata. split; [|apply Ldata; exact Hin].
  specialize (Hdata s Hin). unfold index_kind in Hdata. lia.
Qed.

Lemma starts_in s st : In (s, st) starts -> In s (sf_streams sf).
Proof. intros H. rewrite <- (offsets_fst (Offset i) (sf_streams sf)). apply in_map_iff. exists (s, st). auto. Qed.
Lemma in_starts s : In s (sf_streams sf) -> exists st, In (s, st) starts.
Proof.
  intros H. rewrite <- (offsets_fst (Offset i) (sf_streams sf)) in H. apply in_map_iff in H. destruct H as ([s' st] & E & H).
  cbn [fst] in E. subst s'. eauto.
Qed.
(** The streams of a column: index streams first. *)
Lemma column_streams x : 0 <= td_id x -> exists ix, filter (ofCol (col x)) starts = ix ++ data_streams starts (td_id x) /\
  Forall (fun q => st_kind (fst q) = 6 /\ st_column (fst q) = td_id x /\ In q starts) ix.
Proof.
  intros Hx. destruct Hstripe as (_ & _ & _ & (idx & data & Hs & Hidx & Hdata & _) & _).
  exists (filter (ofCol (col x)) (offsets (Offset i) idx)).
  assert (Hof : forall q, ofCol (col x) q = (st_column (fst q) =? td_id x)).
  { intros q. unfold ofCol, col. rewrite Z2Nat.id by exact Hx. reflexivity. }
  split.
  - rewrite Hs, offsets_app, filter_app. f_equal. unfold data_streams. rewrite filter_app.
    assert (E : filter (fun q => (st_column (fst q) =? td_id x) && negb (index_kind (st_kind (fst q)))) (offsets (Offset i) idx) = []).
    { assert (Hi : Forall (fun q => index_kind (st_kind (fst q)) = true) (offsets (Offset i) idx)).
      { apply Forall_forall. intros q Hq. rewrite Forall_forall in Hidx. apply Hidx. rewrite <- (offsets_fst (Offset i) idx). apply in_map. exact Hq. }
      clear - Hi. induction Hi as [|q l Hq Hl IH]; [reflexivity|]. cbn [filter]. rewrite Hq, andb_false_r. exact IH. }
    rewrite E. cbn [app].
    assert (Hd : Forall (fun q => index_kind (st_kind (fst q)) = false) (offsets (Offset i + fold_right Z.add 0 (map st_length idx)) data)).
    { apply Forall_forall. intros q Hq. rewrite Forall_forall in Hdata. apply Hdata.
      rewrite <- (offsets_fst (Offset i + fold_right Z.add 0 (map st_length idx)) data). apply in_map. exact Hq. }
    clear - Hd Hof. induction Hd as [|q l Hq Hl IH]; [reflexivity|]. cbn [filter]. rewrite Hof, Hq, andb_true_r, IH. reflexivity.
  - apply Forall_forall. intros q Hq. apply filter_In in Hq. destruct Hq as [Hq Hc]. rewrite Hof in Hc.
    assert (Hin : In (fst q) idx) by (rewrite <- (offsets_fst (Offset i) idx); apply in_map; exact Hq).
    split; [|split; [lia|rewrite Hs, offsets_app; apply in_app_iff; left; exact Hq]].
    unfold no_bloom in Hbloom. rewrite Hs, Forall_forall in Hbloom. destruct (Hbloom (fst q)) as [B1 B2]; [apply in_app_iff; auto|].
    rewrite Forall_forall in Hidx. specialize (Hidx _ Hin). unfold index_kind in Hidx. lia.
Qed.
Lemma steady_kinds x : In x (flatten schema) -> IsInclude bopt (td_id x) = true ->
  (In 0 (kinds (data_streams starts (td_id x))) <-> td_hasNulls x = true).
Proof.
  intros Hx Hi. rewrite (Hsteady x Hx Hi). unfold kinds, data_streams. split.
  - intros H. apply in_map_iff in H. destruct H as ([s st] & E & H). apply filter_In in H. destruct H as [H Hc]. cbn [fst] in *.
    exists s. split; [eapply starts_in; exact H|]. lia.
  - intros (s & Hs & Hc & Hk). destruct (in_starts s Hs) as (st & Hst). apply in_map_iff. exists (s, st). cbn [fst]. split; [exact Hk|].
    apply filter_In. split; [exact Hst|]. cbn [fst]. rewrite Hk, Hc, Z.eqb_refl. reflexivity.
Qed.
Lemma read_single x p : In (x, p) (columns_read bopt None schema) -> single (col x) rows.
Proof.
  intros Hx. eapply Forall_impl; [|exact (Hshape x p Hx)]. intros r Hr. apply Hr.
Qed.
Lemma id_nonneg x : In x (flatten schema) -> 0 <= td_id x.
Proof. intros Hx. destruct (nth_id schema Hnum x Hx) as [H _]. lia. Qed.

(** What a column without nulls looks like. *)
Lemma column_flags x p c : In (x, p) (columns_read bopt None schema) -> td_hasNulls x = false ->
  orc_column orc_supported nonempty inflate o file (data_streams starts (td_id x)) c (rows_of (column_of (col x) (restrict rows p))) ->
  flags_match p (col x) rows /\ nonnull (rows_of (column_of (col x) (restrict rows p))) = nonnull (rows_of (column_of (col x) rows)).
Proof.
  intros Hx Hh (_ & _ & _ & Hpres). pose proof (column_of_in _ _ _ _ _ Hx) as Hxf.
  destruct (read_column bopt schema x p None Hx) as [Hi _].
  destruct (in_dec Z.eq_dec 0 _) as [H0|_]; [apply (steady_kinds x Hxf Hi) in H0; congruence|].
  destruct p as [p|]; cbn [restrict flags_match] in *.
  - destruct (parent_read bopt schema x p None Hx) as [E|(y & q & Hy & Hyp)]; [discriminate|].
    destruct (flags_rows (td_id x) p rows) as [E1 E2].
    + exact (read_single x _ Hx).
    + rewrite <- Hyp. exact (read_single y _ Hy).
    + eapply Forall_impl; [|exact (Hshape x _ Hx)]. intros r Hr. apply Hr.
    + exact Hpres.
    + split; [exact E1|exact E2].
  - split; [apply some_flags; exact Hpres|reflexivity].
Qed.

Lemma stripe_reader : exists tr, newStripeRd inflate o nodes (map td_hasNulls (flatten schema)) bopt file (NumberOfRows i)
    (map td_enc (flatten schema), starts) = Ok {| sr_rows := NumberOfRows i; sr_cursor := 0; sr_tree := Some tr |} /\
  gives inflate o bopt rows None schema tr.
Proof.
  pose proof Hstripe as (_ & _ & _ & _ & Hlen & _ & _ & Hindexed & Hstored).
  assert (Hcols : (forall x, In x (flatten schema) -> IsInclude bopt (td_id x) = true ->
    (td_kind x = STRUCT /\ presence inflate o file starts rows x) \/ (td_kind x <> STRUCT /\ exists p, In (x, p) (columns_read bopt None schema))) /\
    (forall x p, In (x, p) (columns_read bopt None schema) -> td_kind x <> STRUCT -> exists c, orc_kind (td_kind x) (td_enc x) = Some c /\
       orc_column orc_supported nonempty inflate o file (data_streams starts (td_id x)) c (rows_of (column_of (col x) (restrict rows p))))).
  { apply (stored_columns inflate o file bopt starts rows foreign_kind eq_refl schema None Hread Hstored).
    - intros x p. apply Hshallow.
    - intros x Hx Hi Hh H0. apply (steady_kinds x Hx Hi) in H0. congruence. }
  destruct Hcols as [Hcols Hleafs].
  apply (stripe_reads inflate o schema Hnum nodes Hnodes bopt Hinc foreign_kind eq_refl Hread).
  - intros s st Hin. rewrite Forall_forall in Hlen. destruct (Hlen s (starts_in s st Hin)) as [_ Hc]. rewrite flatten_length. exact Hc.
  - intros x k Hx Hi Hk. destruct (column_streams x (id_nonneg x Hx)) as (ix & Hix & Hall). rewrite Hix, initAny_app.
    destruct (index_streams inflate o Ho file Hfile bopt starts ix k (td_hasNulls x) Hindexed (newAny k (td_hasNulls x))) as (r0 & Hr0 & Hfr0).
    { eapply Forall_impl; [|exact Hall]. intros q (H1 & H2 & H3). rewrite H2. auto. }
    { apply newAny_fresh. }
    rewrite Hr0. cbn [rbind].
    assert (H6 : Forall (fun q => st_kind (fst q) <> 6) (data_streams starts (td_id x))).
    { apply Forall_forall. intros q Hq. apply filter_In in Hq. destruct Hq as [_ Hq]. unfold index_kind in Hq. lia. }
    pose proof (steady_kinds x Hx Hi) as Hst.
    destruct (Hcols x Hx Hi) as [[Hxk Hpr]|(Hxk & p & Hxp)].
    + destruct Hpr as (He & Hnd & Hincl & Hp). rewrite Hxk, He in Hk. cbn in Hk. assert (k = KStruct) as -> by congruence.
      destruct r0 as [c|d|y iy|hh y iy]; cbn [freshAny] in Hfr0; [|destruct Hfr0; discriminate|contradiction..].
      destruct Hfr0 as (_ & Hck & Hch & Hcp). rewrite initAny_col, initCol_streams by exact H6. rewrite <- Hch in Hst.
      destruct (struct_reads inflate o Ho file Hfile (data_streams starts (td_id x)) c (map (fun v => negb (Null v)) (column_of (col x) rows)) Hck Hcp Hst Hnd Hincl)
        as (r & Hr & Hkr & Hy).
      { intros H0. destruct (in_dec Z.eq_dec 0 _) as [_|H1]; [exact Hp|contradiction]. }
      exists (RCol r). rewrite Hr. split; [reflexivity|]. exists r. split; [reflexivity|]. split; [exact Hkr|]. rewrite Hch in Hy. exact Hy.
    + destruct (Hleafs x p Hxp Hxk) as (k' & Hk' & Hcol). assert (k' = k) as -> by (apply orc_kind_reader in Hk'; congruence).
      assert (Hns : k <> KStruct).
      { intros ->. unfold orc_kind in Hk'. destruct (td_kind x); try discriminate; repeat (destruct (td_enc x =? _); try discriminate). }
      assert (Hlk : foreign_kind k = true).
      { destruct (readable_included bopt foreign_kind eq_refl schema false Hread x Hx) as [Hok _]. destruct (Hok Hi) as (k2 & Hk2 & Hl).
        assert (k2 = k) as -> by congruence. destruct Hl as [Hl|Hl]; [exact Hl|contradiction]. }
      assert (Hnf : k <> KFloat).
      { intros ->. apply (Hfloat x p Hxp). unfold orc_kind in Hk'. destruct (td_kind x); try discriminate; try reflexivity; repeat (destruct (td_enc x =? _); try discriminate). }
      destruct (prim_reads inflate o Ho file Hfile k (td_hasNulls x) _ r0 _ Hlk Hnf Hfr0 Hst H6 Hcol) as (r & t & Hr & Ht & Hat).
      exists r. split; [exact Hr|]. assert (Hread' : exists t, leafOf r = Some t /\ LeafAt inflate o (td_hasNulls x) (column_of (col x) rows) t).
      { exists t. split; [exact Ht|]. destruct (td_hasNulls x) eqn:Eh.
        - assert (p = None) as ->. { destruct p as [p|]; [|reflexivity]. rewrite (Hshallow x p Hxp) in Eh. discriminate. }
          apply Hat; reflexivity.
        - destruct (column_flags x p k Hxp Eh Hcol) as [_ E]. apply Hat; [congruence|discriminate]. }
      destruct k; try exact Hread'. contradiction.
  - apply Forall_forall. intros [x p] Hxp Hh. cbn [fst snd] in *.
    destruct (read_column bopt schema x p None Hxp) as [_ Hxk].
    destruct (Hleafs x p Hxp) as (k' & Hk' & Hcol); [intros E; rewrite (Hxk E) in Hh; discriminate|].
    apply (column_flags x p k' Hxp Hh Hcol).
Qed.
End Stripe.

(** ** The file *)
Lemma zlen_concat_in {A} (l : list A) ls : In l ls -> zlen l <= zlen (concat ls).
Proof.
  induction ls as [|m ls IH]; intros H; [destruct H|]. cbn [concat]. rewrite zlen_app.
  pose proof (zlen_nonneg m). pose proof (zlen_nonneg (concat ls)). destruct H as [->|H]; [lia|]. specialize (IH H). lia.
Qed.
Lemma Numbered_NoDup t n : Numbered n t -> NoDup (map td_id (flatten t)).
Proof. intros H. rewrite (Numbered_flat _ _ H). apply count_up_NoDup. Qed.

Lemma orc_batches inflate bopt schema xs file r :
  orc_file orc_supported (fun d => d <> []) inflate bopt schema xs file r ->
  supported (readerOpts r) -> zlen file < 2 ^ 62 -> zlen (concat (map snd xs)) < 2 ^ 62 ->
  foreign_schema bopt schema = true -> IsInclude bopt 0 = true -> RowSize bopt <> 0 ->
  shallow bopt schema -> no_floats bopt schema ->
  Forall (fun x => steady bopt schema (fst x) /\ no_bloom (fst x) /\ well_shaped bopt schema (snd x)) xs ->
  exists x, openBatches inflate bopt file = Ok (r, x) /\ IsInclude bopt (td_id schema) = true /\
    flagged (fr_hasNulls r) schema /\ NoDup (map td_id (flatten schema)) /\
    SimW inflate (readerOpts r) bopt schema x (opened (map snd xs)).
Proof.
  intros (Hopen & Hpre & Hnodes & Hflags & Hrows & Hst) Hsup Hf Hn Hread Hinc Hrow Hsh Hnf Hxs.
  assert (Hnum : Numbered 0 schema) by (apply preorder_Numbered; intros p x Hp; rewrite Z.add_0_l; apply Hpre; exact Hp).
  assert (Hall : exists ys ss,
    initStripes inflate unmarshalSF (fr_kind r) file (fr_stripes r) = Ok ys /\
    newStripes inflate (readerOpts r) (fr_nodes r) (fr_hasNulls r) bopt file (fr_stripes r) ys = Ok ss /\
    Forall2 (SimS inflate (readerOpts r) bopt schema) ss (map newStripeR (map snd xs))).
  { assert (Hle : Forall (fun x : stripeFooter * list (row value) => zlen (snd x) < 2 ^ 62) xs).
    { apply Forall_forall. intros x Hx. pose proof (zlen_concat_in (snd x) (map snd xs) (in_map _ _ _ Hx)). lia. }
    rewrite Hflags. clear Hopen Hrows Hn Hflags. revert Hxs Hle. induction Hst as [|i [sf rows] is xs Hi Hst IH]; intros Hxs Hle.
    { exists [], []. split; [reflexivity|]. split; [reflexivity|]. constructor. }
    inversion Hxs as [|? ? (X1 & X2 & X3) Hxs']; subst. inversion Hle as [|? ? Hle0 Hle']; subst. cbn [fst snd] in *.
    destruct (IH Hxs' Hle') as (ys & ss & E1 & E2 & E3). clear IH.
    destruct (stripe_footer inflate (readerOpts r) Hsup file Hf schema bopt i sf rows Hi X2) as (F1 & F2 & F3).
    destruct (stripe_reader inflate (readerOpts r) Hsup file Hf schema Hnum (fr_nodes r) Hnodes bopt Hinc Hread Hsh Hnf i sf rows Hi X2 X1 X3) as (tr & G1 & G2).
    cbn [readerOpts CompressionKind] in F1.
    eexists (_ :: ys), (_ :: ss). cbn [initStripes newStripes map snd]. pose proof (zlen_nonneg rows).
    assert (NumberOfRows i =? 0 = false) as ->. { rewrite F2. destruct rows; [contradiction|]. unfold zlen. cbn [length]. lia. }
    rewrite F1. cbn [rbind]. rewrite E1. cbn [rbind]. split; [reflexivity|]. rewrite G1. cbn [rbind]. rewrite E2. cbn [rbind]. split; [reflexivity|].
    constructor; [|exact E3]. unfold SimS. cbn [newStripeR s_rows s_cursor s_pos sr_rows sr_cursor sr_tree].
    split; [exact F2|]. split; [reflexivity|]. split; [reflexivity|]. split; [lia|]. split; [exact Hle0|]. split.
    - apply Forall_forall. intros [t p] Hp. eapply Forall_impl; [|exact (X3 t p Hp)]. intros q Hq. apply Hq.
    - exists tr. split; [reflexivity|]. exact G2. }
  destruct Hall as (ys & ss & E1 & E2 & E3).
  eexists. split.
  { apply openBatches_ok. rewrite Hopen. cbn [rbind]. unfold CreateBatchReader. destruct (Z.eqb_spec (RowSize bopt) 0); [contradiction|].
    rewrite E1. cbn [rbind]. rewrite E2. cbn [rbind]. reflexivity. }
  split; [rewrite (Hpre [] schema eq_refl); destruct schema; exact Hinc|]. split.
  { intros x Hx. rewrite Hflags. destruct (nth_id schema Hnum x Hx) as [_ Hnx]. apply map_nth_error. exact Hnx. }
  split; [eapply Numbered_NoDup; exact Hnum|].
  unfold SimW. cbn [br_stripes br_index br_total br_cursor opened b_stripes b_index b_total b_cursor].
  split; [exact E3|]. split; [reflexivity|]. split; [exact Hrows|reflexivity].
Qed.
Lemma orc_file_rows P Q inflate bopt schema xs file r : orc_file P Q inflate bopt schema xs file r ->
  Forall (fun x => steady bopt schema (fst x) /\ no_bloom (fst x) /\ well_shaped bopt schema (snd x)) xs ->
  Forall (fun l => l <> []) (map snd xs) /\
  Forall (fun q => single (col (fst q)) (concat (map snd xs))) (columns_read bopt None schema).
Proof.
  intros (_ & _ & _ & _ & _ & Hst) Hxs. split.
  - clear Hxs. induction Hst as [|i [sf rows] is xs Hi Hst IH]; cbn [map snd]; constructor; [apply Hi|exact IH].
  - apply Forall_forall. intros [t p] Hp. cbn [fst]. apply Forall_forall. intros x Hx. apply in_concat in Hx. destruct Hx as (l & Hl & Hx).
    apply in_map_iff in Hl. destruct Hl as (y & <- & Hy). rewrite Forall_forall in Hxs. destruct (Hxs y Hy) as (_ & _ & Hw).
    specialize (Hw t p Hp). rewrite Forall_forall in Hw. apply (Hw x Hx).
Qed.

(** ** Streams the readers do not know *)
Lemma initStream_kind file c s st c' : InitStream file c s st = Ok c' -> cr_kind c' = cr_kind c.
Proof.
  unfold InitStream. destruct (st_kind s =? sPRESENT).
  { destruct (cr_kind c) eqn:E; try (destruct (cr_hasNulls c); [|discriminate]); intros H; injection H as <-; exact E. }
  destruct (st_kind s =? sDATA).
  { destruct (dataReader (cr_kind c) _); [|discriminate]. intros H. injection H as <-. reflexivity. }
  destruct (cr_kind c) eqn:E; try discriminate; try (destruct (st_kind s =? _); [|discriminate]); intros H; injection H as <-; exact E.
Qed.
(** A reader that would refuse stream [s], and goes on to. *)
Definition refuses (s : strm) (r : anyR) : Prop :=
  match r with RCol c => cr_kind c <> KByte | RDict _ => st_kind s <> 3 | _ => True end.
Lemma refuses_stays inflate o file s r s0 st0 r' : initOne inflate o file r s0 st0 = Ok r' -> refuses s r -> refuses s r'.
Proof.
  unfold initOne. destruct (st_kind s0 =? 6); destruct r as [c|d|y iy|h y iy]; cbn [any_InitIndex any_InitStream]; intros H Hr;
    apply rbind_inv in H; destruct H as (z & Hz & H); match type of H with Ok ?q = _ => assert (r' = q) as -> by congruence end; cbn [refuses] in *; try exact Hr.
  - unfold InitIndex in Hz. apply rbind_inv in Hz. destruct Hz as (i & _ & Hz). injection Hz as <-. exact Hr.
  - rewrite (initStream_kind _ _ _ _ _ Hz). exact Hr.
Qed.
Lemma initAll_unknown inflate o file s st : ~ In (st_kind s) [0; 1; 2; 5; 6] ->
  forall l rs rs', In (s, st) l -> (exists r, nth_error rs (Z.to_nat (st_column s)) = Some (Some r) /\ refuses s r) ->
  initAll inflate o file rs l <> Ok rs'.
Proof.
  intros Hs. induction l as [|[s0 st0] l IH]; intros rs rs' Hin (r1 & Hr1 & Hk1) H; [destruct Hin|].
  cbn [initAll] in H. destruct Hin as [E|Hin].
  - assert (s0 = s) as -> by congruence. assert (st0 = st) as -> by congruence. rewrite Hr1 in H. apply rbind_inv in H.
    destruct H as (c2 & H & _). cbn [In] in Hs. assert (st_kind s =? 6 = false) as E6 by lia. rewrite E6 in H.
    assert (st_kind s =? sPRESENT = false) as E0 by lia. assert (st_kind s =? sDATA = false) as E1 by lia.
    assert (st_kind s =? sLENGTH = false) as E2 by lia. assert (st_kind s =? sSECONDARY = false) as E5 by lia.
    destruct r1 as [c|d|y iy|h y iy]; cbn [any_InitStream refuses] in *; apply rbind_inv in H; destruct H as (z & H & _).
    + unfold InitStream in H. rewrite E0, E1, E2, E5 in H. destruct (cr_kind c) eqn:Ek; try discriminate. congruence.
    + unfold dict_InitStream in H. assert (st_kind s =? 3 = false) as E3 by lia. rewrite E0, E1, E2, E3 in H. discriminate.
    + unfold list_InitStream in H. rewrite E0, E2 in H. discriminate.
    + unfold list_InitStream in H. rewrite E0, E2 in H. discriminate.
  - destruct (nth_error rs (Z.to_nat (st_column s0))) as [[c0|]|] eqn:E0; [|apply (IH rs rs' Hin); eauto|discriminate].
    fold (initOne inflate o file c0 s0 st0) in H.
    apply rbind_inv in H. destruct H as (c2 & H2 & H). apply (IH _ rs' Hin) in H; [exact H|].
    destruct (Nat.eq_dec (Z.to_nat (st_column s0)) (Z.to_nat (st_column s))) as [E|E].
    + rewrite E in *. exists c2. split; [apply OpenTreeP.set_nth_same; apply nth_error_Some; congruence|].
      assert (c0 = r1) as -> by congruence. eapply refuses_stays; eassumption.
    + exists r1. split; [|exact Hk1]. rewrite OpenTreeP.set_nth_other by exact E. exact Hr1.
Qed.
Lemma newReaders_included bopt : forall ns hs encs i rs j n, newReaders bopt i ns hs encs = Ok rs -> (length ns <= length hs)%nat ->
  nth_error ns j = Some n -> IsInclude bopt (i + Z.of_nat j) = true ->
  exists e h r, nth_error encs j = Some e /\ nth_error rs j = Some (Some r) /\ newAnyR (n_kind n) e h = Ok r.
Proof.
  induction ns as [|n0 ns IH]; intros hs encs i rs j n H Hl Hn Hi; [destruct j; discriminate|].
  destruct hs as [|h hs]; [cbn in Hl; lia|]. cbn [newReaders] in H. apply rbind_inv in H. destruct H as (r0 & H0 & H).
  apply rbind_inv in H. destruct H as (rs0 & H1 & H). assert (rs = r0 :: rs0) as -> by congruence. destruct j as [|j].
  - cbn [nth_error] in Hn. assert (n0 = n) as -> by congruence. change (Z.of_nat 0) with 0 in Hi. rewrite Z.add_0_r in Hi. rewrite Hi in H0.
    destruct encs as [|e encs]; [discriminate|]. apply rbind_inv in H0. destruct H0 as (k & Hk & H0). exists e, h, k.
    split; [reflexivity|]. split; [cbn [nth_error]; congruence|exact Hk].
  - cbn [nth_error] in Hn |- *. destruct (IH _ _ _ _ j n H1) as (e & h' & r & He & Hr & Hn'); [cbn in Hl; lia|exact Hn| |].
    { replace (i + 1 + Z.of_nat j) with (i + Z.of_nat (S j)) by lia. exact Hi. }
    exists e, h', r. split; [|split; assumption]. destruct encs; [destruct j; discriminate|exact He].
Qed.
Lemma count_up_nth n : forall a m x, nth_error (count_up a n) m = Some x -> x = a + Z.of_nat m.
Proof.
  induction n as [|n IH]; intros a [|m] x H; cbn [count_up nth_error] in H; try discriminate; [assert (x = a) by congruence; lia|].
  apply IH in H. lia.
Qed.
Lemma starts_fst ix d l : map fst (streamStarts ix d l) = l.
Proof.
  revert ix d. induction l as [|s l IH]; intros ix d; [reflexivity|]. cbn [streamStarts]. destruct (st_kind s =? 6); cbn [map fst]; rewrite IH; reflexivity.
Qed.
Lemma newStripes_each inflate o nodes hn bopt file : forall l ys ss j i y, newStripes inflate o nodes hn bopt file l ys = Ok ss ->
  nth_error l j = Some i -> nth_error ys j = Some y -> exists s, newStripeRd inflate o nodes hn bopt file (NumberOfRows i) y = Ok s.
Proof.
  induction l as [|i0 l IH]; intros [|y0 ys] ss [|j] i y H Hi Hy; try discriminate; cbn [newStripes nth_error] in *;
    apply rbind_inv in H; destruct H as (s & Hs & H); apply rbind_inv in H; destruct H as (ss' & H1 & H).
  - exists s. assert (i0 = i) as -> by congruence. assert (y0 = y) as -> by congruence. exact Hs.
  - eapply IH; eassumption.
Qed.
Lemma initStripes_each inflate k file : forall l ys, initStripes inflate unmarshalSF k file l = Ok ys ->
  length ys = length l /\ forall j i y, nth_error l j = Some i -> nth_error ys j = Some y -> openStripe inflate unmarshalSF k file i = Ok y.
Proof.
  induction l as [|i0 l IH]; intros ys H; cbn [initStripes] in H.
  { assert (ys = []) as -> by congruence. split; [reflexivity|]. intros [|j]; discriminate. }
  destruct (_ =? 0); [discriminate|]. apply rbind_inv in H. destruct H as (y0 & Hy0 & H). apply rbind_inv in H. destruct H as (ys0 & H1 & H).
  assert (ys = y0 :: ys0) as -> by congruence. destruct (IH _ H1) as [Hl Hall]. split; [cbn [length]; congruence|].
  intros [|j] i y Hi Hy; cbn [nth_error] in *; [congruence|eapply Hall; eassumption].
Qed.

Lemma unknown_refused P Q inflate bopt schema xs file r sf rows s t q : orc_file P Q inflate bopt schema xs file r ->
  supported (readerOpts r) -> zlen file < 2 ^ 62 -> In (sf, rows) xs -> In s (sf_streams sf) ->
  IsInclude bopt (st_column s) = true -> In t (flatten schema) -> td_id t = st_column s -> ~ In (st_kind s) (known_streams t) -> td_kind t <> BYTE ->
  openBatches inflate bopt file <> Ok q.
Proof.
  intros (Hopen & Hpre & Hnodes & Hflags & _ & Hst) Hsup Hf Hx Hs Hi Ht Hid Hk Htk H.
  assert (Hnum : Numbered 0 schema) by (apply preorder_Numbered; intros p x Hp; rewrite Z.add_0_l; apply Hpre; exact Hp).
  apply openBatches_ok in H. rewrite Hopen in H. cbn [rbind] in H. apply rbind_inv in H. destruct H as (ys & Hys & H).
  apply rbind_inv in H. destruct H as (ss & Hss & _). unfold CreateBatchReader in Hys. destruct (_ =? 0); [discriminate|].
  destruct (initStripes_each _ _ _ _ _ Hys) as [Hlen Heach].
  apply In_nth_error in Hx. destruct Hx as (j & Hj). pose proof (Forall2_nth _ _ _ Hst j) as Hj2. rewrite Hj in Hj2.
  destruct (nth_error (fr_stripes r) j) as [i|] eqn:Ei; [|contradiction].
  destruct (nth_error ys j) as [[encs starts]|] eqn:Ey.
  2: { apply nth_error_None in Ey. assert (j < length (fr_stripes r))%nat; [apply nth_error_Some; congruence|lia]. }
  pose proof (Heach j i _ Ei Ey) as Ho. destruct (newStripes_each _ _ _ _ _ _ _ _ _ j i _ Hss Ei Ey) as (sr & Hsr). clear Heach Hss Hys.
  destruct Hj2 as (_ & _ & _ & _ & Hrange & Hcols & (pre & enc & post & bs & Hfile & Hpl & Hfl & Hfr & Hu) & _).
  destruct (part file Hf pre enc post Hfile) as (E1 & E2 & E3).
  unfold openStripe in Ho. rewrite <- Hpl, E3, Hfl, E2, E1 in Ho. pose proof (zlen_nonneg pre). destruct (Z.ltb_spec (zlen pre) 0); [lia|].
  change (fr_kind r) with (CompressionKind (readerOpts r)) in Ho. rewrite (unframe inflate (readerOpts r) Hsup _ _ _ Hfr) in Ho. cbn [rbind] in Ho. rewrite Hu in Ho. cbn [rbind] in Ho.
  assert (Henc : encs = map td_enc (flatten schema)) by congruence.
  assert (Hfst : map fst starts = sf_streams sf).
  { match type of Ho with Ok (_, ?l) = _ => assert (starts = l) as -> by congruence end. apply starts_fst. }
  rewrite <- Hfst in Hs. apply in_map_iff in Hs. destruct Hs as ([s' st] & E & Hs). cbn [fst] in E. subst s'.
  unfold newStripeRd in Hsr. cbn [fst snd] in Hsr. apply rbind_inv in Hsr. destruct Hsr as (rs & Hrs & Hsr). apply rbind_inv in Hsr. destruct Hsr as (rs' & Hall & _).
  assert (Hcol : 0 <= td_id t /\ nth_error (flatten schema) (Z.to_nat (td_id t)) = Some t).
  { apply In_nth_error in Ht. destruct Ht as (m & Hm). pose proof (Numbered_flat _ _ Hnum) as Hc.
    assert (Hidm : td_id t = Z.of_nat m).
    { pose proof (map_nth_error td_id _ _ Hm) as Hn. rewrite Hc in Hn. apply count_up_nth in Hn. lia. }
    split; [lia|]. rewrite Hidm, Nat2Z.id. exact Hm. }
  destruct Hcol as [Hid0 Hn]. pose proof (Forall2_nth _ _ _ Hnodes (Z.to_nat (td_id t))) as Hnode. rewrite Hn in Hnode.
  destruct (nth_error (fr_nodes r) (Z.to_nat (td_id t))) as [n|] eqn:En; [|contradiction]. destruct Hnode as [Hnk _].
  destruct (newReaders_included bopt _ _ _ _ _ (Z.to_nat (td_id t)) n Hrs) as (e & h & c & He & Hr1 & Hr2).
  { rewrite Hflags, map_length, (Forall2_len _ _ _ Hnodes). lia. }
  { exact En. }
  { rewrite Z2Nat.id by exact Hid0. rewrite Hid. exact Hi. }
  assert (Hte : e = td_enc t). { rewrite Henc, (map_nth_error _ _ _ Hn) in He. congruence. }
  rewrite Hnk, Hte in Hr2. unfold known_streams in Hk. rewrite in_app_iff in Hk.
  revert Hall. apply (initAll_unknown inflate (readerOpts r) file s st ltac:(tauto)); [exact Hs|].
  rewrite <- Hid. exists c. split; [exact Hr1|]. clear - Hr2 Hk Htk. unfold newAnyR, readerKind in Hr2.
  destruct (td_kind t); try contradiction; cbn [rbind] in Hr2;
    repeat match type of Hr2 with context [if ?b then _ else _] => destruct b eqn:? end; cbn [rbind] in Hr2; try discriminate;
    match type of Hr2 with Ok ?q = _ => assert (c = q) as -> by congruence end; cbn [refuses newColR cr_kind]; try discriminate; try exact I.
  intros E. apply Hk. right. left. congruence.
Qed.
