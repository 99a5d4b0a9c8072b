(** The implementation of the protobuf messages in Model/Wire.v is invertible. *)
From Coq Require Import ZifyBool ZifyNat.
From Verif.Model Require Import Go Chunk Stream Schema Rows File Column Wire.
From Verif.Spec Require Import FileSpec AssemblySpec.
From Verif.Proofs Require Import Base.

Lemma varint_ok fuel : forall x r, 0 <= x < 128 ^ Z.of_nat fuel -> (1 <= fuel)%nat ->
  unvarint fuel (varint fuel x ++ r) = Some (x, r).
Proof.
  induction fuel as [|f IH]; intros x r Hx Hf; [lia|]. cbn [varint unvarint]. destruct (Z.ltb_spec x 128) as [H|H].
  - cbn [app]. replace (x <? 128) with true by lia. reflexivity.
  - cbn [app]. pose proof (Z.mod_pos_bound x 128 ltac:(lia)). replace (x mod 128 + 128 <? 128) with false by lia.
    destruct f as [|f]; [change (Z.of_nat 1) with 1 in Hx; lia|].
    rewrite IH.
    + f_equal. f_equal. pose proof (Z.div_mod x 128 ltac:(lia)). lia.
    + rewrite Nat2Z.inj_succ, Z.pow_succ_r in Hx by lia. split; [apply Z.div_pos; lia|]. apply Z.div_lt_upper_bound; lia.
    + lia.
Qed.
Lemma uv_ok x r : 0 <= x < W64 -> unuv (uv x ++ r) = Some (x, r).
Proof. intros H. apply varint_ok; [|lia]. change (128 ^ Z.of_nat 10) with 1180591620717411303424. lia. Qed.
Lemma varint_ne fuel x : (1 <= fuel)%nat -> varint fuel x <> [].
Proof. destruct fuel; [lia|]. intros _. cbn [varint]. destruct (x <? 128); discriminate. Qed.
Lemma varint_bytes fuel : forall x, 0 <= x < 128 ^ Z.of_nat fuel -> forallb isByte (varint fuel x) = true.
Proof.
  induction fuel as [|f IH]; intros x Hx; [reflexivity|]. cbn [varint]. destruct (Z.ltb_spec x 128) as [H|H].
  - cbn. unfold isByte. lia.
  - cbn [forallb]. apply andb_true_iff. split; [pose proof (Z.mod_pos_bound x 128 ltac:(lia)); unfold isByte; lia|].
    apply IH. rewrite Nat2Z.inj_succ, Z.pow_succ_r in Hx by lia. split; [apply Z.div_pos; lia|]. apply Z.div_lt_upper_bound; lia.
Qed.
Lemma varint_length fuel x : (length (varint fuel x) <= fuel)%nat.
Proof. revert x. induction fuel as [|f IH]; intros x; [cbn; lia|]. cbn [varint]. destruct (x <? 128); cbn [length]; [lia|]. specialize (IH (x / 128)). lia. Qed.
Lemma le_ok n : forall x, 0 <= x < 256 ^ Z.of_nat n -> unle (le n x) = x.
Proof.
  induction n as [|n IH]; intros x Hx; cbn [le unle]; [change (256 ^ Z.of_nat 0) with 1 in Hx; lia|].
  rewrite IH. - pose proof (Z.div_mod x 256 ltac:(lia)). lia.
  - rewrite Nat2Z.inj_succ, Z.pow_succ_r in Hx by lia. split; [apply Z.div_pos; lia|]. apply Z.div_lt_upper_bound; lia.
Qed.
Lemma le_length n : forall x, length (le n x) = n.
Proof. induction n as [|n IH]; intros x; cbn [le length]; [reflexivity|]. rewrite IH. reflexivity. Qed.
Lemma tag_ok n t r : 0 <= n < 536870912 -> 0 <= t < 8 -> unuv (uv (8 * n + t) ++ r) = Some (8 * n + t, r) /\
  (8 * n + t) / 8 = n /\ (8 * n + t) mod 8 = t.
Proof.
  intros Hn Ht. split; [apply uv_ok; lia|]. replace (8 * n + t) with (t + n * 8) by lia.
  rewrite Z.div_add, Z.mod_add, Z.div_small, Z.mod_small by lia. lia.
Qed.
Lemma decField_ok f r : fieldOk f = true -> decField (encField f ++ r) = Some (f, r).
Proof.
  unfold fieldOk, isU64. destruct f as [n v|n v|n b]; intros H; cbn [encField]; rewrite <- !app_assoc; unfold decField.
  - destruct (tag_ok n 0 (uv v ++ r) ltac:(lia) ltac:(lia)) as (-> & _ & _) || idtac.
    rewrite Z.add_0_r || idtac.
    replace (8 * n) with (8 * n + 0) by lia.
    destruct (tag_ok n 0 (uv v ++ r) ltac:(lia) ltac:(lia)) as (-> & -> & ->). rewrite uv_ok by lia. reflexivity.
  - destruct (tag_ok n 1 (le 8 v ++ r) ltac:(lia) ltac:(lia)) as (-> & -> & ->).
    replace (zlen (le 8 v ++ r) <? 8) with false by (rewrite zlen_app; unfold zlen at 1; rewrite le_length; pose proof (zlen_nonneg r); lia).
    replace 8%nat with (length (le 8 v)) at 1 by apply le_length. rewrite firstn_app, Nat.sub_diag, firstn_all, firstn_O, app_nil_r, le_ok.
    + rewrite skipn_app, skipn_all2 by (rewrite le_length; lia). rewrite le_length. reflexivity.
    + change (256 ^ Z.of_nat 8) with W64. lia.
  - destruct (tag_ok n 2 (uv (zlen b) ++ b ++ r) ltac:(lia) ltac:(lia)) as (-> & -> & ->).
    rewrite uv_ok by lia. replace (zlen (b ++ r) <? zlen b) with false by (rewrite zlen_app; pose proof (zlen_nonneg r); lia).
    unfold ztake, zdrop, zlen. rewrite Nat2Z.id, firstn_app, Nat.sub_diag, firstn_all, firstn_O, app_nil_r.
    rewrite skipn_app, skipn_all, Nat.sub_diag. reflexivity.
Qed.
Lemma encField_ne f : encField f <> [].
Proof.
  assert (forall x l, uv x ++ l <> []).
  { intros x l H. apply app_eq_nil in H. destruct H as [H _]. exact (varint_ne 10 x ltac:(lia) H). }
  destruct f; cbn [encField]; auto.
Qed.
Lemma decFields_ok fs : forall fuel, forallb fieldOk fs = true -> (length fs <= fuel)%nat ->
  decFields fuel (concat (map encField fs)) = Ok fs.
Proof.
  induction fs as [|f t IH]; intros fuel H Hf; [destruct fuel; reflexivity|]. cbn [forallb] in H. apply andb_true_iff in H. destruct H as [H1 H2].
  cbn [map concat]. destruct fuel as [|fuel]; [cbn in Hf; lia|]. cbn [decFields].
  destruct (encField f ++ concat (map encField t)) eqn:E; [exfalso; apply app_eq_nil in E; destruct E as [E _]; exact (encField_ne f E)|].
  rewrite <- E, decField_ok by exact H1. rewrite IH; [reflexivity|exact H2|cbn in Hf; lia].
Qed.
Lemma fields_length fs : (length fs <= length (concat (map encField fs)))%nat.
Proof.
  induction fs as [|f t IH]; [cbn; lia|]. cbn [map concat length]. rewrite app_length.
  pose proof (encField_ne f) as H. destruct (encField f); [congruence|]. cbn [length]. lia.
Qed.
Lemma decMsg_ok fs b : encMsg fs = Ok b -> decMsg b = Ok fs.
Proof.
  unfold encMsg, decMsg. destruct (forallb fieldOk fs) eqn:E; [|discriminate]. intros H. assert (b = concat (map encField fs)) as -> by congruence.
  apply decFields_ok; [exact E|apply fields_length].
Qed.

(** Packed integers. *)
Lemma unpackF_ok l : forall fuel, forallb isU64 l = true -> (length l <= fuel)%nat -> unpackF fuel (packed l) = Ok l.
Proof.
  induction l as [|x t IH]; intros fuel H Hf; [destruct fuel; reflexivity|]. cbn [forallb] in H. apply andb_true_iff in H. destruct H as [H1 H2].
  unfold packed. cbn [map concat]. fold (packed t). destruct fuel as [|fuel]; [cbn in Hf; lia|]. cbn [unpackF].
  destruct (uv x ++ packed t) eqn:E; [exfalso; apply app_eq_nil in E; destruct E as [E _]; exact (varint_ne 10 x ltac:(lia) E)|].
  rewrite <- E, uv_ok by (unfold isU64 in H1; lia). rewrite IH; [reflexivity|exact H2|cbn in Hf; lia].
Qed.
Lemma packed_length l : (length l <= length (packed l))%nat.
Proof.
  induction l as [|x t IH]; [cbn; lia|]. unfold packed. cbn [map concat length]. fold (packed t). rewrite app_length.
  pose proof (varint_ne 10 x ltac:(lia)) as H. unfold uv. destruct (varint 10 x); [congruence|]. cbn [length]. lia.
Qed.
Lemma unpack_ok l : forallb isU64 l = true -> unpack (packed l) = Ok l.
Proof. intros H. apply unpackF_ok; [exact H|apply packed_length]. Qed.

Lemma unzz_zz x : unzz (zz x) = x.
Proof.
  unfold unzz, zz. destruct (Z.ltb_spec x 0).
  - replace (-2 * x - 1) with (1 + (- x - 1) * 2) by lia. rewrite Z.mod_add, Z.div_add by lia.
    change (1 mod 2) with 1. change (1 / 2) with 0. cbn [Z.eqb]. lia.
  - replace (2 * x) with (x * 2) by lia. rewrite Z.mod_mul, Z.div_mul by lia. reflexivity.
Qed.

(** Accessors on messages put together from parts. *)
Lemma getV_fold n fs : forall a, fold_left (fun a f => match f with WVar m v => if m =? n then Some v else a | _ => a end) fs a
  = match getV n fs with Some v => Some v | None => a end.
Proof.
  unfold getV. induction fs as [|f t IH]; intros a; [reflexivity|]. cbn [fold_left]. rewrite IH. symmetry. rewrite IH. clear IH.
  destruct (fold_left _ t None); [reflexivity|]. destruct f as [m v| |]; try reflexivity. destruct (m =? n); reflexivity.
Qed.
Lemma getV_app n a b : getV n (a ++ b) = match getV n b with Some v => Some v | None => getV n a end.
Proof. unfold getV at 1. rewrite fold_left_app, getV_fold. reflexivity. Qed.
Lemma getV_bytes n m l : getV n (map (WBytes m) l) = None.
Proof. unfold getV. induction l as [|x t IH]; [reflexivity|exact IH]. Qed.
Lemma allB_app n a b : allB n (a ++ b) = allB n a ++ allB n b.
Proof. apply flat_map_app. Qed.
Lemma allB_bytes n l : allB n (map (WBytes n) l) = l.
Proof. unfold allB. induction l as [|x t IH]; [reflexivity|]. cbn [map flat_map]. rewrite Z.eqb_refl, IH. reflexivity. Qed.
Lemma allB_other n m l : m <> n -> allB n (map (WBytes m) l) = [].
Proof. intros H. unfold allB. induction l as [|x t IH]; [reflexivity|]. cbn [map flat_map]. rewrite IH. replace (m =? n) with false by lia. reflexivity. Qed.

Lemma mapM_inv {A B} (f : A -> res B) (g : B -> res A) l : forall l', (forall x y, In x l -> f x = Ok y -> g y = Ok x) ->
  mapM f l = Ok l' -> mapM g l' = Ok l.
Proof.
  induction l as [|x t IH]; intros l' Hi H; cbn [mapM] in H; [assert (l' = []) as -> by congruence; reflexivity|].
  apply rbind_inv in H. destruct H as (y & Hy & H). apply rbind_inv in H. destruct H as (ys & Hys & H).
  assert (l' = y :: ys) as -> by congruence. cbn [mapM]. rewrite (Hi x y (or_introl eq_refl) Hy). cbn [rbind].
  rewrite (IH ys); [reflexivity| |exact Hys]. intros a b Ha. apply Hi. right. exact Ha.
Qed.

Lemma stream_ok' s b : encStream s = Ok b -> decStream b = Ok s.
Proof. intros H. apply decMsg_ok in H. unfold decStream. rewrite H. destruct s. reflexivity. Qed.
Lemma encoding_ok k b : encEncoding k = Ok b -> decEncoding b = Ok k.
Proof. intros H. apply decMsg_ok in H. unfold decEncoding. rewrite H. reflexivity. Qed.
Lemma SF_ok x b : marshalSF x = Ok b -> unmarshalSF b = Ok x.
Proof.
  unfold marshalSF, unmarshalSF. intros H. apply rbind_inv in H. destruct H as (ss & Hs & H). apply rbind_inv in H. destruct H as (cs & Hc & H).
  apply decMsg_ok in H. rewrite H. cbn [rbind]. rewrite !allB_app, !allB_bytes, !allB_other, app_nil_r by lia. cbn [app].
  rewrite (mapM_inv encStream decStream _ _ (fun x y _ => stream_ok' x y) Hs).
  rewrite (mapM_inv encEncoding decEncoding _ _ (fun x y _ => encoding_ok x y) Hc). destruct x. reflexivity.
Qed.
Lemma numKind_ok k : numKind (kindNum k) = Ok k. Proof. destruct k; reflexivity. Qed.
Lemma PS_ok p b : marshalPS p = Ok b -> unmarshalPS b = Ok p.
Proof.
  unfold marshalPS, unmarshalPS. intros H. apply decMsg_ok in H. rewrite H. cbn [rbind]. destruct p as [fl k bs ml]. cbn [p_metadataLength p_footerLength p_compression p_blockSize] in *.
  destruct (Z.eqb_spec ml 0) as [->|Hm]; cbn -[kindNum]; rewrite numKind_ok; reflexivity.
Qed.
Lemma uv_len x : zlen (uv x) <= 10.
Proof. unfold zlen, uv. pose proof (varint_length 10 x). lia. Qed.
Lemma PS_short p b : marshalPS p = Ok b -> zlen b < 256.
Proof.
  unfold marshalPS, encMsg. destruct (forallb fieldOk _); [|discriminate]. intros H.
  match type of H with Ok ?x = _ => assert (b = x) as -> by congruence end. clear H.
  pose proof (uv_len (p_footerLength p)). pose proof (uv_len (kindNum (p_compression p))). pose proof (uv_len (p_blockSize p)).
  pose proof (uv_len (p_metadataLength p)).
  destruct (p_metadataLength p =? 0); cbn [app pack map concat encField]; rewrite !zlen_app;
    (repeat match goal with |- context[zlen (uv (8 * ?a + ?b))] => pose proof (uv_len (8 * a + b)); generalize dependent (zlen (uv (8 * a + b))); intros end);
    (repeat match goal with |- context[zlen (uv (8 * ?a))] => pose proof (uv_len (8 * a)); generalize dependent (zlen (uv (8 * a))); intros end);
    change (zlen (packed [0; 12])) with 2; change (zlen [79; 82; 67]) with 3; change (zlen (uv 2)) with 1; change (zlen (uv 3)) with 1; cbn [zlen length]; change (zlen (@nil Z)) with 0; lia.
Qed.
Lemma numTkind_ok k : numTkind (tkindNum k) = Ok k. Proof. destruct k; reflexivity. Qed.
Lemma allB_pack n l : concat (allB n (pack n l)) = packed l.
Proof. destruct l as [|x t]; [reflexivity|]. cbn [pack allB flat_map app]. rewrite Z.eqb_refl. cbn [app concat]. apply app_nil_r. Qed.
Lemma allB_pack_other n m l : m <> n -> allB n (pack m l) = [].
Proof. intros H. destruct l as [|x t]; [reflexivity|]. cbn [pack allB flat_map]. replace (m =? n) with false by lia. reflexivity. Qed.
Lemma getV_pack n m l : getV n (pack m l) = None. Proof. destruct l; reflexivity. Qed.
Lemma type_ok t b : encType t = Ok b -> decType b = Ok t.
Proof.
  unfold encType, decType. destruct (forallb isU64 (t_sub t)) eqn:E; [|discriminate]. intros H. apply decMsg_ok in H. rewrite H. cbn [rbind].
  rewrite !getV_app, getV_bytes, getV_pack. change (getV 1 [WVar 1 (tkindNum (t_kind t))]) with (Some (tkindNum (t_kind t))). cbn [orZ]. rewrite numTkind_ok. cbn [rbind].
  rewrite !allB_app, allB_bytes, allB_other by lia. rewrite (allB_pack_other 3 2) by lia. rewrite app_nil_r.
  change (allB 2 [WVar 1 (tkindNum (t_kind t))]) with (@nil (list Z)). change (allB 3 [WVar 1 (tkindNum (t_kind t))]) with (@nil (list Z)).
  cbn [app]. rewrite allB_pack, unpack_ok by exact E. destruct t. reflexivity.
Qed.
Lemma info_ok i b : encInfo i = Ok b -> decInfo b = Ok i.
Proof. intros H. apply decMsg_ok in H. unfold decInfo. rewrite H. destruct i. reflexivity. Qed.
Lemma detail_ok d b : detailOk d = true -> encMsg (snd (detailFields d)) = Ok b -> decDetail (fst (detailFields d)) b = Ok d.
Proof.
  intros Hd H. apply decMsg_ok in H. unfold decDetail. rewrite H. cbn [rbind].
  destruct d as [mn mx s|mn mx s|mn mx s lo up|c|mn mx|s|mn mx mnu mxu|mn mx s]; cbn [detailFields fst snd] in *;
    try (cbn -[unzz zz]; rewrite ?unzz_zz; reflexivity).
  - destruct mn, mx, lo, up; cbn -[unzz zz]; rewrite ?unzz_zz; reflexivity.
  - rewrite allB_pack, unpack_ok by (cbn [forallb]; rewrite andb_true_r; exact Hd). reflexivity.
Qed.
Lemma stats_ok s b : cs_stray s = false -> encStats s = Ok b -> decStats b = Ok s.
Proof.
  intros Hst H. unfold encStats in H. apply rbind_inv in H. destruct H as (ds & Hds & H). rewrite Hst in H. cbn [rbind app] in H.
  apply decMsg_ok in H. unfold decStats. rewrite H. cbn [rbind].
  destruct s as [v hn bs dt st]. cbn [cs_stray cs_detail cs_values cs_hasNull cs_bytes] in *. subst st.
  destruct dt as [d|].
  - destruct (detailOk d) eqn:E; [|discriminate]. apply rbind_inv in Hds. destruct Hds as (db & Hdb & Hds).
    assert (ds = [WBytes (fst (detailFields d)) db]) as -> by congruence. clear Hds H.
    apply detail_ok in Hdb; [|exact E].
    assert (Hf : firstDetail [2; 3; 4; 5; 6; 7; 8; 9]
       (WVar 1 v :: [WBytes (fst (detailFields d)) db] ++ [WVar 10 (bool_Z hn); WVar 11 bs]) = (let! d := decDetail (fst (detailFields d)) db in Ok (Some d))).
    { destruct d; cbn -[decDetail]; reflexivity. }
    rewrite Hf, Hdb. cbn [rbind]. destruct d, hn; reflexivity.
  - assert (ds = []) as -> by congruence. destruct hn; reflexivity.
Qed.
Lemma Footer_ok f b : marshalFooter f = Ok b -> unmarshalFooter b = Ok f.
Proof.
  unfold marshalFooter, unmarshalFooter. destruct (existsb cs_stray (f_stats f)) eqn:Hst; [discriminate|]. intros H.
  apply rbind_inv in H. destruct H as (is & Hi & H). apply rbind_inv in H. destruct H as (ts & Ht & H). apply rbind_inv in H. destruct H as (ss & Hs & H).
  apply decMsg_ok in H. rewrite H. cbn [rbind]. clear H.
  set (tl := if f_stride f =? 0 then [] else [WVar 8 (f_stride f)]).
  assert (T1 : allB 3 tl = [] /\ allB 4 tl = [] /\ allB 7 tl = [] /\ getV 1 tl = None /\ getV 2 tl = None /\ getV 6 tl = None /\ orZ (getV 8 tl) = f_stride f).
  { unfold tl. destruct (Z.eqb_spec (f_stride f) 0) as [->|]; cbn; auto 10. }
  destruct T1 as (T3 & T4 & T7 & G1 & G2 & G6 & G8).
  set (hd := [WVar 1 (f_headerLength f); WVar 2 (f_contentLength f)]).
  assert (T2 : allB 3 hd = [] /\ allB 4 hd = [] /\ allB 7 hd = []) by (cbn; auto). destruct T2 as (A3 & A4 & A7).
  rewrite !allB_app, T3, T4, T7, A3, A4, A7, !allB_bytes, !allB_other by lia. rewrite !app_nil_r. cbn [allB flat_map app].
  rewrite (mapM_inv encInfo decInfo _ _ (fun x y _ => info_ok x y) Hi), (mapM_inv encType decType _ _ (fun x y _ => type_ok x y) Ht).
  rewrite (mapM_inv encStats decStats (f_stats f) ss); [|intros x y Hx; apply stats_ok; destruct (cs_stray x) eqn:E; [|reflexivity]; exfalso;
    assert (existsb cs_stray (f_stats f) = true) by (apply existsb_exists; exists x; auto); congruence|exact Hs].
  cbn [rbind]. change (WVar 6 (f_rows f) :: map (WBytes 7) ss ++ tl) with ([WVar 6 (f_rows f)] ++ map (WBytes 7) ss ++ tl).
  rewrite !getV_app, G1, G2, G6, !getV_bytes.
  destruct (getV 8 tl) as [z|] eqn:E8; cbn [orZ] in *; destruct f; cbn in *; subst; reflexivity.
Qed.
Lemma wire_ok : proto_ok wire.
Proof. split; [exact SF_ok|]. split; [exact Footer_ok|]. split; [exact PS_ok|exact PS_short]. Qed.

(** The positions of an index entry, too. *)
Lemma entry_ok e b : encEntry e = Ok b -> decPositions b = Ok (fst e).
Proof.
  unfold encEntry, decPositions. destruct (forallb isU64 (fst e)) eqn:E; [|discriminate]. intros H. apply rbind_inv in H. destruct H as (s & Hs & H).
  apply decMsg_ok in H. rewrite H. cbn [rbind]. rewrite allB_app, concat_app, allB_pack. cbn. rewrite app_nil_r. apply unpack_ok. exact E.
Qed.
Lemma index_ok l b : marshalIndex l = Ok b -> unmarshalIndex b = Ok (map fst l).
Proof.
  unfold marshalIndex, unmarshalIndex. intros H. apply rbind_inv in H. destruct H as (es & He & H). apply decMsg_ok in H. rewrite H. cbn [rbind].
  rewrite allB_bytes. clear H. revert es He. induction l as [|e t IH]; intros es He; cbn [mapM] in He; [assert (es = []) as -> by congruence; reflexivity|].
  apply rbind_inv in He. destruct He as (x & Hx & He). apply rbind_inv in He. destruct He as (xs & Hxs & He). assert (es = x :: xs) as -> by congruence.
  cbn [mapM map]. rewrite (entry_ok e x Hx). cbn [rbind]. rewrite (IH xs Hxs). reflexivity.
Qed.
