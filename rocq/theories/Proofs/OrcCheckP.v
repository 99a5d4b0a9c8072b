(** A check, for examples, that a file without compression is one of [orc_file]: columns
    of bigint, string (with or without a dictionary) and binary values, structs, and
    integer runs that are short repeats or direct. *)
From Coq Require Import ZifyBool ZifyNat.
From Verif.Model Require Import Go Chunk Stream Schema Rows Time File Column Wire Assembled.
From Verif.Spec Require Import Session Bits OrcInt ChunkSpec SchemaSpec FileSpec ColumnSpec EndSpec OrcColumn OrcFile.
From Verif.Proofs Require Import Base SchemaP OrcIntP.
Notation nonempty := (fun d : list Z => d <> []).

Definition same (a b : list Z) : bool := if list_eq_dec Z.eq_dec a b then true else false.
Lemma same_eq a b : same a b = true -> a = b.
Proof. unfold same. destruct (list_eq_dec _ _ _); [auto|discriminate]. Qed.
Definition allBytes (b : list Z) : bool := forallb (fun x => (0 <=? x) && (x <? 256)) b.
Lemma allBytes_ok b : allBytes b = true -> bytes b.
Proof. intros H. apply Forall_forall. intros x Hx. unfold allBytes in H. rewrite forallb_forall in H. specialize (H x Hx). unfold is_u8. lia. Qed.

Fixpoint parseBytes (fuel : nat) (i : list Z) : option (list Z) :=
  match fuel, i with
  | _, [] => Some []
  | S n, h :: r =>
      if (0 <=? h) && (h <? 128) then
        match r with v :: r => option_map (app (repeat v (Z.to_nat (h + 3)))) (parseBytes n r) | [] => None end
      else if (128 <=? h) && (h <? 256) && (256 - h <=? zlen r) then
        option_map (app (ztake (256 - h) r)) (parseBytes n (zdrop (256 - h) r))
      else None
  | _, _ => None
  end.
Lemma parseBytes_ok fuel : forall i xs, parseBytes fuel i = Some xs -> orc_bytes i xs.
Proof.
  induction fuel as [|n IH]; intros [|h r] xs H; cbn [parseBytes] in H; try discriminate; try (assert (xs = []) as -> by congruence; constructor).
  destruct ((0 <=? h) && (h <? 128)) eqn:E1.
  - destruct r as [|v r]; [discriminate|]. destruct (parseBytes n r) as [ys|] eqn:E; [|discriminate]. cbn [option_map] in H.
    match type of H with Some ?q = _ => assert (xs = q) as -> by congruence end. apply orc_bytes_run; [lia|apply IH; exact E].
  - destruct ((128 <=? h) && (h <? 256) && (256 - h <=? zlen r)) eqn:E2; [|discriminate].
    destruct (parseBytes n (zdrop (256 - h) r)) as [ys|] eqn:E; [|discriminate]. cbn [option_map] in H.
    match type of H with Some ?q = _ => assert (xs = q) as -> by congruence end.
    assert (Er : r = ztake (256 - h) r ++ zdrop (256 - h) r) by (symmetry; apply firstn_skipn).
    rewrite Er at 1. apply orc_bytes_literals; [lia| |apply IH; exact E].
    unfold ztake, zlen in *. rewrite firstn_length. lia.
Qed.
Definition sameBits (b : list Z) (bits : list bool) : bool :=
  match parseBytes (length b) b with
  | Some bs => (length bits <=? length (bitsOfBytes bs))%nat && (if list_eq_dec Bool.bool_dec (firstn (length bits) (bitsOfBytes bs)) bits then true else false)
  | None => false
  end.
Lemma sameBits_ok b bits : sameBits b bits = true -> orc_bits b bits.
Proof.
  unfold sameBits. destruct (parseBytes (length b) b) as [bs|] eqn:E; [|discriminate]. intros H.
  destruct (list_eq_dec _ _ _) as [Eb|]; [|rewrite andb_false_r in H; discriminate].
  exists bs, (skipn (length bits) (bitsOfBytes bs)). split; [eapply parseBytes_ok; exact E|]. rewrite <- Eb at 1. symmetry. apply firstn_skipn.
Qed.
Fixpoint parseInts (fuel : nat) (signed : bool) (i : list Z) : option (list Z) :=
  match fuel, i with
  | _, [] => Some []
  | S n, h :: _ =>
      if (h / 64 =? 0) || (h / 64 =? 1) then
        match orc_run signed i with Some (vs, r) => option_map (app vs) (parseInts n signed r) | None => None end
      else None
  | _, _ => None
  end.
Lemma parseInts_ok fuel signed : forall i xs, parseInts fuel signed i = Some xs -> orc_ints orc_supported signed i xs.
Proof.
  induction fuel as [|n IH]; intros [|h i] xs H; cbn [parseInts] in H; try discriminate; try (assert (xs = []) as -> by congruence; constructor).
  destruct ((h / 64 =? 0) || (h / 64 =? 1)) eqn:E; [|discriminate].
  destruct (orc_run signed (h :: i)) as [[vs r]|] eqn:Er; [|discriminate].
  destruct (parseInts n signed r) as [ys|] eqn:Ey; [|discriminate]. cbn [option_map] in H.
  match type of H with Some ?q = _ => assert (xs = q) as -> by congruence end.
  eapply orc_ints_run; [exact Er| |apply IH; exact Ey]. unfold orc_supported.
  assert (h / 64 =? 2 = false) as -> by lia. assert (h / 64 =? 3 = false) as -> by lia. exact I.
Qed.

Section Check.
Variable inflate : list Z -> res (list Z).
Variable o : opts.
Hypothesis Ho : CompressionKind o = NONE.
Variable file : list Z.
Variable bopt : batchOption.
Variable l : list (strm * Z).

(** The bytes at a place of the file. *)
Definition slice (off len : Z) : option (list Z) :=
  if (0 <=? off) && (0 <=? len) && (off + len <=? zlen file) then Some (ztake len (zdrop off file)) else None.
Lemma slice_ok off len b : slice off len = Some b -> exists pre post, file = pre ++ b ++ post /\ off = zlen pre /\ len = zlen b.
Proof.
  clear Ho. clear o inflate l bopt. unfold slice. destruct ((0 <=? off) && (0 <=? len) && (off + len <=? zlen file)) eqn:E; [|discriminate]. intros H.
  assert (b = ztake len (zdrop off file)) as -> by congruence. exists (ztake off file), (zdrop len (zdrop off file)).
  split; [unfold ztake, zdrop; rewrite !firstn_skipn; reflexivity|].
  unfold ztake, zdrop, zlen in *. rewrite !firstn_length, skipn_length. lia.
Qed.
Definition content (ds : list (strm * Z)) (kind : Z) : option (list Z) :=
  match find (fun q => st_kind (fst q) =? kind) ds with
  | Some (s, off) => match slice off (st_length s) with Some b => if allBytes b then Some b else None | None => None end
  | None => None
  end.
Lemma content_ok ds kind b : content ds kind = Some b -> OrcColumn.holds nonempty inflate o file ds kind b.
Proof.
  unfold content. destruct (find _ ds) as [[s off]|] eqn:E; [|discriminate]. apply find_some in E. destruct E as [Hin Hk]. cbn [fst] in Hk.
  destruct (slice off (st_length s)) as [b'|] eqn:Es; [|discriminate]. destruct (allBytes b') eqn:Eb; [|discriminate]. intros H.
  assert (b' = b) as -> by congruence. destruct (slice_ok _ _ _ Es) as (pre & post & H1 & H2 & H3).
  exists s, off, pre, b, post. split; [exact Hin|]. split; [lia|]. split; [exact H1|]. split; [exact H2|]. split; [exact H3|].
  split; [unfold framed; rewrite Ho; reflexivity|]. apply allBytes_ok. exact Eb.
Qed.

(** Strings of the given lengths, one after the other. *)
Fixpoint split_by (ns : list Z) (b : list Z) : list (list Z) :=
  match ns with [] => [] | n :: r => ztake n b :: split_by r (zdrop n b) end.
Definition longs_of (gs : list gval) : option (list Z) :=
  fold_right (fun g r => match g, r with GInt64 x, Some r => Some (x :: r) | _, _ => None end) (Some []) gs.
Lemma longs_ok gs : forall xs, longs_of gs = Some xs -> gs = map GInt64 xs.
Proof.
  induction gs as [|g gs IH]; intros xs H; cbn [longs_of fold_right] in H; [assert (xs = []) as -> by congruence; reflexivity|].
  fold (longs_of gs) in H. destruct g; try discriminate. destruct (longs_of gs) as [ys|]; [|discriminate].
  match type of H with Some ?q = _ => assert (xs = q) as -> by congruence end. cbn [map]. rewrite (IH ys eq_refl). reflexivity.
Qed.
Definition dates_of (gs : list gval) : option (list Z) :=
  fold_right (fun g r => match g, r with GDate t, Some r => if t mod DayNs =? 0 then Some (t / DayNs :: r) else None | _, _ => None end) (Some []) gs.
Lemma dates_ok gs : forall xs, dates_of gs = Some xs -> gs = map (fun n => GDate (n * DayNs)) xs.
Proof.
  induction gs as [|g gs IH]; intros xs H; cbn [dates_of fold_right] in H; [assert (xs = []) as -> by congruence; reflexivity|].
  fold (dates_of gs) in H. destruct g as [| | | | | | | | | | | |t| | ]; try discriminate. destruct (dates_of gs) as [ys|]; [|discriminate].
  destruct (Z.eqb_spec (t mod DayNs) 0) as [Hm|]; [|discriminate].
  match type of H with Some ?q = _ => assert (xs = q) as -> by congruence end. cbn [map]. rewrite (IH ys eq_refl). do 2 f_equal.
  pose proof (Z.div_mod t DayNs ltac:(discriminate)) as Hd. rewrite Hm in Hd. clear - Hd. nia.
Qed.
Definition texts_of (gs : list gval) : option (list (list Z)) :=
  fold_right (fun g r => match g, r with GString x, Some r => Some (x :: r) | _, _ => None end) (Some []) gs.
Lemma texts_ok gs : forall xs, texts_of gs = Some xs -> gs = map GString xs.
Proof.
  induction gs as [|g gs IH]; intros xs H; cbn [texts_of fold_right] in H; [assert (xs = []) as -> by congruence; reflexivity|].
  fold (texts_of gs) in H. destruct g; try discriminate. destruct (texts_of gs) as [ys|]; [|discriminate].
  match type of H with Some ?q = _ => assert (xs = q) as -> by congruence end. cbn [map]. rewrite (IH ys eq_refl). reflexivity.
Qed.

Definition blobs_of (gs : list gval) : option (list (list Z)) :=
  fold_right (fun g r => match g, r with GBytes x, Some r => Some (x :: r) | _, _ => None end) (Some []) gs.
Lemma blobs_ok gs : forall xs, blobs_of gs = Some xs -> gs = map GBytes xs.
Proof.
  induction gs as [|g gs IH]; intros xs H; cbn [blobs_of fold_right] in H; [assert (xs = []) as -> by congruence; reflexivity|].
  fold (blobs_of gs) in H. destruct g; try discriminate. destruct (blobs_of gs) as [ys|]; [|discriminate].
  match type of H with Some ?q = _ => assert (xs = q) as -> by congruence end. cbn [map]. rewrite (IH ys eq_refl). reflexivity.
Qed.
Fixpoint sameTexts (a b : list (list Z)) : bool :=
  match a, b with [], [] => true | x :: r, y :: s => same x y && sameTexts r s | _, _ => false end.
Lemma sameTexts_eq a : forall b, sameTexts a b = true -> a = b.
Proof.
  induction a as [|x r IH]; intros [|y s] H; cbn [sameTexts] in H; try discriminate; [reflexivity|]. apply andb_true_iff in H. destruct H as [H1 H2].
  rewrite (same_eq _ _ H1), (IH _ H2). reflexivity.
Qed.

Fixpoint distinct (ks : list Z) : bool := match ks with [] => true | k :: r => negb (existsb (Z.eqb k) r) && distinct r end.
Lemma distinct_ok ks : distinct ks = true -> NoDup ks.
Proof.
  induction ks as [|k ks IH]; intros H; [constructor|]. cbn [distinct] in H. apply andb_true_iff in H. destruct H as [H1 H2].
  constructor; [|apply IH; exact H2]. intros Hin. apply negb_true_iff in H1. assert (existsb (Z.eqb k) ks = true); [|congruence].
  apply existsb_exists. exists k. split; [exact Hin|apply Z.eqb_refl].
Qed.
Definition among (ks allowed : list Z) : bool := forallb (fun k => existsb (Z.eqb k) allowed) ks.
Lemma among_ok ks a : among ks a = true -> incl ks a.
Proof.
  intros H k Hk. unfold among in H. rewrite forallb_forall in H. specialize (H k Hk). apply existsb_exists in H. destruct H as (x & Hx & E).
  assert (k = x) as -> by lia. exact Hx.
Qed.
Definition checkPresent (ds : list (strm * Z)) (bits : list bool) : bool :=
  match content ds 0 with Some b => sameBits b bits | None => negb (existsb (Z.eqb 0) (kinds ds)) && forallb (fun x => x) bits end.
Definition checkData (ds : list (strm * Z)) (c : ckind) (gs : list gval) : bool :=
  match c with
  | KLong => match content ds 1, longs_of gs with
             | Some b, Some xs => match parseInts (length b) true b with Some ys => same ys xs | None => false end
             | _, _ => false end
  | KDate => match content ds 1, dates_of gs with
             | Some b, Some xs => match parseInts (length b) true b with Some ys => same ys xs | None => false end &&
                                  forallb (fun n => (-106751 <=? n) && (n <=? 106751)) xs
             | _, _ => false end
  | KString => match content ds 1, content ds 2, texts_of gs with
               | Some d, Some b, Some ss =>
                   same d (concat ss) && forallb (fun s => zlen s <? W63) ss &&
                   match parseInts (length b) false b with Some ys => same ys (map zlen ss) | None => false end
               | _, _, _ => false end
  | KBinary => match content ds 1, content ds 2, blobs_of gs with
               | Some d, Some b, Some ss =>
                   same d (concat ss) && forallb (fun s => zlen s <? W63) ss &&
                   match parseInts (length b) false b with Some ys => same ys (map zlen ss) | None => false end
               | _, _, _ => false end
  | KDict => match content ds 1, content ds 2, content ds 3, texts_of gs with
             | Some b, Some d, Some w, Some ts =>
                 match parseInts (length b) false b, parseInts (length d) false d with
                 | Some xs, Some ns =>
                     let ss := split_by ns w in
                     same w (concat ss) && same ns (map zlen ss) && forallb (fun s => zlen s <? W63) ss && (zlen ss <? 2 ^ 32) &&
                     forallb (fun x => (0 <=? x) && (x <? zlen ss)) xs && sameTexts ts (map (fun x => nth (Z.to_nat x) ss []) xs)
                 | _, _ => false end
             | _, _, _, _ => false end
  | _ => false
  end.
Definition checkLeaf (ds : list (strm * Z)) (c : ckind) (rows : list (option gval)) : bool :=
  distinct (kinds ds) && among (kinds ds) (0 :: 1 :: match c with KString | KBinary => [2] | KDict => [2; 3] | KTimestamp | KDecimal => [5] | _ => [] end) &&
  checkData ds c (nonnull rows) && checkPresent ds (map is_some rows).
Lemma checkPresent_ok ds bits (all : Prop) : checkPresent ds bits = true -> (forallb (fun x => x) bits = true -> all) ->
  if in_dec Z.eq_dec 0 (kinds ds) then exists b, OrcColumn.holds nonempty inflate o file ds 0 b /\ orc_bits b bits else all.
Proof.
  unfold checkPresent. intros H Hall. destruct (content ds 0) as [b|] eqn:E.
  - destruct (in_dec Z.eq_dec 0 (kinds ds)) as [_|Hn].
    + exists b. split; [apply content_ok; exact E|apply sameBits_ok; exact H].
    + exfalso. apply Hn. unfold content in E. destruct (find _ ds) as [[s off]|] eqn:Ef; [|discriminate]. apply find_some in Ef.
      destruct Ef as [Hin Hk]. cbn [fst] in Hk. unfold kinds. apply in_map_iff. exists (s, off). cbn [fst]. split; [lia|exact Hin].
  - apply andb_true_iff in H. destruct H as [H1 H2]. destruct (in_dec Z.eq_dec 0 (kinds ds)) as [Hi|_]; [|apply Hall; exact H2].
    exfalso. apply negb_true_iff in H1. assert (existsb (Z.eqb 0) (kinds ds) = true); [|congruence].
    apply existsb_exists. exists 0. split; [exact Hi|reflexivity].
Qed.
Lemma checkLeaf_ok ds c rows : checkLeaf ds c rows = true -> orc_column orc_supported nonempty inflate o file ds c rows.
Proof.
  unfold checkLeaf. intros H. apply andb_true_iff in H. destruct H as [H H4]. apply andb_true_iff in H. destruct H as [H H3].
  apply andb_true_iff in H. destruct H as [H1 H2].
  split; [apply distinct_ok; exact H1|]. split; [apply among_ok; exact H2|]. split.
  - destruct c; try discriminate; cbn [checkData orc_data] in *.
    + destruct (content ds 1) as [b|] eqn:Eb; [|discriminate]. destruct (longs_of _) as [xs|] eqn:Ex; [|discriminate].
      destruct (parseInts _ _ b) as [ys|] eqn:Ey; [|discriminate]. apply same_eq in H3. subst ys. exists b, xs.
      split; [apply content_ok; exact Eb|]. split; [eapply parseInts_ok; exact Ey|apply longs_ok; exact Ex].
    + destruct (content ds 1) as [d|] eqn:Ed; [|discriminate]. destruct (content ds 2) as [b|] eqn:Eb; [|discriminate].
      destruct (texts_of _) as [ss|] eqn:Ex; [|discriminate]. apply andb_true_iff in H3. destruct H3 as [H3 H5].
      apply andb_true_iff in H3. destruct H3 as [H3 H6].
      destruct (parseInts _ _ b) as [ys|] eqn:Ey; [|discriminate]. apply same_eq in H5. apply same_eq in H3. subst ys d. exists b, ss.
      split; [apply content_ok; exact Ed|]. split; [apply content_ok; exact Eb|]. split; [eapply parseInts_ok; exact Ey|].
      split; [|apply texts_ok; exact Ex]. apply Forall_forall. intros s Hs. rewrite forallb_forall in H6. specialize (H6 s Hs). lia.
    + destruct (content ds 1) as [d|] eqn:Ed; [|discriminate]. destruct (content ds 2) as [b|] eqn:Eb; [|discriminate].
      destruct (blobs_of _) as [ss|] eqn:Ex; [|discriminate]. apply andb_true_iff in H3. destruct H3 as [H3 H5].
      apply andb_true_iff in H3. destruct H3 as [H3 H6].
      destruct (parseInts _ _ b) as [ys|] eqn:Ey; [|discriminate]. apply same_eq in H5. apply same_eq in H3. subst ys d. exists b, ss.
      split; [apply content_ok; exact Ed|]. split; [apply content_ok; exact Eb|]. split; [eapply parseInts_ok; exact Ey|].
      split; [|apply blobs_ok; exact Ex]. apply Forall_forall. intros s Hs. rewrite forallb_forall in H6. specialize (H6 s Hs). lia.
    + destruct (content ds 1) as [b|] eqn:Eb; [|discriminate]. destruct (dates_of _) as [xs|] eqn:Ex; [|discriminate].
      apply andb_true_iff in H3. destruct H3 as [H3 H5].
      destruct (parseInts _ _ b) as [ys|] eqn:Ey; [|discriminate]. apply same_eq in H3. subst ys. exists b, xs.
      split; [apply content_ok; exact Eb|]. split; [eapply parseInts_ok; exact Ey|].
      split; [|apply dates_ok; exact Ex]. apply Forall_forall. intros s Hs. rewrite forallb_forall in H5. specialize (H5 s Hs). lia.
    + destruct (content ds 1) as [b|] eqn:Eb; [|discriminate]. destruct (content ds 2) as [d|] eqn:Ed; [|discriminate].
      destruct (content ds 3) as [w|] eqn:Ew; [|discriminate]. destruct (texts_of _) as [ts|] eqn:Et; [|discriminate].
      destruct (parseInts _ _ b) as [xs|] eqn:Ex; [|discriminate]. destruct (parseInts _ _ d) as [ns|] eqn:En; [|discriminate].
      remember (split_by ns w) as ss eqn:Ess. clear Ess.
      repeat match goal with H : _ && _ = true |- _ => apply andb_true_iff in H; let H' := fresh "C" in destruct H as [H H'] end.
      apply same_eq in H3. apply same_eq in C3. apply sameTexts_eq in C. subst w ns.
      exists b, xs, d, ss. split; [apply content_ok; exact Eb|]. split; [apply content_ok; exact Ed|]. split; [apply content_ok; exact Ew|].
      split; [eapply parseInts_ok; exact Ex|]. split; [eapply parseInts_ok; exact En|].
      split; [apply Forall_forall; intros s Hs; rewrite forallb_forall in C2; specialize (C2 s Hs); lia|].
      split; [apply Z.ltb_lt; assumption|]. split; [apply Forall_forall; intros s Hs; match goal with H : forallb _ xs = true |- _ => rewrite forallb_forall in H; specialize (H s Hs) end; lia|].
      rewrite (texts_ok _ _ Et), C, map_map. reflexivity.
  - apply checkPresent_ok; [exact H4|]. intros H. rewrite forallb_forall in *. intros x Hx. apply (H (is_some x)), in_map, Hx.
Qed.

Fixpoint checkStored (rows : list (row value)) (t : td) : bool :=
  match t with
  | Td id k _ e _ cs =>
      negb (IsInclude bopt id) ||
      let vs := column_of (Z.to_nat id) rows in
      match k with
      | STRUCT => (e =? 0) && distinct (kinds (data_streams l id)) && among (kinds (data_streams l id)) [0] &&
                  checkPresent (data_streams l id) (map (fun v => negb (Null v)) vs) &&
                  forallb (checkStored (alive id rows)) cs
      | _ => match orc_kind k e with Some c => checkLeaf (data_streams l id) c (rows_of vs) | None => false end
      end
  end.
Lemma checkStored_ok t : forall rows, checkStored rows t = true -> stored orc_supported nonempty inflate o file bopt l rows t.
Proof.
  induction t as [id k ns e h cs IH] using td_rect'. intros rows H. cbn [checkStored stored] in *. intros Hi. rewrite Hi in H. cbn [negb orb] in H.
  assert (Hleaf : forall T : Prop, (match orc_kind k e with Some c => checkLeaf (data_streams l id) c (rows_of (column_of (Z.to_nat id) rows)) | None => false end) = true ->
    exists c, orc_kind k e = Some c /\ orc_column orc_supported nonempty inflate o file (data_streams l id) c (rows_of (column_of (Z.to_nat id) rows))).
  { intros _ Hc. destruct (orc_kind k e) as [c|]; [|discriminate]. exists c. split; [reflexivity|apply checkLeaf_ok; exact Hc]. }
  destruct k; try (apply (Hleaf True); exact H).
  apply andb_true_iff in H. destruct H as [H H5]. apply andb_true_iff in H. destruct H as [H H4]. apply andb_true_iff in H. destruct H as [H H3].
  apply andb_true_iff in H. destruct H as [H1 H2]. split; [lia|]. split; [apply distinct_ok; exact H2|]. split; [apply among_ok; exact H3|]. split.
  - apply checkPresent_ok; [exact H4|]. intros H. rewrite forallb_forall in H. apply Forall_forall. intros v Hv.
    specialize (H (negb (Null v)) (in_map (fun v => negb (Null v)) _ _ Hv)). destruct (Null v); [discriminate|reflexivity].
  - clear - IH H5. induction cs as [|c cs IHc]; [exact I|]. inversion IH as [|? ? Hc Hcs]; subst. cbn [forallb] in H5. apply andb_true_iff in H5.
    destruct H5 as [H5 H6]. split; [apply Hc; exact H5|apply IHc; assumption].
Qed.
Definition checkIndexed : bool :=
  forallb (fun q : strm * Z => negb (st_kind (fst q) =? 6) ||
    match slice (snd q) (st_length (fst q)) with
    | Some b => match unmarshalIndex b with Ok _ => true | _ => false end
    | None => false
    end) l.
Lemma checkIndexed_ok : checkIndexed = true -> indexed inflate o file bopt l.
Proof.
  intros H s off Hin Hk _. unfold checkIndexed in H. rewrite forallb_forall in H. specialize (H _ Hin). cbn [fst snd] in H. rewrite Hk in H. cbn [Z.eqb Pos.eqb negb orb] in H.
  destruct (slice off (st_length s)) as [b|] eqn:E; [|discriminate]. destruct (unmarshalIndex b) as [x| |] eqn:Ex; try discriminate.
  destruct (slice_ok _ _ _ E) as (pre & post & H1 & H2 & H3). exists pre, b, post, b, x. split; [exact H1|]. split; [exact H2|]. split; [exact H3|].
  split; [unfold framed; rewrite Ho; reflexivity|exact Ex].
Qed.
End Check.

Section File.
Variable inflate : list Z -> res (list Z).
Variable o : opts.
Hypothesis Ho : CompressionKind o = NONE.
Variable file : list Z.
Variable bopt : batchOption.
Definition sameSF (a b : stripeFooter) : bool :=
  same (map st_column (sf_streams a)) (map st_column (sf_streams b)) && same (map st_kind (sf_streams a)) (map st_kind (sf_streams b)) &&
  same (map st_length (sf_streams a)) (map st_length (sf_streams b)) && same (sf_columns a) (sf_columns b).
Lemma sameSF_ok a b : sameSF a b = true -> a = b.
Proof.
  destruct a as [s1 c1], b as [s2 c2]. unfold sameSF. cbn [sf_streams sf_columns]. intros H.
  apply andb_true_iff in H. destruct H as [H H4]. apply andb_true_iff in H. destruct H as [H H3]. apply andb_true_iff in H. destruct H as [H1 H2].
  apply same_eq in H1. apply same_eq in H2. apply same_eq in H3. apply same_eq in H4. f_equal; [|exact H4]. clear - H1 H2 H3.
  revert s2 H1 H2 H3. induction s1 as [|a s1 IH]; intros [|b s2] H1 H2 H3; try discriminate; [reflexivity|].
  cbn [map] in *. injection H1 as A1 A2. injection H2 as B1 B2. injection H3 as C1 C2. destruct a, b. cbn in *. f_equal; [congruence|]. apply IH; assumption.
Qed.
(** The index streams come first. *)
Fixpoint leading (l : list strm) : list strm :=
  match l with s :: r => if index_kind (st_kind s) then s :: leading r else [] | [] => [] end.
Fixpoint trailing (l : list strm) : list strm :=
  match l with s :: r => if index_kind (st_kind s) then trailing r else l | [] => [] end.
Lemma leading_trailing l : l = leading l ++ trailing l /\ Forall (fun s => index_kind (st_kind s) = true) (leading l).
Proof.
  induction l as [|s l [IH1 IH2]]; [split; [reflexivity|constructor]|]. cbn [leading trailing]. destruct (index_kind (st_kind s)) eqn:E.
  - split; [cbn [app]; congruence|constructor; assumption].
  - split; [reflexivity|constructor].
Qed.
Definition checkStripe (schema : td) (i : stripeInfo) (x : stripeFooter * list (row value)) : bool :=
  let (sf, rows) := x in
  (1 <=? zlen rows) && (NumberOfRows i =? zlen rows) && (0 <=? Offset i) &&
  forallb (fun s => negb (index_kind (st_kind s))) (trailing (sf_streams sf)) &&
  (total_length (leading (sf_streams sf)) =? IndexLength i) && (total_length (trailing (sf_streams sf)) =? DataLength i) &&
  forallb (fun s => (0 <=? st_length s) && (0 <=? st_column s) && (st_column s <? size schema)) (sf_streams sf) &&
  same (sf_columns sf) (map td_enc (flatten schema)) &&
  match slice file (Offset i + IndexLength i + DataLength i) (FooterLength i) with
  | Some b => match unmarshalSF b with Ok sf' => sameSF sf' sf | _ => false end
  | None => false
  end &&
  checkIndexed file (offsets (Offset i) (sf_streams sf)) &&
  checkStored file bopt (offsets (Offset i) (sf_streams sf)) rows schema.
Lemma checkStripe_ok schema i x : checkStripe schema i x = true -> orc_stripe orc_supported nonempty inflate o file bopt schema i x.
Proof.
  destruct x as [sf rows]. unfold checkStripe, orc_stripe. intros H.
  repeat match goal with H : _ && _ = true |- _ => apply andb_true_iff in H; let H' := fresh "C" in destruct H as [H H'] end.
  split; [intros ->; discriminate H|]. split; [lia|]. split; [lia|]. split.
  { exists (leading (sf_streams sf)), (trailing (sf_streams sf)). destruct (leading_trailing (sf_streams sf)) as [L1 L2].
    split; [exact L1|]. split; [exact L2|]. split; [|split; lia]. apply Forall_forall. intros s Hs. rewrite forallb_forall in C6. specialize (C6 s Hs). apply negb_true_iff in C6. exact C6. }
  split; [apply Forall_forall; intros s Hs; rewrite forallb_forall in C3; specialize (C3 s Hs); lia|].
  split; [apply same_eq; exact C2|]. split.
  { destruct (slice _ _ _) as [b|] eqn:E; [|discriminate]. destruct (unmarshalSF b) as [sf'| |] eqn:Eu; try discriminate. apply sameSF_ok in C1. subst sf'.
    destruct (slice_ok _ _ _ _ E) as (pre & post & H1 & H2 & H3). exists pre, b, post, b. split; [exact H1|]. split; [lia|]. split; [exact H3|].
    split; [unfold framed; rewrite Ho; reflexivity|exact Eu]. }
  split; [apply checkIndexed_ok; assumption|apply checkStored_ok; assumption].
Qed.
End File.

(** ** The conditions on schema and rows *)
Definition checkShallow (bopt : batchOption) (schema : td) : bool :=
  forallb (fun q : td * option Z => match snd q with Some _ => negb (td_hasNulls (fst q)) | None => true end) (columns_read bopt None schema).
Lemma checkShallow_ok bopt schema : checkShallow bopt schema = true -> shallow bopt schema.
Proof. intros H t p Hp. unfold checkShallow in H. rewrite forallb_forall in H. specialize (H _ Hp). cbn [fst snd] in H. apply negb_true_iff in H. exact H. Qed.
Definition checkFloats (bopt : batchOption) (schema : td) : bool :=
  forallb (fun q : td * option Z => match td_kind (fst q) with FLOAT => false | _ => true end) (columns_read bopt None schema).
Lemma checkFloats_ok bopt schema : checkFloats bopt schema = true -> no_floats bopt schema.
Proof. intros H t p Hp E. unfold checkFloats in H. rewrite forallb_forall in H. specialize (H _ Hp). cbn [fst] in H. rewrite E in H. discriminate. Qed.
Definition checkShaped (bopt : batchOption) (schema : td) (rows : list (row value)) : bool :=
  forallb (fun q : td * option Z => forallb (fun r => (length (column_of (col (fst q)) [r]) =? 1)%nat &&
    match snd q with Some j => negb (null_in j r) || null_in (td_id (fst q)) r | None => true end) rows) (columns_read bopt None schema).
Lemma checkShaped_ok bopt schema rows : checkShaped bopt schema rows = true -> well_shaped bopt schema rows.
Proof.
  intros H t p Hp. unfold checkShaped in H. rewrite forallb_forall in H. specialize (H _ Hp). cbn [fst snd] in H. rewrite forallb_forall in H.
  apply Forall_forall. intros r Hr. specialize (H r Hr). apply andb_true_iff in H. destruct H as [H1 H2]. split; [lia|].
  destruct p as [j|]; [|exact I]. intros Hj. rewrite Hj in H2. exact H2.
Qed.
Definition checkSteady (bopt : batchOption) (schema : td) (sf : stripeFooter) : bool :=
  forallb (fun t => negb (IsInclude bopt (td_id t)) ||
    Bool.eqb (td_hasNulls t) (existsb (fun s => (st_column s =? td_id t) && (st_kind s =? 0)) (sf_streams sf))) (flatten schema).
Lemma checkSteady_ok bopt schema sf : checkSteady bopt schema sf = true -> steady bopt schema sf.
Proof.
  intros H t Ht Hi. unfold checkSteady in H. rewrite forallb_forall in H. specialize (H t Ht). rewrite Hi in H. cbn [negb orb] in H.
  apply Bool.eqb_prop in H. rewrite H. rewrite existsb_exists. split; intros (s & Hs & E); exists s; (split; [exact Hs|lia]).
Qed.
Definition checkBloom (sf : stripeFooter) : bool := forallb (fun s => negb (st_kind s =? 7) && negb (st_kind s =? 8)) (sf_streams sf).
Lemma checkBloom_ok sf : checkBloom sf = true -> no_bloom sf.
Proof. intros H. apply Forall_forall. intros s Hs. unfold checkBloom in H. rewrite forallb_forall in H. specialize (H s Hs). lia. Qed.

(** ** The batches of a client, computed: [Some None] for an error *)
Fixpoint batches (inflate : list Z -> res (list Z)) (fuel : nat) (r : fileR colstats) (x : batchRd) (v : bvec) : option (option (list bvec)) :=
  match fuel with
  | O => None
  | S n => match batchNext inflate r x v with
           | Ok (_, v', true) => Some (Some [v'])
           | Ok (x', v', false) => option_map (option_map (cons v')) (batches inflate n r x' v')
           | _ => Some None
           end
  end.
Lemma batches_ok inflate r x v out : Batches inflate r x v out -> forall fuel q, batches inflate fuel r x v = Some q -> q = Some out.
Proof.
  induction 1 as [b v b' v' H|b v b' v' out H Hb IH]; intros [|n] q E; cbn [batches] in E; try discriminate; rewrite H in E; [congruence|].
  destruct (batches inflate n r b' v') as [q'|] eqn:En; [|discriminate]. rewrite (IH n q' En) in E. cbn [option_map] in E. congruence.
Qed.
