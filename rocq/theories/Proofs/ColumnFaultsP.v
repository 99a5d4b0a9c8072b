(** Columns that cannot be read back: timestamp, decimal, binary and dictionary. *)
From Coq Require Import ZifyBool ZifyNat.
From Verif.Model Require Import Go Codec ByteBool IntRle Chunk Stream Time File Column.
From Verif.Spec Require Import BoolSpec Session StreamSpec ChunkSpec ColumnSpec.
From Verif.Proofs Require Import Base CodecP SessionP ByteBoolP OrcIntP StreamP StreamClaimsP IntBytesP ReadP TimeP CodecClaimsP ColumnP ColumnReadP.

(** ** Timestamp and decimal *)
Lemma never_stored inflate o vec : forall c out c', (cr_kind c = KTimestamp \/ cr_kind c = KDecimal) ->
  NextBatch inflate o c vec = Ok (out, c') -> map V out = map V vec.
Proof.
  induction vec as [|v t IH]; intros c out c' Hk H; cbn [NextBatch] in H.
  - assert (out = []) as -> by congruence. reflexivity.
  - apply rbind_inv in H. destruct H as ([x c1] & Hr & H). apply rbind_inv in H. destruct H as ([xs c2] & Hb & H).
    assert (out = x :: xs) as -> by congruence.
    assert (Hx : V x = V v /\ cr_kind c1 = cr_kind c).
    { unfold nextRow in Hr. apply rbind_inv in Hr. destruct Hr as ([n c3] & Hp & Hr).
      assert (Hk3 : cr_kind c3 = cr_kind c).
      { unfold nextPresent in Hp. destruct (cr_present c).
        - apply rbind_inv in Hp. destruct Hp as ([p b'] & _ & Hp). assert (c3 = setPresent b' c) as -> by congruence. reflexivity.
        - congruence. }
      destruct n.
      - match type of Hr with Ok (?a, ?b) = _ => assert (x = a) as -> by congruence; assert (c1 = b) as -> by congruence end.
        split; [reflexivity|exact Hk3].
      - apply rbind_inv in Hr. destruct Hr as ([g c4] & Hv & Hr).
        match type of Hr with Ok (?a, ?b) = _ => assert (x = a) as -> by congruence; assert (c1 = b) as -> by congruence end.
        cbn [V]. pose proof (nextValue_same _ _ _ _ _ _ Hv) as (Hk4 & _). split; [|congruence].
        unfold nextValue in Hv. rewrite Hk3 in Hv. destruct Hk as [Hk|Hk]; rewrite Hk in Hv;
          apply rbind_inv in Hv; destruct Hv as ([? ?] & _ & Hv); apply rbind_inv in Hv; destruct Hv as ([? ?] & _ & Hv);
          destruct (V v); try discriminate; congruence. }
    destruct Hx as [Hx Hk1]. cbn [map]. rewrite Hx. f_equal. eapply IH; [|exact Hb]. rewrite Hk1. exact Hk.
Qed.

(** ** Binary *)
Section Binary.
Variable deflate : list (list Z) -> list Z -> res (list Z).
Variable inflate : list Z -> res (list Z).
Variable F : floats.
Variable o : opts.
Variable stride : Z.
Hypothesis Ho : supported o.
Hypothesis Hok : flate_ok deflate inflate.
Notation stored := (StreamSpec.stored o).

Lemma DecodeUInt_empty : run DecodeUInt [] = Err.
Proof. reflexivity. Qed.
Lemma binary_value r rd old : serves inflate o rd [] -> cr_kind r = KBinary ->
  cr_second r = Some (newVreader rd) -> nextValue inflate o r old = Err.
Proof.
  intros Hs Hk H2. unfold nextValue. rewrite Hk, H2. cbn [nextSecond].
  specialize (Hs _ DecodeUInt). rewrite DecodeUInt_empty in Hs. unfold v_Next, newVreader. cbn [v_vals v_s].
  rewrite Hs. reflexivity.
Qed.
Lemma binary_rows rd (Hs : serves inflate o rd []) vs : forall r b l m vec, cr_kind r = KBinary ->
  cr_second r = Some (newVreader rd) -> cr_present r = Some b ->
  Yields (bool_Next inflate o) b (bitsOf vs ++ l) ->
  Forall (fun v => Null v = true) (firstn m vs) -> (exists v, nth_error vs m = Some v /\ Null v = false) ->
  (m < length vec)%nat -> NextBatch inflate o r vec = Err.
Proof.
  induction vs as [|v t IH]; intros r b l m vec Hk H2 Hp Hb Hn Hv Hlen.
  - destruct Hv as (v & Hv & _). destruct m; discriminate.
  - destruct vec as [|x vec]; cbn [length] in Hlen; [lia|]. cbn [bitsOf map app] in Hb. inversion Hb as [|? ? b' ? Hx Hb']; subst.
    cbn [NextBatch]. unfold nextRow, nextPresent. rewrite Hp, Hx. cbn [rbind]. rewrite negb_involutive.
    destruct m as [|m].
    + destruct Hv as (v' & Hv & Hv'). cbn in Hv. assert (v' = v) as -> by congruence. rewrite Hv'.
      rewrite (binary_value (setPresent b' r) rd) by assumption. reflexivity.
    + cbn [firstn] in Hn. inversion Hn as [|? ? Hnv Hn']; subst. rewrite Hnv. cbn [rbind].
      rewrite (IH (setPresent b' r) b' l m vec); try assumption; try reflexivity. lia.
Qed.
Lemma binary_unreadable id hn vs bs infos c3 m : 
  writeColumn deflate F o stride (newColW o id KBinary hn) vs = Ok (bs, infos, c3) ->
  Forall (fun v => Null v = true) (firstn m vs) -> (exists v, nth_error vs m = Some v /\ Null v = false) ->
  (hn = false -> m = O) ->
  forall pre post, zlen (pre ++ bs ++ post) < W64 ->
  exists r, InitStreams (pre ++ bs ++ post) (newColR KBinary hn) (offsets (zlen pre) infos) = Ok r /\
    forall vec, (m < length vec)%nat -> (hn = false -> Forall (fun v => Null v = false) vec) ->
      NextBatch inflate o r vec = Err.
Proof.
  intros Hw Hn Hv Hm pre post Hlen.
  set (its := map (fun p => {| it_kind := fst p; it_enc := snd p; it_stale := [] |}) (planned o KBinary hn)).
  assert (Hst : streams (newColW o id KBinary hn) = map (fun it => (it_kind it, newWriter (it_enc it))) its).
  { rewrite streams_new. unfold its. rewrite map_map. reflexivity. }
  pose proof (column_served deflate inflate o Ho Hok F stride _ its vs bs infos c3 Hst eq_refl ltac:(discriminate) Hw pre post Hlen) as Hs.
  unfold its, planned in Hs. clear Hst its. destruct hn.
  - change (hasNulls (newColW o id KBinary true)) with true in Hs. cbn [newColW cw_kind dataStreams map app fst snd] in Hs.
    destruct (offsets (zlen pre) infos) as [|[s0 o0] [|[s1 o1] [|[s2 o2] [|? ?]]]]; cbn [Served it_kind it_enc] in Hs; try tauto.
    destruct Hs as (K0 & (e0 & b0 & G0 & S0) & K1 & _ & K2 & (e2 & b2 & G2 & S2) & _).
    rewrite insAll_present, seg_bool in G0.
    destruct (segment bool_Encode bool_Flush (NewBoolEncoder (WriteIndex o)) (bitsOf vs)) as [[e1 b1]| |] eqn:Eseg; cbn in G0; try discriminate.
    assert (b1 = b0) as -> by congruence.
    pose proof (bits_yields inflate o [] _ _ e1 b0 _ (bool_New_inv _) eq_refl Eseg S0) as Hy.
    destruct (stored_fresh (bitsOf vs)) as (l & El). rewrite El in Hy.
    rewrite insAll_data in G2.
    assert (Hnil : flat_map (inp KBinary 1) (nonnull (rows_of vs)) = []). { clear. induction (nonnull (rows_of vs)); [reflexivity|assumption]. }
    rewrite Hnil in G2. assert (b2 = []) as -> by (cbn in G2; congruence).
    unfold InitStreams, InitStream. rewrite K0, K1, K2. cbn [Z.eqb Pos.eqb newColR cr_kind cr_hasNulls dataReader rbind setPresent setData].
    eexists. split; [reflexivity|]. intros vec Hlv _.
    eapply (binary_rows _ S2 vs); [reflexivity|reflexivity|reflexivity|exact Hy|exact Hn|exact Hv|exact Hlv].
  - change (hasNulls (newColW o id KBinary false)) with false in Hs. cbn [newColW cw_kind dataStreams map app fst snd] in Hs.
    destruct (offsets (zlen pre) infos) as [|[s1 o1] [|[s2 o2] [|? ?]]]; cbn [Served it_kind it_enc] in Hs; try tauto.
    destruct Hs as (K1 & _ & K2 & (e2 & b2 & G2 & S2) & _).
    rewrite insAll_false in G2.
    assert (Hnil : flat_map (inp KBinary 1) (nonnull (rows_of vs)) = []). { clear. induction (nonnull (rows_of vs)); [reflexivity|assumption]. }
    rewrite Hnil in G2. assert (b2 = []) as -> by (cbn in G2; congruence).
    unfold InitStreams, InitStream. rewrite K1, K2. cbn [Z.eqb Pos.eqb newColR cr_kind cr_hasNulls dataReader rbind setPresent setData].
    eexists. split; [reflexivity|]. intros vec Hlv Hnv. specialize (Hnv eq_refl).
    destruct vec as [|x vec]; cbn [length] in Hlv; [lia|]. inversion Hnv as [|? ? Hx _]; subst.
    cbn [NextBatch]. unfold nextRow, nextPresent. cbn [setSecond setData newColR cr_present rbind]. rewrite Hx.
    rewrite (binary_value _ (newReader (pre ++ bs ++ post) o2 (st_length s2))) by (assumption || reflexivity). reflexivity.
Qed.
End Binary.

(** ** Dictionary *)
Lemma assign_bad data : forall ps x, In (length data) ps -> assign data ps x = Panic.
Proof.
  intros ps x. revert data. induction ps as [|p r IH]; intros data Hin; [contradiction|]. cbn [assign].
  destruct (Nat.ltb_spec p (length data)); [|reflexivity]. destruct Hin as [->|Hin]; [lia|].
  apply IH. rewrite set_nth_length. exact Hin.
Qed.
Lemma assign_outcome data : forall ps x d, assign data ps x = Ok d -> length d = length data.
Proof.
  intros ps x. revert data. induction ps as [|p r IH]; intros data d H; cbn [assign] in H; [congruence|].
  destruct (p <? length data)%nat; [|discriminate]. apply IH in H. rewrite set_nth_length in H. exact H.
Qed.
Lemma assign_not_err data : forall ps x, assign data ps x <> Err.
Proof.
  intros ps x. revert data. induction ps as [|p r IH]; intros data; cbn [assign]; [discriminate|].
  destruct (p <? length data)%nat; [apply IH|discriminate].
Qed.
Lemma sameString_eq a : forall b, sameString a b = true <-> a = b.
Proof.
  induction a as [|x a IH]; intros [|y b]; cbn [sameString]; split; intros H; try discriminate; auto.
  - apply andb_prop in H. destruct H as [Hx Hr]. apply Z.eqb_eq in Hx. apply IH in Hr. congruence.
  - assert (x = y /\ a = b) as [-> Hab] by (split; congruence). rewrite Z.eqb_refl. apply IH in Hab. exact Hab.
Qed.
Lemma slt_total a : forall b, slt a b = false -> slt b a = false -> a = b.
Proof.
  induction a as [|x a IH]; intros [|y b] H1 H2; cbn [slt] in *; auto; try discriminate.
  destruct (Z.ltb_spec x y); [discriminate|]. destruct (Z.ltb_spec y x); [discriminate|].
  f_equal; [lia|]. apply IH; assumption.
Qed.
Lemma insertKey_in s x l : In x (insertKey s l) <-> x = s \/ In x l.
Proof.
  induction l as [|y r IH]; cbn [insertKey]; [cbn; intuition congruence|].
  destruct (slt s y) eqn:E1; [cbn; intuition congruence|]. destruct (slt y s) eqn:E2.
  - cbn [In]. rewrite IH. tauto.
  - assert (s = y) as -> by (apply slt_total; assumption). cbn [In]. intuition congruence.
Qed.
Lemma dictKeys_in x l : In x (dictKeys l) <-> In x l.
Proof. unfold dictKeys. induction l as [|y r IH]; cbn [fold_right In]; [tauto|]. rewrite insertKey_in, IH. intuition congruence. Qed.
Lemma assignAll_bad pending s keys : In s keys -> In (length pending) (positionsOf s pending) ->
  forall data i, length data = length pending -> assignAll data keys i pending = Panic.
Proof.
  intros Hin Hpos. induction keys as [|k r IH]; intros data i Hl; [contradiction|]. cbn [assignAll].
  destruct Hin as [->|Hin].
  - rewrite assign_bad by (rewrite Hl; exact Hpos). reflexivity.
  - destruct (assign data (positionsOf k pending) i) as [d| |] eqn:E; cbn [rbind].
    + apply IH; [exact Hin|]. rewrite (assign_outcome _ _ _ _ E). exact Hl.
    + exfalso. apply (assign_not_err _ _ _ E).
    + reflexivity.
Qed.
Lemma last_position pending s l : pending = l ++ [s] -> In (length pending) (positionsOf s pending).
Proof.
  intros ->. unfold positionsOf. rewrite app_length. cbn [length]. rewrite Nat.add_1_r, seq_S.
  replace (combine _ _) with (combine (seq 1 (length l)) l ++ [((1 + length l)%nat, s)]).
  2: { assert (Hl : length (seq 1 (length l)) = length l) by apply seq_length.
       revert Hl. generalize (seq 1 (length l)). intros q. generalize (1 + length l)%nat. intros n.
       revert q. induction l as [|x t IH]; intros [|y q] Hq; cbn in *; try discriminate; [reflexivity|].
       f_equal. apply IH. congruence. }
  rewrite filter_app, map_app. apply in_or_app. right. cbn [filter snd].
  replace (sameString s s) with true by (symmetry; apply sameString_eq; reflexivity). left. cbn. lia.
Qed.
Definition strings_of (gs : list gval) : list (list Z) := flat_map (fun g => match g with GString s => [s] | _ => [] end) gs.
Section Dict.
Variable deflate : list (list Z) -> list Z -> res (list Z).
Variable F : floats.
Variable o : opts.
Variable stride : Z.

Lemma dict_writeRows vs : forall c c', cw_kind c = KDict -> length (cw_data c) = 3%nat ->
  writeRows deflate F o stride c vs = Ok c' ->
  cw_kind c' = KDict /\ cw_data c' = cw_data c /\
  cw_pending c' = cw_pending c ++ strings_of (nonnull (rows_of vs)) /\
  Forall (fun g => exists s, g = GString s) (nonnull (rows_of vs)).
Proof.
  induction vs as [|v t IH]; intros c c' Hk Hd H; cbn [writeRows] in H.
  - assert (c' = c) as -> by congruence. unfold rows_of, nonnull, strings_of. cbn. rewrite app_nil_r. auto.
  - apply rbind_inv in H. destruct H as (c1 & Hw & H).
    assert (H1 : cw_kind c1 = KDict /\ cw_data c1 = cw_data c /\
                 cw_pending c1 = cw_pending c ++ strings_of (nonnull (rows_of [v])) /\
                 Forall (fun g => exists s, g = GString s) (nonnull (rows_of [v]))).
    { unfold c_Write in Hw. rewrite Hk in Hw. cbn [isKStruct andb] in Hw. rewrite andb_false_r in Hw.
      apply rbind_inv in Hw. destruct Hw as (p & _ & Hw). apply rbind_inv in Hw. destruct Hw as (d & Hdd & Hw).
      apply rbind_inv in Hw. destruct Hw as (st & _ & Hw).
      match type of Hw with Ok ?x = _ => assert (c1 = x) as -> by congruence end. clear Hw. cbn [cw_kind cw_data cw_pending].
      unfold rows_of, nonnull, strings_of. cbn [map flat_map]. unfold row_of. destruct (Null v).
      - cbn [flat_map app]. rewrite app_nil_r. split; [reflexivity|]. split; [congruence|]. split; [reflexivity|constructor].
      - cbn [puts] in Hdd. destruct (V v) eqn:Ev; try discriminate. cbn [rbind] in Hdd.
        destruct (cw_data c) as [|[k1 w1] [|[k2 w2] [|[k3 w3] [|? ?]]]]; try discriminate.
        cbn in Hdd. split; [reflexivity|]. split; [congruence|]. cbn [flat_map app]. split; [reflexivity|]. constructor; [eauto|constructor]. }
    destruct H1 as (Hk1 & Hd1 & Hp1 & Hf1). rewrite <- Hd1 in Hd. destruct (IH c1 c' Hk1 Hd H) as (Hk2 & Hd2 & Hp2 & Hf2).
    split; [exact Hk2|]. split; [congruence|].
    assert (E : nonnull (rows_of (v :: t)) = nonnull (rows_of [v]) ++ nonnull (rows_of t)).
    { unfold nonnull, rows_of. cbn [map flat_map]. rewrite app_nil_r. reflexivity. }
    rewrite E. unfold strings_of in *. rewrite flat_map_app, app_assoc, <- Hp1. split; [exact Hp2|].
    apply Forall_app. split; assumption.
Qed.
Lemma dict_flush_panics id hn vs c : writeRows deflate F o stride (newColW o id KDict hn) vs = Ok c ->
  nonnull (rows_of vs) <> [] -> c_Flush deflate o c = Panic.
Proof.
  intros H Hne. destruct (dict_writeRows vs (newColW o id KDict hn) c eq_refl eq_refl H) as (Hk & Hd & Hp & Hf). cbn [newColW cw_pending app] in Hp.
  assert (Hl : exists l s, cw_pending c = l ++ [s]).
  { rewrite Hp. destruct (nonnull (rows_of vs)) as [|g t]; [congruence|]. inversion Hf as [|? ? (s & ->) _]; subst.
    cbn [strings_of flat_map app]. destruct (exists_last (l := s :: flat_map (fun g => match g with GString s => [s] | _ => [] end) t)) as (l & x & E); [discriminate|].
    exists l, x. exact E. }
  destruct Hl as (l & s & Hl). unfold c_Flush, dictFill. rewrite Hk, Hd. cbn [newColW cw_data dataStreams map].
  rewrite (assignAll_bad (cw_pending c) s).
  - reflexivity.
  - apply dictKeys_in. rewrite Hl. apply in_or_app. right. left. reflexivity.
  - apply (last_position _ _ l Hl).
  - apply repeat_length.
Qed.
End Dict.

(** The dictionary reader does look the indices up. *)
Section DictRead.
Variable inflate : list Z -> res (list Z).
Variable o : opts.
(** Reading all values until the end is seen. *)
Inductive YieldsEnd {ST A} (next : ST -> res (A * ST)) (fin : ST -> bool) : ST -> list A -> Prop :=
| YENil s : fin s = true -> YieldsEnd next fin s []
| YECons s x s' xs : fin s = false -> next s = Ok (x, s') -> YieldsEnd next fin s' xs -> YieldsEnd next fin s (x :: xs).

Lemma serves_finished r bs : serves inflate o r bs -> (r_finished r = true <-> bs = []).
Proof. intros H. specialize (H unit (Ret tt)). cbn in H. destruct H as (r' & Hr & Hf). assert (r' = r) as -> by congruence. exact Hf. Qed.
Lemma yields_end_pre (dec : prog (list Z)) xs : forall r bs ys, serves inflate o r bs ->
  (YieldsEnd (v_Next inflate o dec) v_Finished {| v_s := r; v_vals := [] |} ys) ->
  YieldsEnd (v_Next inflate o dec) v_Finished {| v_s := r; v_vals := xs |} (xs ++ ys).
Proof.
  induction xs as [|x t IH]; intros r bs ys Hs Hy; [exact Hy|]. cbn [app]. econstructor.
  - unfold v_Finished. cbn [v_vals length]. apply andb_false_r.
  - reflexivity.
  - eapply IH; eauto.
Qed.
Lemma yields_end_runs (dec : prog (list Z)) (Hne : forall i vs r, bytes i -> run dec i = Ok (vs, r) -> vs <> []) bs ws :
  Runs dec bs ws -> bytes bs -> forall r, serves inflate o r bs ->
  YieldsEnd (v_Next inflate o dec) v_Finished (newVreader r) ws.
Proof.
  intros Hr. induction Hr as [|i vs rest ws Hi Hrun Hrest IH].
  - intros _ r Hs. constructor. unfold v_Finished. cbn. apply serves_finished in Hs. rewrite (proj2 Hs eq_refl). reflexivity.
  - intros Hb r Hs. apply bytes_app in Hb. destruct Hb as [Hbc Hbi].
    destruct (serves_step inflate o dec r (i ++ rest) vs rest Hs (Hrun rest)) as (r' & Hr' & Hs').
    pose proof (Hrun []) as Hr0. apply Hne in Hr0; [|rewrite app_nil_r; exact Hbc].
    destruct vs as [|x t]; [congruence|]. cbn [app]. econstructor.
    + unfold v_Finished. cbn. destruct (r_finished r) eqn:E; [|reflexivity]. apply (serves_finished _ _ Hs) in E.
      destruct i; [congruence|discriminate].
    + unfold v_Next. cbn [newVreader v_vals v_s]. rewrite Hr'. cbn [rbind]. reflexivity.
    + eapply yields_end_pre; [exact Hs'|]. apply IH; [exact Hbi|exact Hs'].
Qed.

(** Up to 2^n strings at a time. *)
Notation unread l d ss := (YieldsEnd (v_Next inflate o DecodeUInt) v_Finished l (map zlen ss) /\ serves inflate o d (concat ss)).
Lemma load_many n : forall ss l d acc, Forall (fun s => zlen s < W63) ss -> unread l d ss ->
  exists ss1 ss2 l' d', ss = ss1 ++ ss2 /\ loadMany inflate o n (l, Some d, acc) = Ok (l', Some d', acc ++ ss1) /\
    unread l' d' ss2 /\ (ss2 = [] \/ zlen ss1 = 2 ^ Z.of_nat n).
Proof.
  induction n as [|n IH]; intros ss l d acc Hz [Hy Hs]; cbn [loadMany fst].
  - destruct ss as [|s ss]; cbn [map] in Hy.
    + inversion Hy as [? Hf|]; subst. rewrite Hf. exists [], [], l, d. rewrite (app_nil_r acc). split; [reflexivity|]. split; [reflexivity|]. split; [split; assumption|left; reflexivity].
    + inversion Hy as [|? ? l1 ? Hfin Hn Hy']; subst. inversion Hz as [|? ? Hzs Hzt]; subst. rewrite Hfin. cbn [concat] in Hs.
      destruct (serves_step inflate o (DecodeBytes (zlen s)) d (s ++ concat ss) s (concat ss) Hs) as (d1 & Hd & Hs').
      { apply (DecodeBytes_Encode s (concat ss)). }
      exists [s], ss, l1, d1. split; [reflexivity|]. unfold loadOne. rewrite Hn. cbn [rbind].
      rewrite i64_id by (unfold is_i64; pose proof (zlen_nonneg s); lia). rewrite Hd. cbn [rbind]. auto.
  - destruct (v_Finished l) eqn:Ef.
    { destruct ss as [|s ss]; [|inversion Hy; congruence]. exists [], [], l, d. rewrite (app_nil_r acc). split; [reflexivity|]. split; [reflexivity|]. split; [split; assumption|left; reflexivity]. }
    destruct (IH ss l d acc Hz (conj Hy Hs)) as (s1 & s2 & l1 & d1 & -> & H1 & Hu & Hor). rewrite H1. cbn [rbind].
    apply Forall_app in Hz. destruct Hz as [_ Hz2]. destruct (IH s2 l1 d1 (acc ++ s1) Hz2 Hu) as (s3 & s4 & l2 & d2 & -> & H2 & Hu2 & Hor2).
    exists (s1 ++ s3), s4, l2, d2. split; [rewrite app_assoc; reflexivity|]. rewrite H2, app_assoc. split; [reflexivity|]. split; [exact Hu2|].
    destruct Hor as [E|E]; [apply app_eq_nil in E; left; apply E|]. destruct Hor2 as [E2|E2]; [left; exact E2|]. right.
    rewrite zlen_app, E, E2. rewrite Nat2Z.inj_succ, Z.pow_succ_r by lia. lia.
Qed.
(** The dictionary [ss] is loaded, or waiting in its streams. *)
Definition DictHas (ss : list (list Z)) (r : dictR) : Prop :=
  if dr_loaded r then dr_strings r = ss
  else dr_strings r = [] /\ Forall (fun s => zlen s < W63) ss /\ zlen ss < W64 /\
       exists l d, dr_length r = Some l /\ dr_dict r = Some d /\ unread l d ss.
Lemma dict_load ss r : DictHas ss r -> exists l d, loadDict inflate o r = Ok (if dr_loaded r then r else dict_loaded ss (dict_words d l r)).
Proof.
  unfold DictHas, loadDict. destruct (dr_loaded r); [exists None, None; reflexivity|].
  intros (Hs & Hz & Hlen & l & d & -> & -> & Hu). destruct (load_many 64 ss l d (dr_strings r) Hz Hu) as (s1 & s2 & l' & d' & -> & H1 & [Hy Hsv] & Hor).
  rewrite H1. cbn [rbind]. assert (s2 = []) as ->.
  { destruct Hor as [E|E]; [exact E|]. rewrite zlen_app, E in Hlen. pose proof (zlen_nonneg s2). change (2 ^ Z.of_nat 64) with W64 in Hlen. lia. }
  rewrite Hs, app_nil_r. cbn [map app] in *. inversion Hy as [? Hf|]; subst. rewrite Hf. eauto.
Qed.
(** The row an index stands for. *)
Definition lookup (ss : list (list Z)) (i : Z) : gval := GString (nth (Z.to_nat i) ss []).
Definition DictRows (ss : list (list Z)) (col : list value) (p : option boolReader) (d : option (vreader Z)) : Prop :=
  match p with Some b => Yields (bool_Next inflate o) b (map (fun v => negb (Null v)) col) | None => True end /\
  exists v idx, d = Some v /\ Yields (v_Next inflate o DecodeUInt) v idx /\ Forall (fun i => 0 <= i < zlen ss) idx /\
    map (lookup ss) idx = nonnull (rows_of col).
Lemma nonnull_cons v col : nonnull (rows_of (v :: col)) = if Null v then nonnull (rows_of col) else V v :: nonnull (rows_of col).
Proof. unfold rows_of, nonnull. cbn [map flat_map]. unfold row_of at 1. destruct (Null v); reflexivity. Qed.
Lemma dict_rows ss vec : forall p d col, DictRows ss col p d -> (length vec <= length col)%nat ->
  (p = None -> map Null vec = map Null (firstn (length vec) col)) ->
  exists out p' d', dictRows inflate o ss p d vec = Ok (out, p', d') /\
    rows_of out = rows_of (firstn (length vec) col) /\ map Null out = map Null (firstn (length vec) col) /\
    DictRows ss (skipn (length vec) col) p' d' /\ (p' = None <-> p = None).
Proof.
  induction vec as [|v t IH]; intros p d col [Hp Hd] Hlen Hn.
  - exists [], p, d. cbn. split; [reflexivity|]. split; [reflexivity|]. split; [reflexivity|]. split; [split; assumption|tauto].
  - destruct col as [|x col]; [cbn in Hlen; lia|]. cbn [length firstn skipn map] in *.
    assert (Hpn : exists p1, (match p with
                          | Some b => let! (x, b') := bool_Next inflate o b in Ok (negb x, Some b')
                          | None => Ok (Null v, None)
                          end) = Ok (Null x, p1) /\
        match p1 with Some b => Yields (bool_Next inflate o) b (map (fun v => negb (Null v)) col) | None => True end /\
        (p1 = None <-> p = None)).
    { destruct p as [b|].
      - inversion Hp as [|? ? b' ? Hb Hb']; subst. rewrite Hb. cbn [rbind]. rewrite negb_involutive. eexists. split; [reflexivity|].
        split; [exact Hb'|]. split; discriminate.
      - specialize (Hn eq_refl). exists None. split; [congruence|]. split; [exact I|tauto]. }
    destruct Hpn as (p1 & Hp1 & Hy1 & Hiff). cbn [dictRows]. rewrite Hp1. cbn [rbind]. rewrite nonnull_cons in Hd.
    destruct Hd as (w & idx & -> & Hw & Hi & Hl).
    assert (Hn1 : p1 = None -> map Null t = map Null (firstn (length t) col)).
    { intros E. apply Hiff in E. specialize (Hn E). congruence. }
    destruct (Null x) eqn:Ex.
    + destruct (IH p1 (Some w) col) as (out & p2 & d2 & H1 & H2 & H3 & H4 & H5); [split; [exact Hy1|eauto 10]|lia|exact Hn1|].
      rewrite H1. cbn [rbind]. eexists _, p2, d2. split; [reflexivity|]. cbn [rows_of map Null]. rewrite H3.
      split; [unfold row_of at 1 3; rewrite Ex; cbn [Null]; f_equal; exact H2|]. split; [reflexivity|]. split; [exact H4|tauto].
    + destruct idx as [|i idx]; [discriminate|]. cbn [map] in Hl. inversion Hw as [|? ? w1 ? Hw1 Hw']; subst.
      inversion Hi as [|? ? Hi0 Hit]; subst. cbn [nextSecond]. rewrite Hw1. cbn [rbind]. replace (i <? zlen ss) with true by lia.
      assert (Hnth : nth_error ss (Z.to_nat i) = Some (nth (Z.to_nat i) ss [])) by (apply nth_error_nth'; unfold zlen in *; lia).
      rewrite Hnth. destruct (IH p1 (Some w1) col) as (out & p2 & d2 & H1 & H2 & H3 & H4 & H5); [split; [exact Hy1|]|lia|exact Hn1|].
      { exists w1, idx. split; [reflexivity|]. split; [exact Hw'|]. split; [exact Hit|]. congruence. }
      rewrite H1. cbn [rbind]. eexists _, p2, d2. split; [reflexivity|]. cbn [rows_of map Null]. rewrite H3.
      split; [unfold row_of at 1 3; rewrite Ex; cbn [Null V]; f_equal; [unfold lookup in Hl; congruence|exact H2]|].
      split; [reflexivity|]. split; [exact H4|tauto].
Qed.
(** A reader before the rows [col]. *)
Definition DictAt (ss : list (list Z)) (col : list value) (r : dictR) : Prop :=
  DictHas ss r /\ DictRows ss col (dr_present r) (dr_data r).
Lemma dict_batch ss col r vec : DictAt ss col r -> (length vec <= length col)%nat ->
  (dr_present r = None -> map Null vec = map Null (firstn (length vec) col)) ->
  exists out r', dict_NextBatch inflate o r vec = Ok (out, r') /\
    rows_of out = rows_of (firstn (length vec) col) /\ map Null out = map Null (firstn (length vec) col) /\
    DictAt ss (skipn (length vec) col) r' /\ (dr_present r' = None <-> dr_present r = None).
Proof.
  intros [Hh Hr] Hlen Hn. unfold dict_NextBatch. destruct (dict_load ss r Hh) as (l & d & ->). cbn [rbind].
  set (r1 := if dr_loaded r then r else _).
  assert (Hr1 : dr_loaded r1 = true /\ dr_strings r1 = ss /\ dr_present r1 = dr_present r /\ dr_data r1 = dr_data r).
  { subst r1. unfold DictHas in Hh. destruct (dr_loaded r) eqn:E; auto. }
  destruct Hr1 as (E1 & E2 & E3 & E4). rewrite E2, E3, E4.
  destruct (dict_rows ss vec _ _ col Hr Hlen Hn) as (out & p' & d' & -> & H2 & H3 & H4 & H5). cbn [rbind].
  eexists out, _. split; [reflexivity|]. split; [exact H2|]. split; [exact H3|]. split; [|exact H5].
  split; [|exact H4]. unfold DictHas. cbn [dict_at dr_loaded dr_strings]. rewrite E1. exact E2.
Qed.
End DictRead.
