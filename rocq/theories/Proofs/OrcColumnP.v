(** Columns of any writer that follows the ORC specification. *)
From Verif.Model Require Import Go Codec ByteBool IntRle Chunk Stream Time File Column.
From Verif.Spec Require Import BoolSpec Session Bits IntSpec OrcInt ChunkSpec StreamSpec ColumnSpec OrcColumn.
From Verif.Proofs Require Import Base CodecP SessionP ByteBoolP OrcIntP ChunkP StreamP StreamClaimsP ReadP ColumnP ColumnReadP TimeP LeafP ColumnFaultsP.

(** ** The encodings *)
Lemma read_n_run l : forall i, run (read_n (length l)) (l ++ i) = Ok (l, i).
Proof.
  induction l as [|b t IH]; intros i; [reflexivity|]. cbn [length read_n app]. rewrite run_byte, run_bind, IH. reflexivity.
Qed.
Lemma orc_bytes_runs i xs : orc_bytes i xs -> Runs DecodeByteRL i xs.
Proof.
  induction 1 as [|h v i xs Hh Hi IH|h l i xs Hh Hl Hi IH]; [constructor|..].
  - change (h :: v :: i) with ([h; v] ++ i). apply RunsCons; [discriminate| |exact IH].
    intros t. cbn [app]. unfold DecodeByteRL. rewrite run_byte. destruct (Z.ltb_spec h 128); [|lia].
    rewrite run_byte. cbn. unfold MinRepeats. replace (Z.to_nat (h + 3)) with (Z.to_nat h + 3)%nat by lia. reflexivity.
  - change (h :: l ++ i) with ((h :: l) ++ i). apply RunsCons; [discriminate| |exact IH].
    intros t. cbn [app]. unfold DecodeByteRL. rewrite run_byte. destruct (Z.ltb_spec h 128); [lia|].
    replace (Z.to_nat (- (h - 256))) with (length l) by (unfold zlen in Hl; lia). apply read_n_run.
Qed.
Lemma orc_bytes_bytes i xs : orc_bytes i xs -> bytes i -> bytes xs.
Proof.
  induction 1 as [|h v i xs Hh Hi IH|h l i xs Hh Hl Hi IH]; intros Hb; [constructor|..].
  - inversion Hb as [|? ? _ Hb1]; subst. inversion Hb1 as [|? ? Hv Hb2]; subst. apply bytes_app. split; [|auto].
    apply Forall_forall. intros x Hx. apply repeat_spec in Hx. subst. exact Hv.
  - inversion Hb as [|? ? _ Hb1]; subst. apply bytes_app in Hb1. apply bytes_app. split; [apply Hb1|apply IH, Hb1].
Qed.

Lemma land1 x : (Z.land x 1 =? 1) = Z.odd x.
Proof.
  change 1 with (Z.ones 1) at 1. rewrite Z.land_ones by lia. change (2 ^ 1) with 2. rewrite Zmod_odd.
  destruct (Z.odd x); reflexivity.
Qed.
Lemma bitsof_bitsN b : DecodeBoolsFromByte b = bitsN 8 b.
Proof.
  unfold DecodeBoolsFromByte. cbn [map bitsN]. rewrite !land1, <- !Z.bit0_odd, !Z.shiftr_spec by lia. reflexivity.
Qed.
Lemma orc_ints_runs signed i xs : orc_ints orc_supported signed i xs -> bytes i -> Runs (DecodeFor signed) i xs.
Proof.
  induction 1 as [|i vs r xs Hr Hs Hi IH]; intros Hb; [constructor|].
  pose proof (orc_agrees signed i vs r Hb Hr Hs) as H. destruct (run_local _ _ _ _ H) as (c & Hc & Hrun).
  rewrite Hc in *. apply bytes_app in Hb. destruct Hb as [_ Hb]. apply RunsCons; [|exact Hrun|apply IH, Hb].
  intros ->. cbn [app] in *. destruct r as [|h r]; [discriminate|].
  (* a run has at least its header *)
  specialize (Hrun []). cbn in Hrun. destruct signed; discriminate.
Qed.
Lemma little8 x : is_u64 x -> little 8 x = double_Encode x.
Proof.
  intros _. unfold double_Encode, le64, u8. cbn [little]. rewrite !Z.shiftr_div_pow2 by lia.
  rewrite !Z.div_div by lia. repeat f_equal.
Qed.

Section Read.
Variable inflate : list Z -> res (list Z).
Variable o : opts.
Hypothesis Ho : supported o.
Variable file : list Z.
Hypothesis Hfile : zlen file < W64.

(** A reader opened on a stored stream serves its contents. *)
Lemma framed_serves pre enc post bs : file = pre ++ enc ++ post -> framed (fun d => d <> []) inflate o enc bs ->
  serves inflate o (newReader file (zlen pre) (zlen enc)) bs.
Proof.
  intros Hf Hfr. assert (Hl : 0 <= zlen enc < W64).
  { rewrite Hf, !zlen_app in Hfile. pose proof (zlen_nonneg pre). pose proof (zlen_nonneg post). pose proof (zlen_nonneg enc). lia. }
  apply (Rep_serves inflate o Ho file (zlen pre) (zlen enc) Hl).
  unfold Rep, newReader. cbn. repeat split; [lia|]. exists enc, post. rewrite Hf at 1. rewrite zdrop_app.
  split; [reflexivity|]. split; [lia|]. unfold framed in Hfr.
  destruct Ho as [[Hk|Hk] _]; rewrite Hk in *; [symmetry; exact Hfr|].
  destruct Hfr as (ds & Hc & Hq & <-). exists ds. repeat split; assumption.
Qed.

(** Opening the streams, in any order. *)
Definition rd (s : strm) (off : Z) : reader := newReader file off (st_length s).
Lemma init_all k l : forall c, cr_kind c = k -> readable k = true \/ k = KBinary ->
  NoDup (kinds l) -> incl (kinds l) (0 :: 1 :: match k with KString | KBinary => [2] | KDict => [2; 3] | KTimestamp | KDecimal => [5] | _ => [] end) ->
  present_allowed k (cr_hasNulls c) l ->
  exists r, InitStreams file c l = Ok r /\ cr_kind r = k /\ cr_hasNulls r = cr_hasNulls c /\ cr_index r = cr_index c /\
    (~ In 0 (kinds l) -> cr_present r = cr_present c) /\ (~ In 1 (kinds l) -> cr_data r = cr_data c) /\
    (~ In 2 (kinds l) -> cr_second r = cr_second c) /\
    forall s off, In (s, off) l ->
      (st_kind s = 0 -> cr_present r = Some (newBoolReader (rd s off))) /\
      (st_kind s = 1 -> cr_data r = dataReader k (rd s off)) /\
      (st_kind s = 2 -> cr_second r = Some (newVreader (rd s off))).
Proof.
  clear inflate o Ho Hfile.
  induction l as [|[s off] l IH]; intros c Hk Hrd Hnd Hin Hn.
  { exists c. repeat split; auto; intros; contradiction. }
  unfold present_allowed, kinds in Hnd, Hin, Hn. cbn [map fst] in Hnd, Hin, Hn. inversion Hnd as [|? ? Hni Hnd']; subst.
  assert (Hin' : incl (kinds l) (0 :: 1 :: match cr_kind c with KString | KBinary => [2] | KDict => [2; 3] | KTimestamp | KDecimal => [5] | _ => [] end)).
  { intros x Hx. apply Hin. right. exact Hx. }
  assert (Hi : exists c1, InitStream file c s off = Ok c1 /\ cr_kind c1 = cr_kind c /\ cr_hasNulls c1 = cr_hasNulls c /\
    cr_index c1 = cr_index c /\
    cr_present c1 = (if st_kind s =? 0 then Some (newBoolReader (rd s off)) else cr_present c) /\
    cr_data c1 = (if st_kind s =? 1 then dataReader (cr_kind c) (rd s off) else cr_data c) /\
    cr_second c1 = (if st_kind s =? 2 then Some (newVreader (rd s off)) else cr_second c)).
  { unfold InitStream. fold (rd s off).
    assert (H012 : st_kind s = 0 \/ st_kind s = 1 \/ (st_kind s = 2 /\ (cr_kind c = KString \/ cr_kind c = KBinary))).
    { destruct (Hin (st_kind s) (or_introl eq_refl)) as [H|[H|H]]; [auto|auto|]. right. right.
      destruct (cr_kind c); cbn in H; try contradiction; try (destruct H as [H|[]]; auto); destruct Hrd; discriminate. }
    destruct H012 as [E|[E|[E Ek]]]; rewrite E in *; cbn [Z.eqb Pos.eqb].
    - pose proof (Hn (or_introl eq_refl)) as Hh. exists (setPresent (newBoolReader (rd s off)) c).
      split; [destruct (cr_kind c); try reflexivity; destruct Hh as [->|Hh]; try reflexivity; cbn in Hh;
              decompose [or] Hh; solve [discriminate|contradiction]|].
      cbn. auto 10.
    - destruct (dataReader (cr_kind c) (rd s off)) as [d|] eqn:Ed.
      + exists (setData d c). split; [reflexivity|]. cbn. auto 10.
      + exfalso. destruct Hrd as [Hrd|Hrd]; destruct (cr_kind c); discriminate.
    - exists (setSecond (newVreader (rd s off)) c). split; [destruct Ek as [->| ->]; reflexivity|]. cbn. auto 10. }
  destruct Hi as (c1 & Hi & Hk1 & Hh1 & Hx1 & Hp1 & Hd1 & Hs1).
  destruct (IH c1 Hk1 Hrd Hnd' Hin') as (r & Hr & Hkr & Hhr & Hxr & Np & Nd & Ns & Hall).
  { unfold present_allowed. rewrite Hh1. intros H. apply Hn. right. exact H. }
  exists r. cbn [InitStreams]. rewrite Hi. cbn [rbind]. split; [exact Hr|]. split; [exact Hkr|].
  split; [congruence|]. split; [congruence|]. unfold kinds in *. cbn [map fst In].
  split; [|split; [|split]].
  - intros H. rewrite Np by tauto. rewrite Hp1. destruct (Z.eqb_spec (st_kind s) 0); tauto.
  - intros H. rewrite Nd by tauto. rewrite Hd1. destruct (Z.eqb_spec (st_kind s) 1); tauto.
  - intros H. rewrite Ns by tauto. rewrite Hs1. destruct (Z.eqb_spec (st_kind s) 2); tauto.
  - intros s' off' [H|H]; [|apply Hall; exact H]. assert (s' = s /\ off' = off) as [-> ->] by (split; congruence).
    split; [|split]; intros E; rewrite E in *.
    + rewrite Np by exact Hni. exact Hp1.
    + rewrite Nd by exact Hni. exact Hd1.
    + rewrite Ns by exact Hni. exact Hs1.
Qed.

(** What the streams hold, as seen by a reader whose streams are open. *)
Definition Opened (l : list (strm * Z)) (k : ckind) (r : colR) : Prop :=
  cr_kind r = k /\ (In 0 (kinds l) -> exists s off, In (s, off) l /\ st_kind s = 0) /\
  forall s off, In (s, off) l ->
      (st_kind s = 0 -> cr_present r = Some (newBoolReader (rd s off))) /\
      (st_kind s = 1 -> cr_data r = dataReader k (rd s off)) /\
      (st_kind s = 2 -> cr_second r = Some (newVreader (rd s off))).
Notation holds := (holds (fun d => d <> []) inflate o file).
Lemma holds_serves l k r kind bs : Opened l k r -> holds l kind bs ->
  exists rr, serves inflate o rr bs /\ bytes bs /\
    (kind = 0 -> cr_present r = Some (newBoolReader rr)) /\
    (kind = 1 -> cr_data r = dataReader k rr) /\ (kind = 2 -> cr_second r = Some (newVreader rr)).
Proof.
  intros (_ & _ & Hop) (s & off & pre & enc & post & Hin & Hk & Hf & Hoff & Hl & Hfr & Hb).
  exists (rd s off). split; [unfold rd; rewrite Hoff, Hl; eapply framed_serves; eassumption|]. split; [exact Hb|].
  destruct (Hop s off Hin) as (H0 & H1 & H2). subst kind. auto.
Qed.
Lemma ints_yield signed b xs rr : serves inflate o rr b -> bytes b -> orc_ints orc_supported signed b xs ->
  Yields (v_Next inflate o (DecodeFor signed)) (newVreader rr) xs.
Proof.
  intros Hs Hb Hi. eapply yields_runs; [|apply orc_ints_runs; eassumption|exact Hb|exact Hs].
  destruct signed; [exact Int_nonempty|exact UInt_nonempty].
Qed.
Lemma bits_yield b bits rr : serves inflate o rr b -> bytes b -> orc_bits b bits ->
  exists more, Yields (bool_Next inflate o) (newBoolReader rr) (bits ++ more).
Proof.
  intros Hs Hb (bs & more & Hby & Hbits). exists more. rewrite <- Hbits.
  replace (bitsOfBytes bs) with (flat_map DecodeBoolsFromByte bs).
  - apply yields_bits. eapply yields_runs; [exact ByteRL_nonempty|apply orc_bytes_runs; exact Hby|exact Hb|exact Hs].
  - unfold bitsOfBytes. rewrite !flat_map_concat_map. f_equal. apply map_ext. exact bitsof_bitsN.
Qed.
Notation nv := (fun c => nextValue inflate o c GNil).
Lemma data_values k l r gs : readable k = true -> k <> KFloat -> Opened l k r ->
  orc_data orc_supported (fun d => d <> []) inflate o file l k gs -> exists more, Yields nv r (gs ++ more).
Proof.
  intros Hrd Hnf Hop Hd. pose proof Hop as (Hk & _).
  destruct k; try discriminate; try congruence; cbn [orc_data] in Hd.
  1-4, 8:
    destruct Hd as (b & xs & Hh & Hd); destruct (holds_serves _ _ _ _ _ Hop Hh) as (rr & Hs & Hb & _ & H1 & _);
    specialize (H1 eq_refl); cbn [dataReader] in H1; exists []; rewrite app_nil_r.
  - destruct Hd as (Hi & Hr & ->). pose proof (ints_yield true b xs rr Hs Hb Hi) as Hy.
    replace (map GInt16 xs) with (map (fun x => GInt16 (i16 x)) xs).
    2: { apply map_ext_in. intros x Hx. rewrite Forall_forall in Hr. rewrite i16_id by (apply (Hr x Hx)). reflexivity. }
    eapply yields_run; [|exact H1|exact Hy].
    intros c' Hc'. unfold nextValue. rewrite Hc', Hk. reflexivity.
  - destruct Hd as (Hi & Hr & ->). pose proof (ints_yield true b xs rr Hs Hb Hi) as Hy.
    replace (map GInt32 xs) with (map (fun x => GInt32 (i32 x)) xs).
    2: { apply map_ext_in. intros x Hx. rewrite Forall_forall in Hr. rewrite i32_id by (apply (Hr x Hx)). reflexivity. }
    eapply yields_run; [|exact H1|exact Hy].
    intros c' Hc'. unfold nextValue. rewrite Hc', Hk. reflexivity.
  - destruct Hd as (Hi & ->). pose proof (ints_yield true b xs rr Hs Hb Hi) as Hy.
    eapply yields_run; [|exact H1|exact Hy].
    intros c' Hc'. unfold nextValue. rewrite Hc', Hk. reflexivity.
  - destruct Hd as (Hi & ->).
    eapply yields_run; [|exact H1|].
    + intros c' Hc'. unfold nextValue. rewrite Hc', Hk. reflexivity.
    + eapply yields_runs; [exact ByteRL_nonempty|apply orc_bytes_runs; exact Hi|exact Hb|exact Hs].
  - destruct Hd as (Hi & Hr & ->). pose proof (ints_yield true b xs rr Hs Hb Hi) as Hy.
    replace (map (fun n => GDate (n * DayNs)) xs) with (map (fun x => GDate (FromDays (i32 x))) xs).
    2: { apply map_ext_in. intros x Hx. rewrite Forall_forall in Hr. specialize (Hr x Hx). rewrite i32_id by lia.
         rewrite FromDays_exact by lia. reflexivity. }
    eapply yields_run; [|exact H1|exact Hy].
    intros c' Hc'. unfold nextValue. rewrite Hc', Hk. reflexivity.
  - destruct Hd as (b & xs & Hh & Hi & ->). destruct (holds_serves _ _ _ _ _ Hop Hh) as (rr & Hs & Hb & _ & H1 & _).
    specialize (H1 eq_refl). cbn [dataReader] in H1. destruct (bits_yield b xs rr Hs Hb Hi) as (more & Hy).
    exists (map GBool more). rewrite <- map_app. eapply yields_bool; [exact Hk|exact H1|exact Hy].
  - destruct Hd as (xs & Hh & Hr & ->). destruct (holds_serves _ _ _ _ _ Hop Hh) as (rr & Hs & Hb & _ & H1 & _).
    specialize (H1 eq_refl). cbn [dataReader] in H1. exists []. rewrite app_nil_r.
    eapply yields_prog; [|exact H1|].
    + intros c' Hc'. unfold nextValue. rewrite Hc', Hk. reflexivity.
    + eapply (yields_raw inflate o DecodeDouble (little 8)); [|exact Hs]. intros x t Hx. rewrite Forall_forall in Hr.
      rewrite little8 by (apply (Hr x Hx)). apply DecodeDouble_Encode. apply (Hr x Hx).
  - destruct Hd as (b & ss & Hh1 & Hh2 & Hi & Hz & ->).
    destruct (holds_serves _ _ _ _ _ Hop Hh1) as (rr & Hs & _ & _ & H1 & _).
    destruct (holds_serves _ _ _ _ _ Hop Hh2) as (r2 & Hs2 & Hb2 & _ & _ & H2).
    specialize (H1 eq_refl). specialize (H2 eq_refl). cbn [dataReader] in H1. exists []. rewrite app_nil_r.
    eapply yields_string; [exact Hk|exact H1|exact H2|exact Hz|exact Hs|]. exact (ints_yield false b _ r2 Hs2 Hb2 Hi).
Qed.

Lemma deal_rows rows : forall l gs, exists r, deal (map is_some rows ++ l) (nonnull rows ++ gs) = rows ++ r.
Proof.
  clear. induction rows as [|x t IH]; intros l gs; [eexists; reflexivity|]. destruct (IH l gs) as (r & Hr). exists r.
  destruct x; cbn [map app nonnull flat_map is_some deal]; fold (nonnull t); rewrite Hr; reflexivity.
Qed.
Lemma all_some (rows : list (option gval)) : forallb is_some rows = true -> map Some (nonnull rows) = rows.
Proof.
  clear. induction rows as [|x t IH]; [reflexivity|]. cbn [forallb nonnull flat_map]. intros H. apply andb_prop in H.
  destruct H as [Hx Ht]. destruct x; [|discriminate]. cbn [app map]. fold (nonnull t). rewrite IH by exact Ht. reflexivity.
Qed.

Lemma opened_from k l rows c : readable k = true \/ k = KBinary -> cr_kind c = k -> cr_present c = None ->
  present_allowed k (cr_hasNulls c) l -> orc_column orc_supported (fun d => d <> []) inflate o file l k rows ->
  exists r, InitStreams file c l = Ok r /\ Opened l k r /\ (~ In 0 (kinds l) -> cr_present r = None).
Proof.
  intros Hrd Hkc Hpc Hp (Hnd & Hinc & _). destruct (init_all k l c Hkc Hrd Hnd Hinc Hp)
    as (r & Hr & Hk & _ & _ & Hnp & _ & _ & Hall).
  exists r. split; [exact Hr|]. split; [|intros H; rewrite Hnp by exact H; exact Hpc]. split; [exact Hk|]. split; [|exact Hall].
  intros H. unfold kinds in H. apply in_map_iff in H. destruct H as ([s off] & E & H). exists s, off. auto.
Qed.
Notation column := (orc_column orc_supported (fun d => d <> []) inflate o file).
Lemma rows_yield k hn l rows : readable k = true -> k <> KFloat -> present_allowed k hn l -> column l k rows ->
  exists r, InitStreams file (newColR k hn) l = Ok r /\ cr_kind r = k /\ exists more, Yields (rowNext inflate o) r (rows ++ more).
Proof.
  intros Hrd Hnf Hpa Hc. destruct (opened_from k l rows (newColR k hn) (or_introl Hrd) eq_refl eq_refl Hpa Hc) as (r & Hr & Hop & Hnp).
  exists r. split; [exact Hr|]. pose proof Hop as (Hk & _). split; [exact Hk|]. destruct Hc as (_ & _ & Hd & Hpres).
  destruct (data_values k l r _ Hrd Hnf Hop Hd) as (mv & Hv).
  destruct (in_dec Z.eq_dec 0 (kinds l)) as [Hi|Hi].
  - destruct Hpres as (b & Hh & Hbits). destruct (holds_serves _ _ _ _ _ Hop Hh) as (rr & Hs & Hb & H0 & _).
    specialize (H0 eq_refl). destruct (bits_yield b _ rr Hs Hb Hbits) as (mb & Hy).
    destruct (deal_rows rows mb mv) as (more & Hm). exists more. rewrite <- Hm.
    eapply yields_rows_bits; [rewrite Hk; exact Hrd|exact H0|exact Hy|exact Hv].
  - exists (map Some mv). rewrite <- (all_some rows Hpres) at 1. rewrite <- map_app.
    apply yields_rows_all; [rewrite Hk; exact Hrd|exact (Hnp Hi)|exact Hv].
Qed.
Lemma orc_reads k hn l rows : readable k = true -> k <> KFloat -> present_allowed k hn l -> column l k rows ->
  column_reads inflate o file l k hn rows.
Proof.
  intros Hrd Hnf Hpa Hc. destruct (rows_yield k hn l rows Hrd Hnf Hpa Hc) as (r & Hr & Hk & more & Hy).
  exists r. split; [exact Hr|]. intros vecs Hle Hnull.
  destruct (readBatches_rows inflate o vecs r (rows ++ more)) as (outs & r' & H1 & H2); auto.
  - rewrite Hk. exact Hrd.
  - rewrite app_length. lia.
  - exists outs, r'. split; [exact H1|]. rewrite H2. apply cut_app. exact Hle.
Qed.

(** *** Binary columns are read as string columns are. *)
Lemma InitStreams_bin l : forall c r, cr_kind c = KString -> (In 0 (kinds l) -> cr_hasNulls c = true) -> InitStreams file c l = Ok r ->
  cr_kind r = KString /\ InitStreams file (bin c) l = Ok (bin r).
Proof.
  induction l as [|[s off] l IH]; intros c r Hk Hh H; cbn [InitStreams] in *.
  - assert (r = c) as -> by congruence. auto.
  - apply rbind_inv in H. destruct H as (c1 & H1 & H).
    assert (H2 : cr_kind c1 = KString /\ cr_hasNulls c1 = cr_hasNulls c /\ InitStream file (bin c) s off = Ok (bin c1)).
    { unfold InitStream in *. cbn [bin cr_kind cr_hasNulls]. rewrite Hk in H1. cbn [dataReader] in *.
      destruct (st_kind s =? 0) eqn:E0.
      { apply Z.eqb_eq in E0. assert (Hc : cr_hasNulls c = true) by (apply Hh; left; exact E0). rewrite Hc.
        assert (c1 = setPresent (newBoolReader (newReader file off (st_length s))) c) as -> by congruence. split; [exact Hk|]. split; [exact Hc|reflexivity]. }
      destruct (st_kind s =? 1) eqn:E1.
      { assert (c1 = setData (RRaw (newReader file off (st_length s))) c) as -> by congruence. split; [exact Hk|split; reflexivity]. }
      destruct (st_kind s =? 2) eqn:E2; [|discriminate].
      assert (c1 = setSecond (newVreader (newReader file off (st_length s))) c) as -> by congruence. split; [exact Hk|split; reflexivity]. }
    destruct H2 as (Hk1 & Hh1 & ->). cbn [rbind]. apply IH; [assumption| |assumption].
    intros H0. rewrite Hh1. apply Hh. right. exact H0.
Qed.
Lemma readBatches_bin vecs : forall c outs c', cr_kind c = KString -> readBatches inflate o c vecs = Ok (outs, c') ->
  exists outs', readBatches inflate o (bin c) vecs = Ok (outs', bin c') /\
    map rows_of outs' = map (map (option_map tob)) (map rows_of outs).
Proof.
  induction vecs as [|v t IH]; intros c outs c' Hk H; cbn [readBatches] in *.
  - assert (outs = [] /\ c' = c) as [-> ->] by (split; congruence). exists []. split; reflexivity.
  - apply rbind_inv in H. destruct H as ([x c1] & H1 & H). apply rbind_inv in H. destruct H as ([xs c2] & H2 & H).
    assert (outs = x :: xs /\ c' = c2) as [-> ->] by (split; congruence).
    destruct (NextBatch_bin inflate o v c x c1 Hk H1) as (Hk1 & y & -> & Hy). cbn [rbind].
    destruct (IH c1 xs c2 Hk1 H2) as (ys & -> & Hys). cbn [rbind].
    eexists. split; [reflexivity|]. cbn [map]. rewrite Hy, Hys. reflexivity.
Qed.
Lemma cut_map {A B C} (f : A -> B) (vecs : list (list C)) : forall l, cut vecs (map f l) = map (map f) (cut vecs l).
Proof.
  induction vecs as [|v t IH]; intros l; [reflexivity|]. cbn [cut map]. rewrite firstn_map, skipn_map, IH. reflexivity.
Qed.
Lemma binary_as_string l rows : column l KBinary rows -> column l KString (map (option_map tos) rows) /\
  map (option_map tob) (map (option_map tos) rows) = rows /\
  Forall (fun x => forall g, x = Some g -> exists s, g = GBytes s) rows.
Proof.
  intros (Hnd & Hinc & (b & ss & Hh1 & Hh2 & Hi & Hz & Hgs) & Hpres).
  set (rows' := map (option_map tos) rows).
  assert (Hback : map (option_map tob) rows' = rows /\ nonnull rows' = map GString ss /\
    Forall (fun x => forall g, x = Some g -> exists s, g = GBytes s) rows).
  { subst rows'. clear - Hgs. revert ss Hgs. induction rows as [|x t IH]; intros ss Hgs.
    - destruct ss; [|discriminate]. split; [reflexivity|]. split; [reflexivity|constructor].
    - destruct x as [g|]; cbn [nonnull flat_map app map option_map] in *; fold (nonnull t) in *.
      + destruct ss as [|s ss]; [discriminate|]. cbn [map] in Hgs. assert (g = GBytes s) as -> by congruence.
        destruct (IH ss) as (H1 & H2 & H3); [congruence|]. cbn [tos tob]. rewrite H1. split; [reflexivity|].
        fold (nonnull (map (option_map tos) t)). rewrite H2. split; [reflexivity|]. constructor; [|exact H3].
        intros g Hg. exists s. congruence.
      + destruct (IH ss Hgs) as (H1 & H2 & H3). rewrite H1. split; [reflexivity|]. split; [exact H2|]. constructor; [discriminate|exact H3]. }
  destruct Hback as (Hb & Hss & Hby). split; [|split; [exact Hb|exact Hby]].
  assert (Hsome : map is_some rows' = map is_some rows).
  { subst rows'. rewrite map_map. apply map_ext. intros [|]; reflexivity. }
  assert (Hall : forallb is_some rows' = forallb is_some rows).
  { subst rows'. clear. induction rows as [|[|] t IH]; cbn [map forallb option_map is_some andb]; congruence. }
  split; [exact Hnd|]. split; [exact Hinc|]. split.
  - exists b, ss. auto 10.
  - rewrite Hsome, Hall. exact Hpres.
Qed.
Lemma orc_reads_binary hn l rows : present_allowed KBinary hn l -> column l KBinary rows -> column_reads inflate o file l KBinary hn rows.
Proof.
  intros Hp Hc. destruct (binary_as_string l rows Hc) as (Hc' & Hb & _). clear Hc. set (rows' := map (option_map tos) rows) in *.
  assert (Hhn : In 0 (kinds l) -> hn = true).
  { intros H. destruct (Hp H) as [H0|H0]; [exact H0|]. cbn in H0. decompose [or] H0; solve [discriminate|contradiction]. }
  destruct (rows_yield KString hn l rows' eq_refl ltac:(discriminate) ltac:(right; cbn; auto) Hc') as (r & Hr & Hk & more & Hy).
  destruct (InitStreams_bin l (newColR KString hn) r eq_refl Hhn Hr) as [_ Hr'].
  exists (bin r). split; [exact Hr'|]. intros vecs Hle Hnull.
  assert (Hlen : length rows' = length rows) by (unfold rows'; apply map_length).
  destruct (readBatches_rows inflate o vecs r (rows' ++ more)) as (outs & r' & H1 & H2); auto.
  - rewrite Hk. reflexivity.
  - rewrite app_length. lia.
  - destruct (readBatches_bin vecs r outs r' Hk H1) as (outs' & H3 & H4). exists outs', (bin r'). split; [exact H3|].
    rewrite H4, H2, cut_app by lia. rewrite <- cut_map, Hb. reflexivity.
Qed.

(** *** Columns with a dictionary *)
Lemma dict_init_all l : forall d, NoDup (kinds l) -> incl (kinds l) [0; 1; 2; 3] -> (In 0 (kinds l) -> dr_hasNulls d = true) ->
  exists r, dict_InitStreams file d l = Ok r /\ dr_loaded r = dr_loaded d /\ dr_strings r = dr_strings d /\
    (~ In 0 (kinds l) -> dr_present r = dr_present d) /\ (~ In 1 (kinds l) -> dr_data r = dr_data d) /\
    (~ In 2 (kinds l) -> dr_length r = dr_length d) /\ (~ In 3 (kinds l) -> dr_dict r = dr_dict d) /\
    forall s off, In (s, off) l ->
      (st_kind s = 0 -> dr_present r = Some (newBoolReader (rd s off))) /\
      (st_kind s = 1 -> dr_data r = Some (newVreader (rd s off))) /\
      (st_kind s = 2 -> dr_length r = Some (newVreader (rd s off))) /\
      (st_kind s = 3 -> dr_dict r = Some (rd s off)).
Proof.
  clear inflate o Ho Hfile.
  induction l as [|[s off] l IH]; intros d Hnd Hin Hn.
  { exists d. split; [reflexivity|]. repeat split; auto; intros; contradiction. }
  unfold kinds in Hnd, Hin, Hn. cbn [map fst] in Hnd, Hin, Hn. inversion Hnd as [|? ? Hni Hnd']; subst.
  assert (Hin' : incl (kinds l) [0; 1; 2; 3]) by (intros x Hx; apply Hin; right; exact Hx).
  assert (Hi : exists d1, dict_InitStream file d s off = Ok d1 /\ dr_hasNulls d1 = dr_hasNulls d /\
    dr_loaded d1 = dr_loaded d /\ dr_strings d1 = dr_strings d /\
    dr_present d1 = (if st_kind s =? 0 then Some (newBoolReader (rd s off)) else dr_present d) /\
    dr_data d1 = (if st_kind s =? 1 then Some (newVreader (rd s off)) else dr_data d) /\
    dr_length d1 = (if st_kind s =? 2 then Some (newVreader (rd s off)) else dr_length d) /\
    dr_dict d1 = (if st_kind s =? 3 then Some (rd s off) else dr_dict d)).
  { unfold dict_InitStream. fold (rd s off).
    assert (H : st_kind s = 0 \/ st_kind s = 1 \/ st_kind s = 2 \/ st_kind s = 3).
    { specialize (Hin (st_kind s) (or_introl eq_refl)). cbn in Hin. lia. }
    destruct H as [E|[E|[E|E]]]; rewrite E in *; cbn [Z.eqb Pos.eqb].
    - rewrite (Hn (or_introl eq_refl)). eexists. split; [reflexivity|]. cbn. rewrite (Hn (or_introl eq_refl)). auto 10.
    - eexists. split; [reflexivity|]. cbn. auto 10.
    - eexists. split; [reflexivity|]. cbn. auto 10.
    - eexists. split; [reflexivity|]. cbn. auto 10. }
  destruct Hi as (d1 & Hi & Hh & Hl & Hs & E0 & E1 & E2 & E3).
  destruct (IH d1 Hnd' Hin') as (r & Hr & Hlr & Hsr & N0 & N1 & N2 & N3 & Hall).
  { rewrite Hh. intros H. apply Hn. right. exact H. }
  exists r. cbn [dict_InitStreams]. rewrite Hi. cbn [rbind]. split; [exact Hr|]. split; [congruence|]. split; [congruence|].
  unfold kinds in *. cbn [map fst In]. split; [|split; [|split; [|split]]].
  - intros H. rewrite N0 by tauto. rewrite E0. destruct (Z.eqb_spec (st_kind s) 0); tauto.
  - intros H. rewrite N1 by tauto. rewrite E1. destruct (Z.eqb_spec (st_kind s) 1); tauto.
  - intros H. rewrite N2 by tauto. rewrite E2. destruct (Z.eqb_spec (st_kind s) 2); tauto.
  - intros H. rewrite N3 by tauto. rewrite E3. destruct (Z.eqb_spec (st_kind s) 3); tauto.
  - intros s' off' [H|H]; [|apply Hall; exact H]. assert (s' = s /\ off' = off) as [-> ->] by (split; congruence).
    split; [|split; [|split]]; intros E; rewrite E in *.
    + rewrite N0 by exact Hni. exact E0.
    + rewrite N1 by exact Hni. exact E1.
    + rewrite N2 by exact Hni. exact E2.
    + rewrite N3 by exact Hni. exact E3.
Qed.
(** The stream of a kind, once opened. *)
Lemma holds_rd l kind bs : holds l kind bs -> exists s off, In (s, off) l /\ st_kind s = kind /\ serves inflate o (rd s off) bs /\ bytes bs.
Proof.
  intros (s & off & pre & enc & post & Hin & Hk & Hf & Hoff & Hl & Hfr & Hb). exists s, off. split; [exact Hin|]. split; [exact Hk|].
  split; [unfold rd; rewrite Hoff, Hl; eapply framed_serves; eassumption|exact Hb].
Qed.
Lemma dict_opens l d rows : column l KDict rows -> dr_loaded d = false -> dr_strings d = [] -> dr_present d = None ->
  (In 0 (kinds l) -> dr_hasNulls d = true) ->
  exists r ss, dict_InitStreams file d l = Ok r /\ (dr_present r = None <-> ~ In 0 (kinds l)) /\
    (~ In 0 (kinds l) -> forallb is_some rows = true) /\
    forall col, nonnull (rows_of col) = nonnull rows -> (In 0 (kinds l) -> rows_of col = rows) -> DictAt inflate o ss col r.
Proof.
  intros (Hnd & Hin & (b & xs & e & ss & H1 & H2 & H3 & I1 & I2 & Hz & Hlen & Hx & Hg) & Hpres) Hl Hs Hp Hh.
  destruct (dict_init_all l d Hnd Hin Hh) as (r & Hr & Hlr & Hsr & N0 & _ & _ & _ & Hall). exists r, ss. split; [exact Hr|].
  destruct (holds_rd _ _ _ H1) as (s1 & o1 & In1 & K1 & S1 & B1). destruct (holds_rd _ _ _ H2) as (s2 & o2 & In2 & K2 & S2 & B2).
  destruct (holds_rd _ _ _ H3) as (s3 & o3 & In3 & K3 & S3 & B3).
  pose proof (proj1 (proj2 (Hall _ _ In1)) K1) as D1. pose proof (proj1 (proj2 (proj2 (Hall _ _ In2))) K2) as D2.
  pose proof (proj2 (proj2 (proj2 (Hall _ _ In3))) K3) as D3.
  assert (Hhas : DictHas inflate o ss r).
  { unfold DictHas. rewrite Hlr, Hl. split; [congruence|]. split; [exact Hz|]. split; [change (2 ^ 32) with 4294967296 in Hlen; lia|].
    exists (newVreader (rd s2 o2)), (rd s3 o3). split; [exact D2|]. split; [exact D3|]. split; [|exact S3].
    eapply yields_end_runs; [exact UInt_nonempty|apply (orc_ints_runs false); eassumption|exact B2|exact S2]. }
  destruct (in_dec Z.eq_dec 0 (kinds l)) as [Hi|Hi].
  - destruct Hpres as (pb & H0 & Hbits). destruct (holds_rd _ _ _ H0) as (s0 & o0 & In0 & K0 & S0 & B0).
    pose proof (proj1 (Hall _ _ In0) K0) as D0. split; [split; [congruence|contradiction]|]. split; [contradiction|].
    intros col Hn Hrows. specialize (Hrows Hi). split; [exact Hhas|]. unfold DictRows. rewrite D0, D1. split.
    + destruct (bits_yield pb _ _ S0 B0 Hbits) as (more & Hy). eapply Yields_prefix. rewrite <- Hrows in Hy. unfold rows_of in Hy.
      rewrite map_map in Hy. erewrite map_ext; [exact Hy|]. intros v. unfold row_of. destruct (Null v); reflexivity.
    + exists (newVreader (rd s1 o1)), xs. split; [reflexivity|]. split; [apply (ints_yield false b); assumption|]. split; [exact Hx|]. rewrite Hn, Hg. reflexivity.
  - split; [split; [auto|rewrite N0 by exact Hi; auto]|]. split; [auto|].
    intros col Hn _. split; [exact Hhas|]. unfold DictRows. rewrite (N0 Hi), Hp, D1. split; [exact I|].
    exists (newVreader (rd s1 o1)), xs. split; [reflexivity|]. split; [apply (ints_yield false b); assumption|]. split; [exact Hx|]. rewrite Hn, Hg. reflexivity.
Qed.
Lemma dict_all vecs : forall ss col r, DictAt inflate o ss col r -> (length (concat vecs) <= length col)%nat ->
  Forall (fun v => Null v = false) (concat vecs) -> (dr_present r = None -> Forall (fun v => Null v = false) col) ->
  exists outs r', dict_batches inflate o r vecs = Ok (outs, r') /\ map rows_of outs = cut vecs (rows_of col).
Proof.
  induction vecs as [|v t IH]; intros ss col r Hat Hle Hnull Hnn; [exists [], r; split; reflexivity|].
  cbn [concat] in Hle, Hnull. rewrite app_length in Hle. apply Forall_app in Hnull. destruct Hnull as [Hnv Hnt].
  destruct (dict_batch inflate o ss col r v Hat) as (out & r1 & H1 & H2 & H3 & H4 & H5); [lia| |].
  { intros E. specialize (Hnn E). destruct (Forall_sub _ _ (length v) Hnn) as [Hf _].
    assert (Hlen : length (firstn (length v) col) = length v) by (rewrite firstn_length; lia).
    revert Hnv Hf Hlen. generalize (firstn (length v) col). clear. induction v as [|x t IH]; intros [|y l] H1 H2 H3; try discriminate; [reflexivity|].
    inversion H1; inversion H2; subst. cbn [map]. rewrite (IH l) by (auto; cbn in H3; lia). congruence. }
  destruct (IH ss (skipn (length v) col) r1 H4) as (outs & r2 & H6 & H7); [rewrite skipn_length; lia|exact Hnt| |].
  { intros E. apply Forall_sub. apply Hnn. apply H5. exact E. }
  cbn [dict_batches]. rewrite H1. cbn [rbind]. rewrite H6. cbn [rbind]. eexists _, _. split; [reflexivity|].
  cbn [map cut]. rewrite H2, H7. unfold rows_of. rewrite firstn_map, skipn_map. reflexivity.
Qed.
Lemma orc_reads_dictionary hn l rows : (In 0 (kinds l) -> hn = true) -> column l KDict rows -> dictionary_reads inflate o file l hn rows.
Proof.
  intros Hh Hc. destruct (dict_opens l (newDictR hn) rows Hc eq_refl eq_refl eq_refl Hh) as (r & ss & Hr & Hp & Hall & Hat).
  exists r. split; [exact Hr|]. intros vecs Hle Hnull.
  set (col := map (fun x : option gval => match x with Some g => {| Null := false; V := g |} | None => {| Null := true; V := GNil |} end) rows).
  assert (Hcol : rows_of col = rows).
  { unfold col, rows_of. rewrite map_map. rewrite <- (map_id rows) at 2. apply map_ext. intros [g|]; reflexivity. }
  rewrite <- Hcol. apply (dict_all vecs ss); [apply Hat; congruence| |exact Hnull|].
  - unfold col. rewrite map_length. exact Hle.
  - intros E. apply Hp in E. specialize (Hall E). unfold col. clear - Hall. induction rows as [|x t IH]; [constructor|].
    cbn [forallb] in Hall. apply andb_prop in Hall. destruct Hall as [Hx Ht]. destruct x; [|discriminate]. constructor; auto.
Qed.
End Read.

Lemma present_refused file l : forall c, ~ In (cr_kind c) [KShort; KInt; KLong; KString] -> cr_hasNulls c = false ->
  In 0 (kinds l) -> InitStreams file c l = Err.
Proof.
  induction l as [|[s off] l IH]; intros c Hk Hn Hi; [destruct Hi|]. cbn [InitStreams].
  unfold kinds in Hi. cbn [map fst] in Hi. unfold InitStream. destruct (Z.eqb_spec (st_kind s) 0) as [E|E].
  - rewrite Hn. destruct (cr_kind c); try reflexivity; exfalso; apply Hk; cbn; tauto.
  - assert (Hi' : In 0 (kinds l)) by (destruct Hi as [Hi|Hi]; [congruence|exact Hi]).
    destruct (st_kind s =? 1).
    + destruct (dataReader (cr_kind c) _); [|reflexivity]. cbn [rbind]. apply IH; assumption.
    + assert (Hd : forall x c', setSecond x c = c' -> InitStreams file c' l = Err).
      { intros x c' <-. apply IH; assumption. }
      destruct (cr_kind c) eqn:Ek; try reflexivity; try (apply IH; assumption);
        try (destruct (st_kind s =? 2); [|reflexivity]); try (destruct (st_kind s =? 5); [|reflexivity]);
        cbn [rbind]; try (eapply Hd; reflexivity). apply IH; [rewrite Ek; assumption|assumption|assumption].
Qed.
