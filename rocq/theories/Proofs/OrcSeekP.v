(** Seek on files of any writer: from the readers of a stripe to those of the file. *)
From Coq Require Import ZifyBool ZifyNat.
From Verif.Model Require Import Go Codec ByteBool IntRle Chunk Stream Schema Rows Time File Column Wire Nested Tree Assembled.
From Verif.Spec Require Import BoolSpec Session Bits IntSpec OrcInt StreamSpec ChunkSpec SchemaSpec RowsSpec FileSpec ColumnSpec AssemblySpec EndSpec OrcColumn OrcFile SeekFileSpec.
From Verif.Proofs Require Import Base OpenBatchP SchemaP ChunkP TailP RowsP SessionP ReadP ColumnP ColumnReadP TreeP LeafP BatchP EndP EndColP OpenTreeP EndFileP OrcColumnP OrcFileP RestartP.

(** ** The batch reader follows the abstract one, wherever Seek puts it *)
Section Follow.
Variable inflate : list Z -> res (list Z).
Variable o : opts.
Variable hn : list bool.
Variable b : batchOption.
Variable t : td.
Variable c : Z.
Hypothesis Hc : 0 < c.
Hypothesis Hinc : IsInclude b (td_id t) = true.
Hypothesis Hfl : flagged hn t.
Hypothesis Hsh : Shallow b false t.
Notation stripeNext := (stripeNext inflate o hn).
Notation readNext := (readNext inflate o hn).
Notation stripeSeek := (stripeSeek inflate o).
Notation readSeek := (readSeek inflate o).
Notation fit := (fun v => fits b c false t v /\ Cap v = c).
Notation holds := (holds b).
Notation gives := (gives inflate o b).

(** The readers of a stripe that stand at row [s_pos], and can start over. *)
Definition Stands (s : stripeRd) (s' : stripeR (row value)) : Prop :=
  sr_rows s = zlen (s_rows s') /\ sr_cursor s = s_cursor s' /\
  0 <= s_pos s' <= zlen (s_rows s') /\ 0 <= s_cursor s' <= zlen (s_rows s') /\ zlen (s_rows s') < 2 ^ 62 /\ onceEach b (s_rows s') None t /\
  exists tr0 tr, goodT inflate o tr0 /\ gives (s_rows s') None t tr0 /\
    sr_tree s = Some tr /\ SameT inflate o tr0 tr /\ gives (zdrop (s_pos s') (s_rows s')) None t tr.

Lemma stripe_stands s s' v s1' rows e : Stands s s' -> fit v -> Len v = 0 -> stripe_next c s' [] = Ok (s1', rows, e) ->
  exists s1 v1, stripeNext s v = Ok (s1, v1, e) /\
    Stands s1 s1' /\ fit v1 /\ holds rows t v1 /\ Len v1 = zlen rows /\ (e = false -> zlen rows = c).
Proof.
  intros (H1 & H2 & H3 & H4 & H5 & H6 & tr0 & tr & G1 & G2 & H7 & G3 & H8) [Hf Hcap] Hlen.
  change (2 ^ 62) with 4611686018427387904 in *.
  unfold Assembled.stripeNext, stripe_next. rewrite Hcap. rewrite Hlen. rewrite H1. rewrite H2. rewrite H7. change (zlen (@nil (row value))) with 0. rewrite Z.sub_0_r.
  set (all := s_rows s') in *. set (cur := s_cursor s') in *. set (pos := s_pos s') in *.
  assert (Hleft : i64 (u64 (zlen all - cur)) = zlen all - cur).
  { rewrite u64_id by (unfold is_u64; lia). apply i64_id. unfold is_i64. lia. }
  rewrite Hleft. set (page := if zlen all - cur <? c then zlen all - cur else c).
  assert (Hpage : 0 <= page <= c /\ cur + page <= zlen all /\ (page < c -> page = zlen all - cur)).
  { unfold page. destruct (Z.ltb_spec (zlen all - cur) c); lia. }
  clearbody page. destruct Hpage as (Hp1 & Hp2 & Hp3).
  destruct (Z.ltb_spec page 0); [lia|]. destruct (Z.leb_spec (pos + page) (zlen all)) as [Hle|]; [|discriminate].
  assert (Hzd : zlen (zdrop pos all) = zlen all - pos) by (apply zlen_zdrop; lia).
  destruct (batch_step inflate o b hn c (zdrop pos all) t tr v page Hinc Hfl Hf H8 Hp1 ltac:(lia) (onceEach_drop _ _ _ _ _ H6))
    as (v1 & x & tr' & E1 & E2 & E3 & E4 & E5).
  rewrite E1. cbn [rbind]. rewrite E2. cbn [rbind].
  assert (Hzt : zlen (ztake page (zdrop pos all)) = page) by (apply zlen_ztake; lia).
  assert (Ecap : Cap (put v1 x) = c) by (rewrite <- Hcap; eapply Cap_same; eassumption).
  assert (Elen : Len (put v1 x) = page) by (rewrite <- Hzt; eapply Len_holds; [exact E4|exact E5|lia]).
  rewrite Hzt. intros HN.
  assert (Hu : u64 (cur + page) = cur + page) by (apply u64_id; unfold is_u64; lia). rewrite Hu in HN.
  match type of HN with Ok (?a, ?r, ?q) = _ => assert (s1' = a) as -> by congruence; assert (rows = r) as -> by congruence; assert (e = q) as -> by congruence end. clear HN.
  do 2 eexists. rewrite Elen, Hu. split; [reflexivity|].
  split; [|split; [|split; [|split]]].
  - unfold Stands. cbn [sr_rows sr_cursor sr_tree s_rows s_cursor s_pos]. change (2 ^ 62) with 4611686018427387904.
    split; [reflexivity|]. split; [reflexivity|]. split; [lia|]. split; [lia|]. split; [exact H5|]. split; [exact H6|].
    exists tr0, tr'. split; [exact G1|]. split; [exact G2|]. split; [reflexivity|].
    split; [eapply SameT_trans; [exact G3|eapply tree_NextBatch_same; exact E2]|]. rewrite <- zdrop_zdrop by lia. exact E3.
  - split; assumption.
  - exact E5.
  - congruence.
  - rewrite Hzt, u64_id by (unfold is_u64; lia). intros He. apply Z.leb_gt in He. destruct (Z.eq_dec page c); [assumption|]. lia.
Qed.

Definition StandsB (x : batchRd) (y : batchR (row value)) : Prop :=
  Forall2 Stands (br_stripes x) (b_stripes y) /\ br_index x = b_index y /\ br_total x = b_total y /\ br_cursor x = b_cursor y.

Lemma next_stands x y v y1 rows e : StandsB x y -> fit v -> Next c y = Ok (y1, rows, e) ->
  exists x1 v1, readNext x v = Ok (x1, v1, e) /\ StandsB x1 y1 /\ fit v1 /\ holds rows t v1.
Proof.
  intros (Hs & Hi & Ht & Hcu) [Hf Hcap]. destruct (Clear_fits b c t false v Hf) as [Hf0 Hl0].
  assert (Hcap0 : Cap (Clear v) = c) by (rewrite Clear_Cap; exact Hcap).
  unfold Assembled.readNext, Next. rewrite <- Ht, <- Hcu, <- Hi.
  assert (He : holds [] t (Clear v)) by (eapply Clear_holds; eassumption).
  destruct (u64 (br_total x - 1) <=? br_cursor x).
  { intros HN. assert (y1 = y) as -> by congruence. assert (rows = []) as -> by congruence. assert (e = true) as -> by congruence.
    do 2 eexists. split; [reflexivity|]. split; [split; auto|]. split; [split; assumption|exact He]. }
  cbn [Assembled.readLoop nextLoop].
  pose proof (Forall2_nth _ _ _ Hs (br_index x)) as Hn. pose proof (Forall2_len _ _ _ Hs) as Hlen.
  destruct (nth_error (br_stripes x) (br_index x)) as [s|] eqn:E1; destruct (nth_error (b_stripes y) (br_index x)) as [s'|] eqn:E2; try contradiction.
  - intros HN. apply rbind_inv in HN. destruct HN as ([[ss j] vec] & HL & HN). apply rbind_inv in HL. destruct HL as ([[s1' vec'] e'] & HS & HL).
    destruct (stripe_stands s s' (Clear v) s1' vec' e' Hn (conj Hf0 Hcap0) Hl0 HS) as (s1 & v1 & H1 & H3 & H4 & H5 & H6 & H7).
    rewrite H1. cbn [rbind].
    assert (Hsz : Forall2 Stands (set_nth (br_stripes x) (br_index x) s1) (set_nth (b_stripes y) (br_index x) s1')) by (apply Forall2_set; assumption).
    assert (Hl2 := Forall2_len _ _ _ Hsz).
    destruct H4 as [H4 H4c]. destruct e'.
    + assert (ss = set_nth (b_stripes y) (br_index x) s1') as -> by congruence. assert (j = S (br_index x)) as -> by congruence. assert (vec = vec') as -> by congruence.
      cbn [rbind]. rewrite <- Hl2 in HN. rewrite H6.
      match type of HN with Ok (?a, ?r, ?q) = _ => assert (y1 = a) as -> by congruence; assert (rows = r) as -> by congruence; assert (e = q) as -> by congruence end.
      do 2 eexists. split; [reflexivity|].
      split; [split; cbn; auto|]. split; [split|]; assumption.
    + rewrite (H7 eq_refl), Z.leb_refl in HL. rewrite H4c, H6, (H7 eq_refl), Z.leb_refl. cbn [rbind].
      assert (ss = set_nth (b_stripes y) (br_index x) s1') as -> by congruence. assert (j = br_index x) as -> by congruence. assert (vec = vec') as -> by congruence.
      rewrite <- Hl2, (H7 eq_refl) in HN. rewrite H6, (H7 eq_refl).
      match type of HN with Ok (?a, ?r, ?q) = _ => assert (y1 = a) as -> by congruence; assert (rows = r) as -> by congruence; assert (e = q) as -> by congruence end.
      do 2 eexists. split; [reflexivity|].
      split; [split; cbn; auto|]. split; [split|]; assumption.
  - rewrite <- Hlen. destruct (_ <? _)%nat; [discriminate|]. cbn [rbind]. rewrite <- Hlen, Hl0. change (zlen (@nil (row value))) with 0. intros HN.
    match type of HN with Ok (?a, ?r, ?q) = _ => assert (y1 = a) as -> by congruence; assert (rows = r) as -> by congruence; assert (e = q) as -> by congruence end.
    do 2 eexists. split; [reflexivity|].
    split; [split; cbn; auto|]. split; [split; assumption|exact He].
Qed.

(** Seek starts over and skips. *)
Lemma stripe_seeks stride s s' row s1' : Stands s s' -> 0 <= row < W64 -> stripe_Seek stride s' row = Ok s1' ->
  exists s1, stripeSeek stride s row = Ok s1 /\ Stands s1 s1'.
Proof.
  intros (H1 & H2 & H3 & H4 & H5 & H6 & tr0 & tr & G1 & G2 & H7 & G3 & H8) Hrow HN. change (2 ^ 62) with 4611686018427387904 in *.
  unfold stripe_Seek in HN. apply rbind_inv in HN. destruct HN as (off & Ho & HN).
  destruct (Z.leb_spec off (zlen (s_rows s'))) as [Hle|]; [|discriminate]. match type of HN with Ok ?z = _ => assert (s1' = z) as -> by congruence end. clear HN.
  assert (Hoff : 0 <= off /\ (if row <? u64 stride then Ok row else if u64 stride =? 0 then Panic
                  else if u64 (row / u64 stride * u64 stride) =? 0 then Panic else Ok (row mod u64 (row / u64 stride * u64 stride))) = Ok off).
  { pose proof (u64_range stride) as Hu. unfold is_u64 in Hu. destruct (Z.ltb_spec row (u64 stride)); [assert (off = row) as -> by congruence; split; [lia|reflexivity]|].
    destruct (Z.eqb_spec (u64 stride) 0) as [|Hz]; [discriminate|]. cbv zeta in *.
    assert (Hq : 1 <= row / u64 stride) by (apply Z.div_le_lower_bound; lia).
    assert (Hm : row / u64 stride * u64 stride <= row) by (rewrite Z.mul_comm; apply Z.mul_div_le; lia).
    assert (Hb : u64 (row / u64 stride * u64 stride) = row / u64 stride * u64 stride) by (apply u64_id; unfold is_u64; nia).
    rewrite Hb in *. destruct (Z.eqb_spec (row / u64 stride * u64 stride) 0); [nia|].
    assert (off = row mod (row / u64 stride * u64 stride)) as -> by congruence. split; [apply Z.mod_pos_bound; nia|reflexivity]. }
  destruct Hoff as [Hoff Ho']. unfold Assembled.stripeSeek. rewrite Ho'. cbn [rbind]. rewrite H7.
  destruct (restart inflate o tr0 tr G1 G3) as (tr1 & E1 & A1). rewrite E1. cbn [rbind].
  pose proof (gives_alike inflate o b _ t None tr0 tr1 G2 A1) as G4.
  destruct (skip_tree inflate o b t (Z.to_nat off) (s_rows s') tr1 Hinc Hsh G4 H6) as (tr2 & E2 & G5); [unfold zlen in Hle; lia|].
  unfold tree_Skip. rewrite i64_id by (unfold is_i64; lia). rewrite E2. cbn [rbind]. eexists. split; [reflexivity|].
  unfold Stands. cbn [sr_rows sr_cursor sr_tree s_rows s_cursor s_pos]. change (2 ^ 62) with 4611686018427387904.
  split; [exact H1|]. split; [exact H2|]. split; [lia|]. split; [lia|]. split; [exact H5|]. split; [exact H6|].
  exists tr0, tr2. split; [exact G1|]. split; [exact G2|]. split; [reflexivity|]. split; [|exact G5].
  eapply SameT_trans; [exact G3|]. eapply SameT_trans; [eapply tree_SeekStride_same; exact E1|eapply treeSkip_same; exact E2].
Qed.
Lemma seek_stands stride x y row y1 : StandsB x y -> 0 <= row < W64 -> Seek stride y row = Ok y1 ->
  exists x1, readSeek stride x row = Ok x1 /\ StandsB x1 y1.
Proof.
  intros (Hs & Hi & Ht & Hcu) Hrow HN. unfold Seek in HN. unfold Assembled.readSeek. rewrite Ht. destruct (b_total y <? row); [discriminate|].
  apply rbind_inv in HN. destruct HN as ([ss'|] & HL & HN); [|discriminate]. match type of HN with Ok ?z = _ => assert (y1 = z) as -> by congruence end. clear HN.
  assert (Hl : forall before ss', seekLoop stride row before (b_stripes y) = Ok (Some ss') ->
    exists ss, seekStripes inflate o stride row before (br_stripes x) = Ok ss /\ Forall2 Stands ss ss').
  { clear HL ss' Hi Ht Hcu. induction Hs as [|s s' l l' Hs0 Hs IH]; intros before ss' HL; cbn [seekLoop seekStripes] in *; [discriminate|].
    pose proof Hs0 as (Hr & _). rewrite Hr. destruct (row <? u64 (before + zlen (s_rows s'))).
    - apply rbind_inv in HL. destruct HL as (s1' & HS & HL). assert (ss' = s1' :: l') as -> by congruence.
      destruct (stripe_seeks stride s s' (u64 (row - before)) s1' Hs0 (u64_range _) HS) as (s1 & E & Hs1). rewrite E. cbn [rbind].
      eexists. split; [reflexivity|]. constructor; assumption.
    - apply rbind_inv in HL. destruct HL as ([r'|] & HS & HL); [|discriminate]. assert (ss' = s' :: r') as -> by congruence.
      destruct (IH _ _ HS) as (r & E & Hr'). rewrite E. cbn [rbind]. eexists. split; [reflexivity|]. constructor; assumption. }
  destruct (Hl 0 ss' HL) as (ss & E & Hss). rewrite E. cbn [rbind]. eexists. split; [reflexivity|]. split; cbn; auto.
Qed.
End Follow.

(** ** Opening a stripe gives readers that can start over *)
Section Good.
Variable inflate : list Z -> res (list Z).
Variable o : opts.
Notation goodT := (goodT inflate o).
Definition goodAny (r : anyR) : Prop :=
  match r with
  | RCol c => match cr_kind c with KStruct => onSome (newBool inflate o) (cr_present c) | _ => goodC inflate o c end
  | RDict d => goodDict inflate o d
  | _ => False
  end.
Lemma buildTree_good nodes bopt rs (Hrs : forall j r, nth_error rs j = Some (Some r) -> goodAny r) fuel :
  forall i tr, buildTree nodes bopt fuel rs i = Ok tr -> goodT tr.
Proof.
  induction fuel as [|f IH]; intros i tr H; [discriminate|]. cbn [buildTree] in H.
  destruct (nth_error nodes (Z.to_nat i)) as [n|] eqn:En; [|discriminate].
  destruct (nth_error rs (Z.to_nat i)) as [[r|]|] eqn:Er; try discriminate.
  pose proof (Hrs _ _ Er) as Hg. destruct r as [c|d|x ix|h x ix]; cbn [goodAny] in Hg; [| |contradiction..].
  - destruct (cr_kind c) eqn:Ek; try (assert (tr = CLeaf c) as -> by congruence; constructor; exact Hg).
    apply rbind_inv in H. destruct H as (kids & Hk & H). assert (tr = CStruct (cr_present c) (cr_index c) kids) as -> by congruence.
    constructor; [exact Hg|]. clear - IH Hk. revert kids Hk. generalize (n_sub n) as l. induction l as [|j l IHl]; intros kids Hk; [assert (kids = []) as -> by congruence; constructor|].
    destruct (IsInclude bopt j); [|apply IHl; exact Hk]. apply rbind_inv in Hk. destruct Hk as (x & Hx & Hk). apply rbind_inv in Hk. destruct Hk as (y & Hy & Hk).
    assert (kids = x :: y) as -> by congruence. constructor; [eapply IH; exact Hx|apply IHl; exact Hy].
  - assert (tr = CDict d) as -> by congruence. constructor. exact Hg.
Qed.
Lemma initAll_inv file l : forall rs rs', (forall s st, In (s, st) l -> 0 <= st_column s) -> initAll inflate o file rs l = Ok rs' ->
  forall j r', nth_error rs' j = Some (Some r') ->
    exists r, nth_error rs j = Some (Some r) /\ initAny inflate o file r (filter (ofCol j) l) = Ok r'.
Proof.
  induction l as [|[s st] l IH]; intros rs rs' Hin H j r' Hj; cbn [initAll] in H; [assert (rs' = rs) as -> by congruence; exists r'; auto|].
  pose proof (Hin s st (or_introl eq_refl)) as Hc. assert (Hin' : forall s st, In (s, st) l -> 0 <= st_column s) by (intros; eapply Hin; right; eassumption).
  destruct (nth_error rs (Z.to_nat (st_column s))) as [[r|]|] eqn:E; [| |discriminate].
  - fold (initOne inflate o file r s st) in H. apply rbind_inv in H. destruct H as (r1 & H1 & H). destruct (IH _ _ Hin' H j r' Hj) as (r2 & H2 & H3).
    cbn [filter]. unfold ofCol at 1. cbn [fst]. destruct (Z.eqb_spec (st_column s) (Z.of_nat j)) as [Ec|Ec].
    + rewrite Ec, Nat2Z.id in *. rewrite OpenTreeP.set_nth_same in H2 by (apply nth_error_Some; congruence). assert (r2 = r1) as -> by congruence.
      exists r. split; [exact E|]. cbn [initAny]. rewrite H1. exact H3.
    + rewrite OpenTreeP.set_nth_other in H2 by lia. exists r2. auto.
  - destruct (IH _ _ Hin' H j r' Hj) as (r2 & H2 & H3). exists r2. split; [exact H2|]. cbn [filter]. unfold ofCol at 1. cbn [fst].
    destruct (Z.eqb_spec (st_column s) (Z.of_nat j)) as [Ec|Ec]; [|exact H3]. rewrite Ec, Nat2Z.id in E. congruence.
Qed.

Hypothesis Ho : supported o.
Variable file : list Z.
Hypothesis Hfile : zlen file < 2 ^ 62.
Notation nonempty := (fun d : list Z => d <> []).
Notation column := (orc_column orc_supported nonempty inflate o file).
(** A stream that can be read again: not empty, if the file is compressed. *)
Definition again (s : strm) : Prop := CompressionKind o = NONE \/ 0 < st_length s.
Lemma holds_again l kind bs : Forall (fun q => again (fst q)) l -> OrcColumn.holds nonempty inflate o file l kind bs ->
  exists s off, In (s, off) l /\ st_kind s = kind /\ rewinds inflate o (rd file s off).
Proof.
  intros Ha (s & off & pre & enc & post & Hin & Hk & Hf & Hoff & Hl & Hfr & _). exists s, off. split; [exact Hin|]. split; [exact Hk|].
  unfold rd. rewrite Hoff, Hl. rewrite Forall_forall in Ha. specialize (Ha _ Hin). unfold again in Ha. cbn [fst] in Ha. rewrite Hl in Ha.
  change (2 ^ 62) with 4611686018427387904 in Hfile. eapply (framed_rewinds inflate o Ho file); [lia|exact Hf|exact Hfr|exact Ha].
Qed.
Lemma orc_data_holds l k gs : foreign_kind k = true -> orc_data orc_supported nonempty inflate o file l k gs ->
  (exists b, OrcColumn.holds nonempty inflate o file l 1 b) /\
  (hasSecond k = true -> exists b, OrcColumn.holds nonempty inflate o file l 2 b).
Proof. clear. intros Hk. destruct k; try discriminate Hk; cbn [orc_data hasSecond]; try contradiction; intros H; decompose [ex and] H; split; intros; try discriminate; eauto. Qed.
Lemma prim_good k h l r0 r rows : foreign_kind k = true -> k <> KDate -> freshAny k h r0 ->
  (In 0 (kinds l) -> h = true) -> Forall (fun q => st_kind (fst q) <> 6) l -> Forall (fun q => again (fst q)) l -> column l k rows ->
  initAny inflate o file r0 l = Ok r -> goodAny r.
Proof.
  intros Hk Hnd Hr0 Hst H6 Ha (Hnk & Hincl & Hd & Hpres) Hi.
  destruct (orc_data_holds _ _ _ Hk Hd) as [(b1 & D1) D2]. destruct (holds_again l 1 b1 Ha D1) as (s1 & o1 & In1 & K1 & R1).
  destruct r0 as [c|d|y iy|hh y iy]; cbn [freshAny] in Hr0; [| |contradiction..].
  - destruct Hr0 as (Hnc & Hck & Hch & Hcp). rewrite initAny_col, initCol_streams in Hi by exact H6.
    assert (Hrd : readable k = true \/ k = KBinary).
    { clear - Hk Hnc. unfold foreign_kind in Hk. destruct (readable k); [auto|]. destruct k; try discriminate; [auto|contradiction]. }
    assert (Hpa : present_allowed k (cr_hasNulls c) l) by (intros H; left; rewrite Hch; apply Hst; exact H).
    destruct (init_all file k l c Hck Hrd Hnk Hincl Hpa) as (r1 & Hr1 & Hkr & _ & _ & Hnp & _ & _ & Hall). rewrite Hr1 in Hi. cbn [rbind] in Hi.
    assert (r = RCol r1) as -> by congruence. cbn [goodAny]. rewrite Hkr.
    assert (Hg : goodC inflate o r1); [|destruct k; try exact Hg; destruct Hrd; discriminate]. constructor; rewrite ?Hkr.
    + exact Hnd.
    + destruct (in_dec Z.eq_dec 0 (kinds l)) as [Hz|Hz]; [|rewrite (Hnp Hz), Hcp; exact I]. destruct Hpres as (b0 & D0 & _).
      destruct (holds_again l 0 b0 Ha D0) as (s0 & o0 & In0 & K0 & R0). rewrite (proj1 (Hall _ _ In0) K0). exists (rd file s0 o0). auto.
    + exists (rd file s1 o1). split; [clear - Hrd; destruct k, Hrd; discriminate|]. split; [apply (Hall _ _ In1); exact K1|exact R1].
    + intros Hs. destruct (D2 Hs) as (b2 & D2'). destruct (holds_again l 2 b2 Ha D2') as (s2 & o2 & In2 & K2 & R2).
      exists (newVreader (rd file s2 o2)). split; [apply (Hall _ _ In2); exact K2|]. exists (rd file s2 o2). auto.
  - destruct Hr0 as (-> & Hdh & Hdp & Hdl & Hds). rewrite initAny_dict in Hi by exact H6.
    destruct (dict_init_all file l d Hnk Hincl) as (r1 & Hr1 & _ & _ & Hnp & _ & _ & _ & Hall); [rewrite Hdh; exact Hst|].
    rewrite Hr1 in Hi. cbn [rbind] in Hi. assert (r = RDict r1) as -> by congruence. cbn [goodAny]. split.
    + destruct (in_dec Z.eq_dec 0 (kinds l)) as [Hz|Hz]; [|rewrite (Hnp Hz), Hdp; exact I]. destruct Hpres as (b0 & D0 & _).
      destruct (holds_again l 0 b0 Ha D0) as (s0 & o0 & In0 & K0 & R0). rewrite (proj1 (Hall _ _ In0) K0). exists (rd file s0 o0). auto.
    + exists (newVreader (rd file s1 o1)). split; [apply (Hall _ _ In1); exact K1|]. exists (rd file s1 o1). auto.
Qed.
Lemma struct_good l c bits : cr_kind c = KStruct -> cr_present c = None ->
  (In 0 (kinds l) <-> cr_hasNulls c = true) -> NoDup (kinds l) -> incl (kinds l) [0] -> Forall (fun q => again (fst q)) l ->
  (In 0 (kinds l) -> exists b, OrcColumn.holds nonempty inflate o file l 0 b /\ orc_bits b bits) ->
  forall r, InitStreams file c l = Ok r -> goodAny (RCol r).
Proof.
  intros Hkc Hpc Hst Hnd Hin Ha Hb r Hr. cbn [goodAny]. destruct l as [|[s off] l].
  - cbn in Hr. assert (r = c) as -> by congruence. rewrite Hkc, Hpc. exact I.
  - unfold kinds in *. cbn [map fst] in *. assert (Hs : st_kind s = 0) by (destruct (Hin _ (or_introl eq_refl)) as [H|[]]; auto).
    rewrite Hs in *. assert (Hl : l = []).
    { destruct l as [|[s2 off2] l]; [reflexivity|]. exfalso. inversion Hnd as [|? ? Hn _]; subst. apply Hn. cbn [map fst].
      left. destruct (Hin (st_kind s2)) as [H|[]]; [right; left; reflexivity|]. congruence. }
    subst l. cbn [InitStreams] in Hr. unfold InitStream in Hr. rewrite Hs, Hkc, (proj1 Hst (or_introl eq_refl)) in Hr. cbn [Z.eqb rbind] in Hr.
    match type of Hr with Ok ?z = _ => assert (r = z) as -> by congruence end. cbn [setPresent cr_kind cr_present]. rewrite Hkc.
    destruct (Hb (or_introl eq_refl)) as (b & D & _). destruct (holds_again _ 0 b Ha D) as (s0 & o0 & In0 & K0 & R0).
    destruct In0 as [E|[]]. assert (s0 = s) as -> by congruence. assert (o0 = off) as -> by congruence. exists (rd file s off). auto.
Qed.
End Good.

Section StripeGood.
Variable inflate : list Z -> res (list Z).
Variable o : opts.
Hypothesis Ho : supported o.
Variable file : list Z.
Hypothesis Hfile : zlen file < 2 ^ 62.
Variable schema : td.
Hypothesis Hnum : Numbered 0 schema.
Variable nodes : list node.
Hypothesis Hnodes : Forall2 nodeFor (flatten schema) nodes.
Variable bopt : batchOption.
Hypothesis Hinc : IsInclude bopt 0 = true.
Hypothesis Hread : foreign_schema bopt schema = true.
Hypothesis Hshallow : shallow bopt schema.
Notation nonempty := (fun d : list Z => d <> []).
Variables (i : stripeInfo) (sf : stripeFooter) (rows : list (row value)).
Hypothesis Hstripe : orc_stripe orc_supported nonempty inflate o file bopt schema i (sf, rows).
Hypothesis Hbloom : no_bloom sf.
Hypothesis Hsteady : steady bopt schema sf.
Hypothesis Hdates : forall t p, In (t, p) (columns_read bopt None schema) -> td_kind t <> DATE.
Hypothesis Hagain : Forall (fun s => IsInclude bopt (st_column s) = true -> index_kind (st_kind s) = false -> again o s) (sf_streams sf).
Notation starts := (offsets (Offset i) (sf_streams sf)).

Lemma stripe_good n s : newStripeRd inflate o nodes (map td_hasNulls (flatten schema)) bopt file n (map td_enc (flatten schema), starts) = Ok s ->
  forall tr, sr_tree s = Some tr -> goodT inflate o tr.
Proof.
  pose proof Hstripe as (_ & _ & _ & _ & Hlen & _ & _ & Hindexed & Hstored).
  assert (Hcols : (forall x, In x (flatten schema) -> IsInclude bopt (td_id x) = true ->
    (td_kind x = STRUCT /\ presence inflate o file starts rows x) \/ (td_kind x <> STRUCT /\ exists p, In (x, p) (columns_read bopt None schema))) /\
    (forall x p, In (x, p) (columns_read bopt None schema) -> td_kind x <> STRUCT -> exists c, orc_kind (td_kind x) (td_enc x) = Some c /\
       orc_column orc_supported nonempty inflate o file (data_streams starts (td_id x)) c (rows_of (column_of (col x) (restrict rows p))))).
  { apply (stored_columns inflate o file bopt starts rows foreign_kind eq_refl schema None Hread Hstored).
    - intros x p. apply Hshallow.
    - intros x Hx Hi Hh H0. apply (steady_kinds schema bopt Hinc Hread i sf Hsteady x Hx Hi) in H0. congruence. }
  destruct Hcols as [Hcols Hleafs].
  assert (Hinc' : forall x, In x (flatten schema) -> IsInclude bopt (td_id x) = true -> okKind foreign_kind x).
  { intros x Hx. apply (readable_included bopt foreign_kind eq_refl schema false Hread x Hx). }
  assert (Hids : map td_id (flatten schema) = count_up 0 (length (flatten schema))).
  { rewrite (Numbered_flat _ _ Hnum). f_equal. pose proof (flatten_length schema) as Hl. unfold zlen in Hl. lia. }
  unfold newStripeRd. cbn [fst snd].
  rewrite (newReaders_ok bopt foreign_kind (flatten schema) nodes 0 Hnodes Hids) by (apply Forall_forall; exact Hinc').
  cbn [rbind]. intros H tr Htr. apply rbind_inv in H. destruct H as (rs' & Hall & H). apply rbind_inv in H. destruct H as (u & _ & H).
  apply rbind_inv in H. destruct H as (tr' & Hb & H). match type of H with Ok ?z = _ => assert (s = z) as -> by congruence end. cbn [sr_tree] in Htr. subst tr'.
  destruct (firstReader 0 rs') as [j0|]; [|discriminate]. apply rbind_inv in Hb. destruct Hb as (t0 & Hb & E). assert (t0 = tr) as -> by congruence. clear E H.
  eapply (buildTree_good inflate o nodes bopt rs'); [|exact Hb]. clear Hb tr. intros j r' Hj.
  assert (Hpos : forall s st, In (s, st) starts -> 0 <= st_column s).
  { intros s0 st0 Hin. rewrite Forall_forall in Hlen. destruct (Hlen s0 (starts_in i sf s0 st0 Hin)) as [_ Hc]. lia. }
  destruct (initAll_inv inflate o file starts _ rs' Hpos Hall j r' Hj) as (r & Hr & Hi).
  rewrite nth_error_map in Hr. destruct (nth_error (flatten schema) j) as [x|] eqn:Ex; [|discriminate]. cbn [option_map] in Hr.
  assert (Hx : In x (flatten schema)) by (eapply nth_error_In; exact Ex).
  assert (Hid : td_id x = Z.of_nat j).
  { pose proof (map_nth_error td_id _ _ Ex) as Hn. rewrite Hids in Hn. apply count_up_nth in Hn. lia. }
  unfold mk in Hr. destruct (IsInclude bopt (td_id x)) eqn:Einc; [|discriminate]. destruct (Hinc' x Hx Einc) as (k & Hk & Hkk). rewrite Hk in Hr.
  assert (r = newAny k (td_hasNulls x)) as -> by congruence. clear Hr.
  assert (Hcj : j = col x) by (unfold col; lia). rewrite Hcj in Hi.
  destruct (column_streams inflate o file schema bopt Hinc Hread i sf rows Hstripe Hbloom x) as (ix & Hix & Hixs); [lia|]. rewrite Hix, initAny_app in Hi.
  destruct (index_streams inflate o Ho file Hfile bopt starts ix k (td_hasNulls x) Hindexed (newAny k (td_hasNulls x))) as (r0 & Hr0 & Hfr0).
  { eapply Forall_impl; [|exact Hixs]. intros q (H1 & H2 & H3). rewrite H2. auto. }
  { apply newAny_fresh. }
  rewrite Hr0 in Hi. cbn [rbind] in Hi.
  assert (H6 : Forall (fun q => st_kind (fst q) <> 6) (data_streams starts (td_id x))).
  { apply Forall_forall. intros q Hq. apply filter_In in Hq. destruct Hq as [_ Hq]. unfold index_kind in Hq. lia. }
  assert (Ha : Forall (fun q => again o (fst q)) (data_streams starts (td_id x))).
  { apply Forall_forall. intros [s0 st0] Hq. apply filter_In in Hq. destruct Hq as [Hq Hq2]. cbn [fst] in *. apply andb_true_iff in Hq2. destruct Hq2 as [Hq2 Hq3].
    rewrite Forall_forall in Hagain. apply Hagain; [eapply starts_in; exact Hq| |destruct (index_kind (st_kind s0)); [discriminate|reflexivity]].
    apply Z.eqb_eq in Hq2. rewrite Hq2. exact Einc. }
  pose proof (steady_kinds schema bopt Hinc Hread i sf Hsteady x Hx Einc) as Hst.
  destruct (Hcols x Hx Einc) as [[Hxk Hpr]|(Hxk & p & Hxp)].
  - destruct Hpr as (He & Hnd & Hincl & Hp). rewrite Hxk, He in Hk. cbn in Hk. assert (k = KStruct) as -> by congruence.
    destruct r0 as [c|d|y iy|hh y iy]; cbn [freshAny] in Hfr0; [|destruct Hfr0; discriminate|contradiction..].
    destruct Hfr0 as (_ & Hck & Hch & Hcp). rewrite initAny_col, initCol_streams in Hi by exact H6. rewrite <- Hch in Hst.
    apply rbind_inv in Hi. destruct Hi as (c' & Hi & E). assert (r' = RCol c') as -> by congruence.
    eapply (struct_good inflate o Ho file Hfile _ c (map (fun v => negb (Null v)) (column_of (col x) rows)) Hck Hcp Hst Hnd Hincl Ha); [|exact Hi].
    intros H0. destruct (in_dec Z.eq_dec 0 _) as [_|H1]; [exact Hp|contradiction].
  - destruct (Hleafs x p Hxp Hxk) as (k' & Hk' & Hcol). assert (k' = k) as -> by (apply orc_kind_reader in Hk'; congruence).
    assert (Hns : k <> KStruct).
    { intros ->. unfold orc_kind in Hk'. destruct (td_kind x); try discriminate; repeat (destruct (td_enc x =? _); try discriminate). }
    assert (Hlk : foreign_kind k = true) by (destruct Hkk as [Hl|Hl]; [exact Hl|contradiction]).
    assert (Hnd : k <> KDate).
    { intros ->. apply (Hdates x p Hxp). unfold orc_kind in Hk'. destruct (td_kind x); try discriminate; try reflexivity; repeat (destruct (td_enc x =? _); try discriminate). }
    eapply (prim_good inflate o Ho file Hfile k (td_hasNulls x) (data_streams starts (td_id x)) r0 r'); eauto. apply Hst.
Qed.
End StripeGood.


Lemma Shallow_of bopt t : forall par, schema_of_kinds bopt foreign_kind (is_some par) t = true -> IsInclude bopt (td_id t) = true ->
  (forall x p, In (x, Some p) (columns_read bopt par t) -> td_hasNulls x = false) -> Shallow bopt (is_some par) t.
Proof.
  induction t as [id k ns e h cs IH] using td_rect'. intros par Hr Ei Hsh. cbn [td_id] in Ei.
  cbn [schema_of_kinds] in Hr. rewrite Ei in Hr. destruct (readerKind k e) as [ck| |] eqn:Ek; try discriminate.
  destruct (tkind_struct_dec k) as [->|Hk].
  - assert (ck = KStruct) as -> by (unfold readerKind in Ek; destruct (e =? 0); congruence).
    apply andb_true_iff in Hr. destruct Hr as [Hp Hr]. rewrite forallb_forall in Hr.
    assert (par = None) as ->.
    { destruct par as [p|]; [|reflexivity]. exfalso. cbn [is_some andb] in Hp. destruct h; [|discriminate].
      specialize (Hsh (Td id STRUCT ns e true cs) p). cbn [columns_read td_hasNulls] in Hsh. rewrite Ei in Hsh.
      specialize (Hsh (or_introl eq_refl)). discriminate. }
    cbn [is_some]. constructor. apply Forall_forall. intros d Hd. unfold kept in Hd. apply filter_In in Hd. destruct Hd as [Hd Hi].
    rewrite Forall_forall in IH. specialize (IH d Hd (if h then Some id else None)).
    replace (is_some (if h then Some id else None)) with h in IH by (destruct h; reflexivity). apply IH; [apply Hr; exact Hd|exact Hi|].
    intros y p Hy. apply (Hsh y p). cbn [columns_read]. rewrite Ei. apply in_app_iff. right. apply in_flat_map. exists d. auto.
  - assert (Hck : ck <> KStruct) by (intros ->; apply Hk; eapply readerKind_struct; exact Ek).
    assert (cs = []) as -> by (destruct cs; [reflexivity|]; destruct ck; try congruence; rewrite andb_false_r in Hr; discriminate).
    constructor; [eapply readerKind_leaf; eassumption|]. intros Hp. destruct par as [p|]; [|discriminate].
    apply (Hsh (Td id k ns e h []) p). cbn [columns_read]. rewrite Ei. destruct k; try (left; reflexivity). contradiction.
Qed.

Lemma orc_stands inflate bopt schema xs file r :
  orc_file orc_supported (fun d => d <> []) inflate bopt schema xs file r ->
  supported (readerOpts r) -> zlen file < 2 ^ 62 -> zlen (concat (map snd xs)) < 2 ^ 62 ->
  foreign_schema bopt schema = true -> IsInclude bopt 0 = true -> RowSize bopt <> 0 ->
  shallow bopt schema -> no_floats bopt schema -> no_dates bopt schema ->
  Forall (fun x => steady bopt schema (fst x) /\ no_bloom (fst x) /\ well_shaped bopt schema (snd x)) xs ->
  Forall (fun x => rereadable (readerOpts r) bopt (fst x)) xs ->
  exists x, openBatches inflate bopt file = Ok (r, x) /\ IsInclude bopt (td_id schema) = true /\
    flagged (fr_hasNulls r) schema /\ NoDup (map td_id (flatten schema)) /\ Shallow bopt false schema /\
    StandsB inflate (readerOpts r) bopt schema x (opened (map snd xs)).
Proof.
  intros Hfile Hsup Hf Hn Hread Hinc Hrow Hsh Hnf Hnd Hxs Hag.
  destruct (orc_batches inflate bopt schema xs file r Hfile Hsup Hf Hn Hread Hinc Hrow Hsh Hnf Hxs) as (x & Hopen & Hid & Hfl & Hno & (Hsim & S2 & S3 & S4)).
  exists x. split; [exact Hopen|]. split; [exact Hid|]. split; [exact Hfl|]. split; [exact Hno|].
  split; [apply (Shallow_of bopt schema None Hread Hid); intros y p; apply Hsh|].
  split; [|auto]. destruct Hfile as (Hnew & Hpre & Hnodes & Hflags & Hrows & Hst).
  assert (Hnum : Numbered 0 schema) by (apply preorder_Numbered; intros p y Hp; rewrite Z.add_0_l; apply Hpre; exact Hp).
  apply openBatches_ok in Hopen. rewrite Hnew in Hopen. cbn [rbind] in Hopen. unfold CreateBatchReader in Hopen. destruct (Z.eqb_spec (RowSize bopt) 0); [contradiction|].
  apply rbind_inv in Hopen. destruct Hopen as (ys & Hys & Hopen). apply rbind_inv in Hopen. destruct Hopen as (ss & Hss & Hopen).
  match type of Hopen with Ok (_, ?z) = _ => assert (x = z) as -> by congruence end. cbn [br_stripes] in *. clear Hopen S2 S3 S4.
  assert (Hgood : Forall (fun s => forall tr, sr_tree s = Some tr -> goodT inflate (readerOpts r) tr) ss).
  { rewrite Hflags in Hss. clear Hsim Hnew Hrows Hn Hflags Hfl. revert ys ss Hys Hss Hxs Hag.
    induction Hst as [|i [sf rows] is xs Hi Hst IH]; intros ys ss Hys Hss Hxs Hag; cbn [initStripes] in Hys.
    { assert (ys = []) as -> by congruence. cbn in Hss. assert (ss = []) as -> by congruence. constructor. }
    inversion Hxs as [|? ? (X1 & X2 & X3) Hxs']; subst. inversion Hag as [|? ? A1 Hag']; subst. cbn [fst snd] in *.
    destruct (stripe_footer inflate (readerOpts r) Hsup file Hf schema bopt i sf rows Hi X2) as (F1 & F2 & F3).
    cbn [readerOpts CompressionKind] in F1. destruct (_ =? 0); [discriminate|]. rewrite F1 in Hys. cbn [rbind] in Hys.
    apply rbind_inv in Hys. destruct Hys as (ys' & Hys & E). match type of E with Ok ?z = _ => assert (ys = z) as -> by congruence end. clear E.
    cbn [newStripes] in Hss. apply rbind_inv in Hss. destruct Hss as (s & Hs & Hss). apply rbind_inv in Hss. destruct Hss as (ss' & Hss & E).
    assert (ss = s :: ss') as -> by congruence. constructor; [|eapply IH; eassumption].
    eapply (stripe_good inflate (readerOpts r) Hsup file Hf schema Hnum (fr_nodes r) Hnodes bopt Hinc Hread Hsh i sf rows Hi X2 X1 Hnd A1). exact Hs. }
  clear - Hsim Hgood. cbn [opened b_stripes] in *. remember (map newStripeR (map snd xs)) as ns eqn:En.
  assert (Hnew : Forall (fun s => exists l, s = newStripeR l) ns) by (subst ns; apply Forall_forall; intros s Hs; apply in_map_iff in Hs; destruct Hs as (l & <- & _); eauto).
  clear En. induction Hsim as [|s s' l l' H Hl IH]; [constructor|]. inversion Hgood as [|? ? G1 G2]; subst. inversion Hnew as [|? ? (rows & ->) N2]; subst.
  constructor; [|auto]. destruct H as (H1 & H2 & _ & H4 & H5 & H6 & tr & H7 & H8). cbn [newStripeR s_rows s_cursor s_pos] in *.
  unfold Stands. cbn [newStripeR s_rows s_cursor s_pos]. split; [exact H1|]. split; [exact H2|]. split; [lia|]. split; [lia|]. split; [exact H5|]. split; [exact H6|].
  exists tr, tr. split; [apply G1; exact H7|]. split; [exact H8|]. split; [exact H7|]. split; [apply SameT_refl|exact H8].
Qed.

(** ** What a client gets *)
Section Client.
Variable inflate : list Z -> res (list Z).
Variable r : fileR colstats.
Variable bopt : batchOption.
Variable schema : td.
Hypothesis Hinc : IsInclude bopt (td_id schema) = true.
Hypothesis Hfl : flagged (fr_hasNulls r) schema.
Hypothesis Hnd : NoDup (map td_id (flatten schema)).
Hypothesis Hsh : Shallow bopt false schema.
Notation StandsB := (StandsB inflate (readerOpts r) bopt schema).

Lemma client_moves c y ms out : 0 < c -> Moves c (i64 (fr_stride r)) y ms out -> forall x v, StandsB x y -> fits bopt c false schema v -> Cap v = c ->
  exists vs, Client inflate r x v ms vs /\ Forall2 (fun rows w => batch_shows bopt schema w rows) out vs.
Proof.
  intros Hc H. induction H as [y|y y' rows e ms out Hn H IH|y y' row ms out Hrow Hs H IH]; intros x v Hx Hf Hcap.
  - exists []. split; constructor.
  - destruct (next_stands inflate (readerOpts r) (fr_hasNulls r) bopt schema c Hc Hinc Hfl x y v y' rows e Hx (conj Hf Hcap) Hn) as (x1 & v1 & E1 & Hx1 & [Hf1 Hc1] & Hh).
    destruct (IH x1 v1 Hx1 Hf1 Hc1) as (vs & C & F). exists (v1 :: vs). split; [econstructor; [exact E1|exact C]|].
    constructor; [|exact F]. intros t p Hp. eapply held_shows; eassumption.
  - destruct (seek_stands inflate (readerOpts r) bopt schema Hinc Hsh (i64 (fr_stride r)) x y row y' Hx) as (x1 & E1 & Hx1); [change W64 with (2 ^ 64); exact Hrow|exact Hs|].
    destruct (IH x1 v Hx1 Hf Hcap) as (vs & C & F). exists vs. split; [econstructor; [exact E1|exact C]|exact F].
Qed.
End Client.

(** ** One Seek and one Next *)
Lemma moves_once {A} c stride (l : list A) ls row : 0 < c -> 0 < stride < 2 ^ 63 ->
  Forall (fun l => l <> []) (l :: ls) -> 2 <= zlen (concat (l :: ls)) < 2 ^ 62 -> 0 <= row < zlen (concat (l :: ls)) ->
  exists y1, Seek stride (opened (l :: ls)) row = Ok y1 /\
    (lands stride (zlen l) row + Z.min c (zlen l) <= zlen l -> exists y2 e,
       Next c y1 = Ok (y2, ztake (Z.min c (zlen l)) (zdrop (lands stride (zlen l) row) l), e)) /\
    (zlen l < lands stride (zlen l) row + Z.min c (zlen l) -> Next c y1 = Err).
Proof.
  intros Hc Hs Hne Ht Hr. assert (H1 : Forall (fun l => 1 <= zlen l) (l :: ls)).
  { eapply Forall_impl; [|exact Hne]. intros [|a q] Hq; [contradiction|]. rewrite zlen_cons. pose proof (zlen_nonneg q). lia. }
  inversion H1 as [|? ? Hl Hls]; subst. clear H1 Hne. fold (total (l :: ls)) in Ht, Hr. unfold lands.
  assert (W : W63 = 2 ^ 63) by reflexivity.
  assert (Hlen : zlen l <= total (l :: ls)) by (unfold total; cbn [concat]; rewrite zlen_app; pose proof (zlen_nonneg (concat ls)); lia).
  destruct (Z.ltb_spec row (zlen l)) as [Hrl|Hrl].
  - eexists. split; [apply seek_first; lia|]. pose proof (Z.mod_pos_bound row stride ltac:(lia)).
    destruct (next_first c l (row mod stride) (map newStripeR ls) (total (l :: ls)) Hc Hl ltac:(lia) ltac:(lia) ltac:(lia)) as [((b' & vec & e & E & ->) & H')|(E & H')].
    + split; [eauto|lia].
    + split; [lia|auto].
  - destruct (seek_later stride l ls row ltac:(lia) Hls ltac:(lia) ltac:(lia)) as [ss E]. eexists. split; [exact E|].
    destruct (next_first c l 0 ss (total (l :: ls)) Hc Hl ltac:(lia) ltac:(lia) ltac:(lia)) as [((b' & vec & e & E' & ->) & H')|(E' & H')]; [|lia].
    split; [eauto|lia].
Qed.
