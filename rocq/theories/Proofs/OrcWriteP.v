(** Byte and boolean streams and whole columns as this library's writer stores them, and
    the ORC specification. *)
From Coq Require Import ZifyBool ZifyNat.
From Verif.Model Require Import Go Codec ByteBool IntRle Chunk Stream Schema Rows Time File Column Wire Assembled.
From Verif.Spec Require Import BoolSpec Session Bits IntSpec OrcInt StreamSpec ChunkSpec SchemaSpec FileSpec ColumnSpec AssemblySpec EndSpec OrcColumn OrcFile WriterSpec.
From Verif.Proofs Require Import Base CodecP SessionP ByteBoolP OrcIntP IntBytesP StreamP StreamClaimsP ReadP FileP ColumnP ColumnReadP EndColP OrcColumnP OrcWriteIntP.

(** ** Bytes and booleans *)
Lemma read_n_inv n : forall i l r, run (read_n n) i = Ok (l, r) -> i = l ++ r /\ length l = n.
Proof.
  induction n as [|n IH]; intros i l r H.
  - cbn in H. assert (l = [] /\ r = i) as [-> ->] by (split; congruence). auto.
  - cbn [read_n] in H. destruct i as [|b i]; [discriminate|]. rewrite run_byte, run_bind in H.
    apply rbind_inv in H. destruct H as ([l' r'] & H' & H). apply IH in H'. destruct H' as [-> Hl].
    cbn in H. assert (l = b :: l' /\ r = r') as [-> ->] by (split; congruence). cbn. auto.
Qed.
Lemma runs_orc_bytes i xs : Runs DecodeByteRL i xs -> bytes i -> orc_bytes i xs.
Proof.
  induction 1 as [|c vs i ws Hc Hr Hi IH]; intros Hb; [constructor|].
  apply bytes_app in Hb. destruct Hb as [Hbc Hb]. specialize (IH Hb).
  destruct c as [|h c]; [contradiction|]. specialize (Hr []). rewrite app_nil_r in Hr.
  unfold DecodeByteRL in Hr. rewrite run_byte in Hr. inversion Hbc as [|? ? Hh _]; subst. red in Hh.
  destruct (Z.ltb_spec h 128).
  - destruct c as [|v c]; [discriminate|]. rewrite run_byte in Hr. cbn in Hr.
    assert (c = [] /\ vs = repeat v (Z.to_nat h + MinRepeats)) as [-> ->] by (split; congruence).
    cbn [app]. replace (Z.to_nat h + MinRepeats)%nat with (Z.to_nat (h + 3)) by (unfold MinRepeats; lia).
    constructor; [lia|exact IH].
  - apply read_n_inv in Hr. destruct Hr as [Hc2 Hl]. rewrite app_nil_r in Hc2. subst c. cbn [app].
    constructor; [lia| |exact IH]. unfold zlen. lia.
Qed.
Lemma bytes_legal xs e e' b : byte_inv e -> b_values e = [] -> bytes xs ->
  segment byte_Encode byte_Flush e xs = Ok (e', b) -> bytes b /\ orc_bytes b xs.
Proof.
  intros Hi Hv Hx He. destruct (byte_segment_spec xs e Hi Hv Hx) as (e2 & b2 & H2 & _ & _ & Hb & Hruns).
  rewrite H2 in He. assert (b2 = b) as -> by congruence. split; [exact Hb|]. apply runs_orc_bytes; assumption.
Qed.
Lemma bits_legal seg e e' b : bool_inv e [] [] -> b_values (o_brl e) = [] ->
  segment bool_Encode bool_Flush e seg = Ok (e', b) -> bytes b /\ orc_bits b seg.
Proof.
  intros Hi Hv He. destruct (bool_segment_bytes seg e [] Hi Hv) as (e2 & b2 & bs & H2 & _ & _ & Hb & Hruns & Hs).
  rewrite H2 in He. assert (b2 = b) as -> by congruence. split; [exact Hb|].
  destruct (stored_fresh seg) as (l & El). exists bs, l. split; [apply runs_orc_bytes; assumption|].
  rewrite <- El, <- Hs. unfold bitsOfBytes. clear. induction bs as [|x t IH]; [reflexivity|]. cbn [flat_map]. rewrite bitsof_bitsN, IH. reflexivity.
Qed.
Lemma ints_legal signed xs e e' b : legal_ints signed xs -> i_values e = [] -> i_signed e = signed ->
  segment int_Encode int_Flush e xs = Ok (e', b) -> bytes b /\ orc_ints any_run signed b xs.
Proof.
  intros (e1 & b1 & Hseg & Hb & Hl) Hv Hs He.
  pose proof (int_segment_same xs e (NewIntRLV2 signed false)) as Hsame.
  rewrite He, Hseg in Hsame. cbn in Hsame. destruct Hsame as [_ <-]; [split; assumption|]. auto.
Qed.

(** ** Nanoseconds and digits *)
Lemma nanos_legal n : 0 <= n < 1000000000 -> orc_nanos (EncodingTimestampNanos n) = n.
Proof.
  intros Hn. change EncodingTimestampNanos with EncodingNano. unfold orc_nanos.
  destruct (Z.eq_dec n 0) as [->|Hn0]; [reflexivity|].
  destruct (nano_form n) as (d & z & -> & Hz & E). { change (2 ^ 61) with 2305843009213693952. lia. }
  replace ((d * 8 + z) mod 8) with z by zlia. replace ((d * 8 + z) / 8) with d by zlia.
  destruct (Z.eqb_spec z 0); lia.
Qed.
Lemma digits_one x o t : is_i64 x -> varint64_Encode x = Ok o -> varint (o ++ t) = Some (Zigzag x, t) /\ unzig true (Zigzag x) = x.
Proof.
  intros Hx H. unfold varint64_Encode in H. rewrite PutVarint_Zigzag in H by exact Hx. pose proof (Zigzag_range x Hx) as Hz.
  split; [eapply varint_put; [apply Hz|exact H]|].
  rewrite unzig_UnZigzag by exact Hz. apply UnZigzag_Zigzag. exact Hx.
Qed.
Lemma digits_legal xs : forall e b, Forall is_i64 xs -> segment encode encFlush EVarint (map GInt64 xs) = Ok (e, b) ->
  bytes b /\ orc_varints b xs.
Proof.
  unfold segment. assert (H : forall xs e b, Forall is_i64 xs -> feed encode EVarint (map GInt64 xs) = Ok (e, b) ->
    e = EVarint /\ bytes b /\ orc_varints b xs).
  { clear. induction xs as [|x t IH]; intros e b Hx H; cbn [map feed] in H.
    - assert (e = EVarint /\ b = []) as [-> ->] by (split; congruence). split; [reflexivity|]. split; constructor.
    - inversion Hx as [|? ? Hx1 Hxt]; subst. apply rbind_inv in H. destruct H as ([e1 b1] & H1 & H).
      cbn [encode] in H1. apply rbind_inv in H1. destruct H1 as (q & Hq & H1).
      assert (e1 = EVarint /\ q = b1) as [-> ->] by (split; congruence).
      apply rbind_inv in H. destruct H as ([e2 b2] & H2 & H). destruct (IH _ _ Hxt H2) as (-> & Hb2 & Hl2).
      assert (e = EVarint /\ b = b1 ++ b2) as [-> ->] by (split; congruence). split; [reflexivity|].
      destruct (varint64_total x Hx1) as (q & Hq' & Hbq). assert (q = b1) as -> by congruence.
      destruct (digits_one x b1 b2 Hx1 Hq) as [Hv Hz]. split; [apply bytes_app; auto|].
      rewrite <- Hz at 1. eapply orc_varints_one; eassumption. }
  intros e b Hx Hs. apply rbind_inv in Hs. destruct Hs as ([e1 b1] & H1 & Hs). destruct (H _ _ _ Hx H1) as (-> & Hb & Hl).
  cbn in Hs. assert (b = b1 ++ []) as -> by congruence. rewrite app_nil_r. auto.
Qed.

(** ** Columns *)
Section Columns.
Variable deflate : list (list Z) -> list Z -> res (list Z).
Variable inflate : list Z -> res (list Z).
Variable o : opts.
Hypothesis Ho : supported o.
Hypothesis Hok : flate_ok deflate inflate.
Notation nonempty := (fun d : list Z => d <> []).
Notation framed := (framed nonempty inflate o).
Notation holds := (OrcColumn.holds nonempty inflate o).
Notation stored := (StreamSpec.stored o).

Lemma stream_framed e vs w : writeStream deflate encode encFlush o (newWriter e) vs = Ok w ->
  exists bs, segment encode encFlush e vs = Ok (w_enc w, bs) /\ w_length w = zlen (stored w) /\ framed (stored w) bs.
Proof.
  intros H.
  destruct (stream_final deflate inflate Hok _ _ encode encFlush o Ho _ _ _ [] [] [] (Ext_new inflate _ o Ho e) H)
    as (e' & bs & Hseg & He & Hl & Hf). cbn [w_enc newWriter] in Hseg. exists bs.
  split; [rewrite He; exact Hseg|]. split; [exact Hl|]. unfold OrcColumn.framed. cbn [app] in Hf.
  destruct (CompressionKind o); [exact Hf|..]; destruct Hf as (x & ds & Hx & Hc & Hcat & Hne & _); rewrite Hx; eauto.
Qed.

(** Every stream is somewhere in the file, framed. *)
Fixpoint Placed (file : list Z) (its : list item) (offs : list (strm * Z)) (ins : nat -> list gval) : Prop :=
  match its, offs with
  | [], [] => True
  | it :: r, (s, off) :: r' =>
      st_kind s = it_kind it /\
      (exists e' bs pre enc post, segment encode encFlush (it_enc it) (ins O) = Ok (e', bs) /\
         file = pre ++ enc ++ post /\ off = zlen pre /\ st_length s = zlen enc /\ framed enc bs) /\
      Placed file r r' (fun i => ins (S i))
  | _, _ => False
  end.
Lemma Done_Placed id its : forall ss ins pre post, Done deflate o its ss ins ->
  Placed (pre ++ concat (map (fun q => stored (snd q)) ss) ++ post) its
         (offsets (zlen pre) (map (fun q => info id (fst q) (snd q)) ss)) ins.
Proof.
  induction its as [|it r IH]; intros [|[k w] ss] ins pre post Hd; cbn [Done] in Hd; try contradiction; [exact I|].
  destruct Hd as (-> & Hw & Hd). destruct (stream_framed _ _ _ Hw) as (bs & Hseg & Hlen & Hs).
  cbn [map concat fst snd offsets Placed info st_kind st_length]. split; [reflexivity|].
  rewrite <- app_assoc. split.
  - exists (w_enc w), bs, pre, (stored w), (concat (map (fun q => stored (snd q)) ss) ++ post). auto.
  - rewrite Hlen, <- zlen_app.
    replace (pre ++ stored w ++ concat (map (fun q => stored (snd q)) ss) ++ post)
      with ((pre ++ stored w) ++ concat (map (fun q => stored (snd q)) ss) ++ post) by (rewrite <- app_assoc; reflexivity).
    apply IH; assumption.
Qed.
Lemma Placed_ext file its : forall offs a b, (forall i, a i = b i) -> Placed file its offs a -> Placed file its offs b.
Proof.
  induction its as [|it r IH]; intros [|[s off] offs] a b Hab H; cbn in *; auto.
  destruct H as (H1 & H2 & H3). rewrite <- Hab. split; [exact H1|]. split; [exact H2|].
  eapply IH; [|exact H3]. intros; apply Hab.
Qed.
Lemma column_placed F stride c its vs bs infos c3 : streams c = map (fun it => (it_kind it, newWriter (it_enc it))) its ->
  active (cw_kind c) (hasNulls c) = true -> cw_kind c <> KDict ->
  writeColumn deflate F o stride c vs = Ok (bs, infos, c3) ->
  forall pre post, Placed (pre ++ bs ++ post) its (offsets (zlen pre) infos) (insAll (hasNulls c) (cw_kind c) vs).
Proof.
  intros Hst Ha Hnk H pre post. unfold writeColumn in H.
  apply rbind_inv in H. destruct H as (c1 & Hw & H). apply rbind_inv in H. destruct H as (c2 & Hfl & H).
  apply rbind_inv in H. destruct H as ([[bs' n] c3'] & Hwo & H).
  assert (bs' = bs /\ infos = c_Infos c3' /\ c3' = c3) as (-> & -> & ->) by (repeat split; congruence). clear H.
  destruct (writeRows_streams deflate F o stride vs c c1 Ha Hw) as (Hid1 & Hk1 & Hn1 & Hfed).
  assert (Hnd : cw_kind c1 <> KDict) by congruence.
  destruct (c_Flush_streams deflate o c1 c2 Hnd Hfl) as (Hid2 & Hk2 & Hn2 & _ & Hflu).
  destruct (c_WriteOut_streams o c2 bs n c3 Hwo) as (Hbs & Hn & Hid3 & Hk3 & Hn3 & Hst3).
  rewrite Hst in Hfed. pose proof (Fed_Flushed_Done _ _ _ _ _ _ Hfed Hflu) as Hd.
  assert (Hinf : c_Infos c3 = map (fun q => info (cw_id c) (fst q) (snd q)) (streams c2)).
  { rewrite c_Infos_streams, Hst3, map_map. apply map_ext. intros [k w]. cbn [fst snd]. unfold info.
    rewrite drained_length. f_equal. congruence. }
  rewrite Hinf. rewrite Hbs in *. apply Done_Placed; assumption.
Qed.

Notation leaf := written_kind.
(** The data streams of a kind. *)
Definition dataKinds (k : ckind) : list Z := 1 :: match k with KString => [2] | KTimestamp | KDecimal => [5] | _ => [] end.

Lemma data_laid k gs file its offs l : leaf k = true -> Forall (orc_typed k) gs -> legal k gs ->
  Fits its (dataStreams k o) -> firstStale its = [] -> Placed file its offs (fun i => flat_map (inp k i) gs) ->
  incl offs l -> kinds offs = dataKinds k /\ orc_data any_run nonempty inflate o file l k gs.
Proof.
  intros Hleaf Hty Hca Hp Hst Hs Hin.
  destruct k; try discriminate; cbn [dataStreams] in Hp; inversion Hp as [|it1 p1 its' pl' Hf1 Hp']; subst;
    inversion Hp' as [|it2 p2 its'' pl'' Hf2 Hp'']; subst; clear Hp Hp'; cbn [fst snd] in *; destruct Hf1 as [Hk1 Hf1];
    destruct offs as [|[s1 off1] offs]; cbn [Placed] in Hs; try contradiction;
    destruct Hs as (Hsk1 & (e1 & b1 & pre1 & enc1 & post1 & Hseg1 & Hfile1 & Hoff1 & Hlen1 & Hfr1) & Hs); rewrite Hk1 in Hsk1;
    destruct (it_enc it1) as [be|boe|ie| | | |] eqn:Hie; cbn [Fresh] in Hf1; try contradiction;
    assert (Hh1 : bytes b1 -> holds file l 1 b1) by
      (intros Hb; exists s1, off1, pre1, enc1, post1; split; [apply Hin; left; reflexivity|]; split; [exact Hsk1|]; auto).
  all: try (destruct offs as [|[? ?] ?]; cbn [Placed] in Hs; try contradiction;
            split; [unfold kinds; cbn [map fst]; rewrite Hsk1; reflexivity|]; cbn [orc_data]).
  1-3, 8:
    change (Forall (typed KShort) gs) in Hty || change (Forall (typed KInt) gs) in Hty || change (Forall (typed KLong) gs) in Hty || change (Forall (typed KDate) gs) in Hty;
    rewrite ints_inputs in Hseg1 by tauto;
    destruct Hf1 as [Hiv His]; cbn in His; rewrite seg_int64 in Hseg1 by exact His;
    destruct (segment int_Encode int_Flush ie (map int_of gs)) as [[e2 b2]| |] eqn:Eseg; cbn in Hseg1; try discriminate;
    assert (b2 = b1) as -> by congruence;
    destruct (ints_legal true _ ie e2 b1 Hca Hiv His Eseg) as [Hb Hl];
    exists b1, (map int_of gs); split; [apply Hh1; exact Hb|]; split; [exact Hl|].
  - split.
    + apply Forall_map. eapply Forall_impl; [|exact Hty]. intros g Hg. destruct g; cbn in Hg; try contradiction. exact Hg.
    + rewrite map_map, <- (map_id gs) at 1. apply map_ext_in. intros g Hg. rewrite Forall_forall in Hty. specialize (Hty g Hg).
      destruct g; cbn in Hty; try contradiction. reflexivity.
  - split.
    + apply Forall_map. eapply Forall_impl; [|exact Hty]. intros g Hg. destruct g; cbn in Hg; try contradiction. exact Hg.
    + rewrite map_map, <- (map_id gs) at 1. apply map_ext_in. intros g Hg. rewrite Forall_forall in Hty. specialize (Hty g Hg).
      destruct g; cbn in Hty; try contradiction. reflexivity.
  - rewrite map_map, <- (map_id gs) at 1. apply map_ext_in. intros g Hg. rewrite Forall_forall in Hty. specialize (Hty g Hg).
    destruct g; cbn in Hty; try contradiction. reflexivity.
  - split.
    + apply Forall_map. eapply Forall_impl; [|exact Hty]. intros g Hg. destruct g; cbn in Hg; try contradiction.
      destruct Hg as (n & Hn & ->). cbn [int_of]. destruct (ToDays_day (n * DayNs) n Hn eq_refl) as [_ ->]. exact Hn.
    + rewrite map_map, <- (map_id gs) at 1. apply map_ext_in. intros g Hg. rewrite Forall_forall in Hty. specialize (Hty g Hg).
      destruct g; cbn in Hty; try contradiction. destruct Hty as (n & Hn & ->). cbn [int_of].
      destruct (ToDays_day (n * DayNs) n Hn eq_refl) as [_ ->]. reflexivity.
  - (* bytes *)
    assert (Hg : exists xs, gs = map GByte xs /\ bytes xs).
    { clear - Hty. induction Hty as [|g t Hg Ht IH]; [exists []; split; [reflexivity|constructor]|].
      destruct IH as (xs & -> & Hx). destruct g; cbn in Hg; try contradiction. eexists (_ :: xs). split; [reflexivity|constructor; assumption]. }
    destruct Hg as (xs & -> & Hx).
    assert (Hi : flat_map (inp KByte 0) (map GByte xs) = map GByte xs).
    { clear. induction xs as [|x t IH]; [reflexivity|]. cbn. f_equal. exact IH. }
    rewrite Hi, seg_byte in Hseg1.
    destruct (segment byte_Encode byte_Flush be xs) as [[e2 b2]| |] eqn:Eseg; cbn in Hseg1; try discriminate.
    assert (b2 = b1) as -> by congruence. destruct Hf1 as [Hbi Hbv].
    destruct (bytes_legal xs be e2 b1 Hbi Hbv Hx Eseg) as [Hb Hl]. exists b1, xs. auto.
  - (* booleans *)
    assert (Hg : exists xs, gs = map GBool xs).
    { clear - Hty. induction Hty as [|g t Hg Ht IH]; [exists []; reflexivity|].
      destruct IH as (xs & ->). destruct g; cbn in Hg; try contradiction. eexists (_ :: xs). reflexivity. }
    destruct Hg as (xs & ->).
    assert (Hi : flat_map (inp KBool 0) (map GBool xs) = map GBool xs).
    { clear. induction xs as [|x t IH]; [reflexivity|]. cbn. f_equal. exact IH. }
    rewrite Hi, seg_bool in Hseg1.
    destruct (segment bool_Encode bool_Flush boe xs) as [[e2 b2]| |] eqn:Eseg; cbn in Hseg1; try discriminate.
    assert (b2 = b1) as -> by congruence. destruct Hf1 as [Hbi Hbv]. cbn [firstStale] in Hst. rewrite Hst in Hbi.
    destruct (bits_legal xs boe e2 b1 Hbi Hbv Eseg) as [Hb Hl]. exists b1, xs. auto.
  - (* double *)
    assert (Hg : exists xs, gs = map GDouble xs /\ Forall is_u64 xs).
    { clear - Hty. induction Hty as [|g t Hg Ht IH]; [exists []; split; [reflexivity|constructor]|].
      destruct IH as (xs & -> & Hx). destruct g; cbn in Hg; try contradiction. exists (bits :: xs). split; [reflexivity|constructor; assumption]. }
    destruct Hg as (xs & -> & Hx).
    assert (Hi : flat_map (inp KDouble 0) (map GDouble xs) = map GDouble xs).
    { clear. induction xs as [|x t IH]; [reflexivity|]. cbn. f_equal. exact IH. }
    rewrite Hi, (seg_raw EDouble GDouble double_Encode) in Hseg1 by reflexivity.
    assert (E : b1 = flat_map (little 8) xs).
    { assert (b1 = flat_map double_Encode xs) as -> by congruence. clear - Hx. induction Hx as [|x t Hx Ht IH]; [reflexivity|].
      cbn [flat_map]. rewrite IH, little8 by exact Hx. reflexivity. }
    exists xs. rewrite E in Hh1. split; [|split; [exact Hx|reflexivity]]. apply Hh1. apply Forall_flat_map. apply Forall_forall.
    intros x _. cbn [little]. repeat (constructor; [red; zlia|]). constructor.
  - (* string *)
    inversion Hp''; subst. destruct Hf2 as [Hk2 Hf2].
    destruct offs as [|[s2 off2] offs]; cbn [Placed] in Hs; try contradiction.
    destruct Hs as (Hsk2 & (e2 & b2 & pre2 & enc2 & post2 & Hseg2 & Hfile2 & Hoff2 & Hlen2 & Hfr2) & Hs). rewrite Hk2 in Hsk2.
    destruct (it_enc it2) as [be2|boe2|ie2| | | |] eqn:Hie2; cbn [Fresh] in Hf2; try contradiction.
    destruct offs as [|[? ?] ?]; cbn [Placed] in Hs; try contradiction.
    assert (Hg : exists ss, gs = map GString ss /\ Forall (fun s => bytes s /\ zlen s < W63) ss).
    { clear - Hty. induction Hty as [|g t Hg Ht IH]; [exists []; split; [reflexivity|constructor]|].
      destruct IH as (xs & -> & Hx). destruct g; cbn in Hg; try contradiction. exists (s :: xs). split; [reflexivity|constructor; [apply Hg|assumption]]. }
    destruct Hg as (ss & -> & Hz).
    assert (Hin1 : flat_map (inp KString 0) (map GString ss) = map GBytes ss).
    { clear. induction ss as [|x t IH]; [reflexivity|]. cbn. f_equal. exact IH. }
    assert (Hin2 : flat_map (inp KString 1) (map GString ss) = map GUint64 (map zlen ss)).
    { clear. induction ss as [|x t IH]; [reflexivity|]. cbn. f_equal. exact IH. }
    rewrite Hin1, (seg_raw EString GBytes string_Encode) in Hseg1 by reflexivity.
    assert (E : b1 = concat ss).
    { assert (b1 = flat_map string_Encode ss) as -> by congruence. rewrite flat_map_concat_map. unfold string_Encode. rewrite map_id. reflexivity. }
    destruct Hf2 as [Hiv His]. cbn in His. rewrite Hin2, seg_uint64 in Hseg2 by exact His.
    destruct (segment int_Encode int_Flush ie2 (map zlen ss)) as [[e3 b3]| |] eqn:Eseg; cbn in Hseg2; try discriminate.
    assert (b3 = b2) as -> by congruence.
    cbn [legal] in Hca. rewrite map_map in Hca. cbn [int_of] in Hca.
    destruct (ints_legal false _ ie2 e3 b2 Hca Hiv His Eseg) as [Hb Hl].
    split; [unfold kinds; cbn [map fst]; rewrite Hsk1, Hsk2; reflexivity|]. cbn [orc_data].
    exists b2, ss. rewrite E in Hh1. split; [|split; [|split; [exact Hl|split; [|reflexivity]]]].
    + apply Hh1. clear - Hz. induction Hz as [|s t [Hs _] Ht IH]; [constructor|]. cbn [concat]. apply bytes_app. auto.
    + exists s2, off2, pre2, enc2, post2. split; [apply Hin; right; left; reflexivity|]. split; [exact Hsk2|]. auto 10.
    + eapply Forall_impl; [|exact Hz]. intros s [_ Hs']. exact Hs'.
  - (* timestamp *)
    inversion Hp''; subst. destruct Hf2 as [Hk2 Hf2].
    destruct offs as [|[s2 off2] offs]; cbn [Placed] in Hs; try contradiction.
    destruct Hs as (Hsk2 & (e2 & b2 & pre2 & enc2 & post2 & Hseg2 & Hfile2 & Hoff2 & Hlen2 & Hfr2) & Hs). rewrite Hk2 in Hsk2.
    destruct (it_enc it2) as [be2|boe2|ie2| | | |] eqn:Hie2; cbn [Fresh] in Hf2; try contradiction.
    destruct offs as [|[? ?] ?]; cbn [Placed] in Hs; try contradiction.
    assert (Hin1 : flat_map (inp KTimestamp 0) gs = map GInt64 (map seconds_of gs)).
    { clear - Hty. induction Hty as [|g t Hg Ht IH]; [reflexivity|]. cbn [flat_map map]. rewrite IH. destruct g; cbn in Hg; try contradiction. reflexivity. }
    assert (Hin2 : flat_map (inp KTimestamp 1) gs = map GUint64 (map nanos_of gs)).
    { clear - Hty. induction Hty as [|g t Hg Ht IH]; [reflexivity|]. cbn [flat_map map]. rewrite IH. destruct g; cbn in Hg; try contradiction. reflexivity. }
    destruct Hca as [Hca1 Hca2].
    destruct Hf1 as [Hiv1 His1]. cbn in His1. rewrite Hin1, seg_int64 in Hseg1 by exact His1.
    destruct (segment int_Encode int_Flush ie (map seconds_of gs)) as [[e3 b3]| |] eqn:Eseg1; cbn in Hseg1; try discriminate.
    assert (b3 = b1) as -> by congruence. destruct (ints_legal true _ ie e3 b1 Hca1 Hiv1 His1 Eseg1) as [Hb1 Hl1].
    destruct Hf2 as [Hiv2 His2]. cbn in His2. rewrite Hin2, seg_uint64 in Hseg2 by exact His2.
    destruct (segment int_Encode int_Flush ie2 (map nanos_of gs)) as [[e4 b4]| |] eqn:Eseg2; cbn in Hseg2; try discriminate.
    assert (b4 = b2) as -> by congruence. destruct (ints_legal false _ ie2 e4 b2 Hca2 Hiv2 His2 Eseg2) as [Hb2 Hl2].
    split; [unfold kinds; cbn [map fst]; rewrite Hsk1, Hsk2; reflexivity|]. cbn [orc_data].
    exists b1, (map seconds_of gs), b2, (map nanos_of gs). split; [apply Hh1; exact Hb1|]. split.
    { exists s2, off2, pre2, enc2, post2. split; [apply Hin; right; left; reflexivity|]. split; [exact Hsk2|]. auto 10. }
    split; [exact Hl1|]. split; [exact Hl2|]. rewrite !map_length. split; [reflexivity|].
    clear - Hty. induction Hty as [|g t Hg Ht [IH1 IH2]]; [split; constructor|]. cbn [map combine].
    destruct g; cbn in Hg; try contradiction. destruct Hg as [_ Hn]. cbn [seconds_of nanos_of].
    split; (constructor; [|assumption]); cbn [fst snd].
    { rewrite nanos_legal by exact Hn. exact Hn. }
    rewrite nanos_legal by exact Hn. match goal with |- context [GTimestamp ?ts] => exists (ts_loc ts); destruct ts; reflexivity end.
  - (* decimal *)
    inversion Hp''; subst. destruct Hf2 as [Hk2 Hf2].
    destruct offs as [|[s2 off2] offs]; cbn [Placed] in Hs; try contradiction.
    destruct Hs as (Hsk2 & (e2 & b2 & pre2 & enc2 & post2 & Hseg2 & Hfile2 & Hoff2 & Hlen2 & Hfr2) & Hs). rewrite Hk2 in Hsk2.
    destruct (it_enc it2) as [be2|boe2|ie2| | | |] eqn:Hie2; cbn [Fresh] in Hf2; try contradiction.
    destruct offs as [|[? ?] ?]; cbn [Placed] in Hs; try contradiction.
    set (digit := fun g => match g with GDecimal p _ => p | _ => 0 end).
    assert (Hin1 : flat_map (inp KDecimal 0) gs = map GInt64 (map digit gs)).
    { clear - Hty. induction Hty as [|g t Hg Ht IH]; [reflexivity|]. cbn [flat_map map]. rewrite IH. destruct g; cbn in Hg; try contradiction. reflexivity. }
    assert (Hin2 : flat_map (inp KDecimal 1) gs = map GInt64 (map scale_of gs)).
    { clear - Hty. induction Hty as [|g t Hg Ht IH]; [reflexivity|]. cbn [flat_map map]. rewrite IH. destruct g; cbn in Hg; try contradiction. reflexivity. }
    assert (Hi64 : Forall is_i64 (map digit gs)).
    { clear - Hty. apply Forall_map. eapply Forall_impl; [|exact Hty]. intros g Hg. destruct g; cbn in Hg; try contradiction. apply Hg. }
    rewrite Hin1 in Hseg1. destruct (digits_legal _ _ _ Hi64 Hseg1) as [Hb1 Hl1].
    destruct Hf2 as [Hiv2 His2]. cbn in His2. rewrite Hin2, seg_int64 in Hseg2 by exact His2.
    destruct (segment int_Encode int_Flush ie2 (map scale_of gs)) as [[e4 b4]| |] eqn:Eseg2; cbn in Hseg2; try discriminate.
    assert (b4 = b2) as -> by congruence. destruct (ints_legal true _ ie2 e4 b2 Hca Hiv2 His2 Eseg2) as [Hb2 Hl2].
    split; [unfold kinds; cbn [map fst]; rewrite Hsk1, Hsk2; reflexivity|]. cbn [orc_data].
    exists b1, (map digit gs), b2, (map scale_of gs). split; [apply Hh1; exact Hb1|]. split.
    { exists s2, off2, pre2, enc2, post2. split; [apply Hin; right; left; reflexivity|]. split; [exact Hsk2|]. auto 10. }
    split; [exact Hl1|]. split; [exact Hl2|]. rewrite !map_length. split; [reflexivity|].
    clear - Hty. induction Hty as [|g t Hg Ht IH]; [reflexivity|]. cbn [map combine].
    destruct g; cbn in Hg; try contradiction. cbn [fst snd]. rewrite IH at 1. reflexivity.
Qed.

(** What is in the file for a column, of a struct its presence bits. *)
Definition laid (file : list Z) (l : list (strm * Z)) (k : ckind) (h : bool) (vs : list value) : Prop :=
  kinds l = (if h then [0] else []) ++ (match k with KStruct => [] | _ => dataKinds k end) /\
  (h = true -> exists b, holds file l 0 b /\ orc_bits b (bitsOf vs)) /\
  (k <> KStruct -> orc_data any_run nonempty inflate o file l k (nonnull (rows_of vs))).
Definition lays (k : ckind) (h : bool) (vs : list value) (x : colimage) : Prop :=
  forall pre post, laid (pre ++ concat (ci_streams x) ++ post) (offsets (zlen pre) (ci_infos x)) k h vs.

Lemma present_laid file it its s off offs l k vs : it_kind it = 0 -> Fresh [] (EBool (NewBoolEncoder (WriteIndex o))) (it_enc it) ->
  Placed file (it :: its) ((s, off) :: offs) (insAll true k vs) ->
  In (s, off) l -> st_kind s = 0 /\ exists b, holds file l 0 b /\ orc_bits b (bitsOf vs).
Proof.
  intros Hk Hf Hs Hin.
  cbn [Placed] in Hs. destruct Hs as (Hsk & (e0 & b0 & pre & enc & post & Hseg & Hfile & Hoff & Hlen & Hfr) & _).
  rewrite insAll_present in Hseg.
  split; [congruence|]. destruct (it_enc it) as [be|boe|ie| | | |]; cbn [Fresh] in Hf; try contradiction. destruct Hf as [Hbi Hbv].
  rewrite seg_bool in Hseg. destruct (segment bool_Encode bool_Flush boe (bitsOf vs)) as [[e1 b1]| |] eqn:Eseg; cbn in Hseg; try discriminate.
  assert (b1 = b0) as -> by congruence. destruct (bits_legal _ boe e1 b0 Hbi Hbv Eseg) as [Hb Hl].
  exists b0. split; [|exact Hl]. exists s, off, pre, enc, post. split; [exact Hin|]. split; [congruence|]. auto.
Qed.

Lemma leaf_laid k h vs file its offs : leaf k = true ->
  Forall (orc_typed k) (nonnull (rows_of vs)) -> legal k (nonnull (rows_of vs)) ->
  Fits its (planned o k h) -> presentStale h its = [] -> dataStale h its = [] ->
  Placed file its offs (insAll h k vs) -> laid file offs k h vs.
Proof.
  intros Hl Hty Hle Hf Hsp Hsd Hs. unfold planned in Hf.
  assert (Hk : (match k with KStruct => [] | _ => dataKinds k end) = dataKinds k) by (destruct k; try reflexivity; discriminate).
  unfold laid. rewrite Hk. destruct h; cbn [app] in Hf.
  - inversion Hf as [|it0 p0 its' pl' [Hk0 Hf0] Hf']; subst. cbn [fst snd] in *.
    destruct offs as [|[s0 off0] offs]; [contradiction|]. unfold presentStale, firstStale in Hsp. rewrite Hsp in Hf0.
    destruct (present_laid file it0 its' s0 off0 offs ((s0, off0) :: offs) k vs Hk0 Hf0 Hs (or_introl eq_refl)) as [Hs0 Hp].
    cbn [Placed] in Hs. destruct Hs as (_ & _ & Hs).
    destruct (data_laid k (nonnull (rows_of vs)) file its' offs ((s0, off0) :: offs) Hl Hty Hle Hf' Hsd) as [Hd Ho'].
    { eapply Placed_ext; [|exact Hs]. intros i. apply insAll_data. }
    { apply incl_tl, incl_refl. }
    split; [unfold kinds in *; cbn [map fst app]; rewrite Hd, Hs0; reflexivity|]. split; [intros _; exact Hp|intros _; exact Ho'].
  - destruct (data_laid k (nonnull (rows_of vs)) file its offs offs Hl Hty Hle Hf Hsd) as [Hd Ho'].
    { eapply Placed_ext; [|exact Hs]. intros i. apply insAll_false. }
    { apply incl_refl. }
    split; [exact Hd|]. split; [discriminate|intros _; exact Ho'].
Qed.

Variable F : floats.
Variable stride : Z.
Notation I := (columns deflate F o stride).
Notation CImage := (ColumnImage colW value (i_Write I) (i_Flush I) (i_Index I) (i_WriteOut I) (i_Infos I) o).
Notation CChain := (Chain colW value (i_Write I) (i_Flush I) (i_Index I) (i_WriteOut I) (i_Infos I) (i_Reset I) o).

Definition orc_segs (k : ckind) (h : bool) (vss : list (list value)) : Prop :=
  (leaf k = true -> Forall (fun vs => Forall (orc_typed k) (nonnull (rows_of vs)) /\ legal k (nonnull (rows_of vs))) vss) /\
  (h = true -> Forall whole8 (removelast vss)) /\
  (k = KBool -> Forall (fun vs => whole8 (nonnull (rows_of vs))) (removelast vss)).
Lemma orc_segs_tail k h vs vs2 vss : orc_segs k h (vs :: vs2 :: vss) ->
  orc_segs k h (vs2 :: vss) /\ (h = true -> whole8 vs) /\ (k = KBool -> whole8 (nonnull (rows_of vs))).
Proof.
  intros (H1 & H2 & H3). split; [split; [|split]|split].
  - intros E. specialize (H1 E). inversion H1; assumption.
  - intros E. specialize (H2 E). inversion H2; assumption.
  - intros E. specialize (H3 E). inversion H3; assumption.
  - intros E. specialize (H2 E). inversion H2; assumption.
  - intros E. specialize (H3 E). inversion H3; assumption.
Qed.

Lemma written_active k hn : leaf k = true -> active k hn = true.
Proof. unfold active. destruct k; try discriminate; reflexivity. Qed.
Lemma Clean_written id k hn : leaf k = true -> exists its, Clean o (newColW o id k hn) its /\
  presentStale hn its = [] /\ dataStale hn its = [].
Proof.
  intros Hl. exists (map (fun p => {| it_kind := fst p; it_enc := snd p; it_stale := [] |}) (planned o k hn)).
  assert (Hb : forall b, bool_inv (NewBoolEncoder b) [] [] /\ b_values (o_brl (NewBoolEncoder b)) = []).
  { intros b. split; [apply bool_New_inv|reflexivity]. }
  split; [split|].
  - unfold streams, newColW, planned. cbn [cw_present cw_data]. rewrite map_map. destruct hn; cbn [app map]; rewrite ?map_map; reflexivity.
  - unfold newColW, hasNulls. cbn [cw_kind cw_present].
    replace (match (if hn then _ else _) with Some _ => true | None => false end) with hn by (destruct hn; reflexivity).
    unfold Fits, planned. destruct hn; destruct k; try discriminate; cbn [dataStreams app map];
      repeat (constructor; [split; [reflexivity|]; cbn [fst snd it_enc it_stale Fresh]; try exact Logic.I; auto|]);
      try constructor.
    all: split; try reflexivity; apply byte_New_inv.
  - unfold presentStale, dataStale, dataItems, planned. destruct hn; destruct k; try discriminate; split; reflexivity.
Qed.
Lemma written_u8 k gs i : Forall (orc_typed k) gs -> Forall (fun g => match g with GByte x => is_u8 x | _ => True end) (flat_map (inp k i) gs).
Proof.
  intros H. apply Forall_flat_map. eapply Forall_impl; [|exact H]. intros g Hg. unfold inp.
  destruct k; cbn [typed orc_typed] in Hg; try contradiction; destruct g; cbn [typed] in Hg; try contradiction; cbn [puts];
    destruct i as [|[|[|i]]]; cbn [nth]; try (destruct i);
    repeat (apply Forall_cons; [first [exact Logic.I | assumption]|]); apply Forall_nil.
Qed.
Lemma insAll_written_u8 k hn vs i : Forall (orc_typed k) (nonnull (rows_of vs)) ->
  Forall (fun g => match g with GByte x => is_u8 x | _ => True end) (insAll hn k vs i).
Proof.
  intros H. destruct hn; [destruct i as [|i]|].
  - rewrite insAll_present. apply Forall_map. apply Forall_forall. intros; exact Logic.I.
  - rewrite insAll_data. apply written_u8. exact H.
  - rewrite insAll_false. apply written_u8. exact H.
Qed.
(** After a stripe the column is ready for another. *)
Lemma column_next c its vs bs infos c3 : Clean o c its -> leaf (cw_kind c) = true ->
  Forall (orc_typed (cw_kind c)) (nonnull (rows_of vs)) ->
  writeColumn deflate F o stride c vs = Ok (bs, infos, c3) ->
  (forall c4, c_Reset o c3 = Ok c4 -> exists its', Clean o c4 its' /\
     cw_kind c4 = cw_kind c /\ hasNulls c4 = hasNulls c /\ cw_id c4 = cw_id c /\
     presentStale (hasNulls c) its' = (if hasNulls c then next_stale (presentStale (hasNulls c) its) (bitsOf vs) else []) /\
     dataStale (hasNulls c) its' = (match cw_kind c with
        KBool => next_stale (dataStale (hasNulls c) its) (map bool_of (nonnull (rows_of vs))) | _ => [] end)).
Proof.
  intros [Hst Hf] Hl Hty H. unfold writeColumn in H.
  apply rbind_inv in H. destruct H as (c1 & Hw & H). apply rbind_inv in H. destruct H as (c2 & Hfl & H).
  apply rbind_inv in H. destruct H as ([[bs' n] c3'] & Hwo & H).
  assert (bs' = bs /\ infos = c_Infos c3' /\ c3' = c3) as (-> & -> & ->) by (repeat split; congruence). clear H.
  destruct (writeRows_streams deflate F o stride vs c c1 (written_active _ _ Hl) Hw) as (Hid1 & Hk1 & Hn1 & Hfed).
  assert (Hnd : cw_kind c1 <> KDict). { rewrite Hk1. destruct (cw_kind c); discriminate. }
  destruct (c_Flush_streams deflate o c1 c2 Hnd Hfl) as (Hid2 & Hk2 & Hn2 & _ & Hflu).
  destruct (c_WriteOut_streams o c2 bs n c3 Hwo) as (Hbs & Hn & Hid3 & Hk3 & Hn3 & Hst3).
  rewrite Hst in Hfed. pose proof (Fed_Flushed_Done _ _ _ _ _ _ Hfed Hflu) as Hd.
  intros c4 Hr. destruct (c_Reset_streams o c3 c4 Hr) as (Hid4 & Hk4 & Hn4 & Hst4).
  set (hn := hasNulls c) in *. set (k := cw_kind c) in *.
  destruct (Done_next deflate inflate o Ho Hok its (planned o k hn) (streams c2) (insAll hn k vs) Hd Hf) as [Hf' Hm'].
  { intros i it _. apply is_bytes_all, insAll_written_u8. exact Hty. }
  exists (nextItems its (streams c2) (insAll hn k vs)).
  assert (E1 : cw_kind c4 = k) by congruence. assert (E2 : hasNulls c4 = hn) by congruence. assert (E3 : cw_id c4 = cw_id c) by congruence.
  split; [split|].
  + rewrite Hm', Hst4, Hst3, map_map. apply map_ext. intros [q w]. cbn [fst snd]. rewrite drained_enc. reflexivity.
  + rewrite E1, E2. exact Hf'.
  + do 3 (split; [assumption|]). clear - Hd Hf Hty Hl. clearbody hn k.
    assert (Hm : map bool_of (map GBool (bitsOf vs)) = bitsOf vs) by (rewrite map_map; apply map_id).
    assert (Hg : k = KBool -> flat_map (inp KBool 0) (nonnull (rows_of vs)) = nonnull (rows_of vs)).
    { intros ->. clear - Hty. revert Hty. induction (nonnull (rows_of vs)) as [|g t IH]; [reflexivity|].
      intros H. inversion H; subst. cbn [flat_map]. rewrite IH by assumption. destruct g; cbn in *; try contradiction. reflexivity. }
    unfold planned in Hf. destruct hn; cbn [app] in Hf.
    * inversion Hf as [|it0 p0 its' pl' [Hk0 Hf0] Hf']; subst. cbn [fst snd] in *.
      destruct (streams c2) as [|[q0 w0] ss]; cbn [Done] in Hd; [contradiction|]. destruct Hd as (_ & _ & Hd).
      destruct (it_enc it0) as [be|boe|ie| | | |] eqn:Hie; cbn [Fresh] in Hf0; try contradiction.
      unfold presentStale, dataStale, dataItems.
      cbn [nextItems firstStale nextItem it_stale tl].
      rewrite Hie. cbn [staleAfter]. rewrite insAll_present, Hm. split; [reflexivity|].
      destruct k; try discriminate; cbn [dataStreams] in Hf';
        inversion Hf' as [|it1 p1 its'' pl'' [Hk1 Hf1] Hf'']; subst; cbn [fst snd] in *;
        destruct ss as [|[q1 w1] ss]; cbn [Done] in Hd; try contradiction;
        cbn [nextItems firstStale nextItem it_stale]; destruct (it_enc it1); cbn [Fresh] in Hf1; try contradiction;
        cbn [staleAfter]; try reflexivity.
      rewrite insAll_data, Hg by reflexivity. reflexivity.
    * unfold presentStale, dataStale, dataItems. split; [reflexivity|].
      destruct k; try discriminate; cbn [dataStreams] in Hf;
        inversion Hf as [|it1 p1 its'' pl'' [Hk1 Hf1] Hf'']; subst; cbn [fst snd] in *;
        destruct (streams c2) as [|[q1 w1] ss]; cbn [Done] in Hd; try contradiction;
        cbn [nextItems firstStale nextItem it_stale]; destruct (it_enc it1); cbn [Fresh] in Hf1; try contradiction;
        cbn [staleAfter]; try reflexivity.
      rewrite insAll_false, Hg by reflexivity. reflexivity.
Qed.

Lemma chain_leaf_lays vss xs cf c : CChain c vss xs cf -> forall its, Clean o c its ->
  leaf (cw_kind c) = true -> presentStale (hasNulls c) its = [] -> dataStale (hasNulls c) its = [] ->
  orc_segs (cw_kind c) (hasNulls c) vss ->
  Forall2 (lays (cw_kind c) (hasNulls c)) vss xs.
Proof.
  assert (Hone : forall c vs x c' its, CImage c vs x c' -> Clean o c its -> leaf (cw_kind c) = true ->
    presentStale (hasNulls c) its = [] -> dataStale (hasNulls c) its = [] ->
    Forall (orc_typed (cw_kind c)) (nonnull (rows_of vs)) /\ legal (cw_kind c) (nonnull (rows_of vs)) ->
    lays (cw_kind c) (hasNulls c) vs x).
  { intros c0 vs x c' its H Hc Hl Hsp Hsd [Hty Hle] pre post. apply image_writes in H. destruct Hc as [Hst Hf].
    eapply leaf_laid; eauto. eapply column_placed; [exact Hst|apply written_active; exact Hl| |exact H].
    destruct (cw_kind c0); discriminate. }
  induction 1 as [c vs x c' H|c vs x c1 c2 vss xs cf H Hr Hc2 IH]; intros its Hc Hl Hsp Hsd Hok'.
  - constructor; [|constructor]. eapply Hone; eauto. destruct Hok' as (H1 & _). specialize (H1 Hl). inversion H1; assumption.
  - assert (Hty : Forall (orc_typed (cw_kind c)) (nonnull (rows_of vs)) /\ legal (cw_kind c) (nonnull (rows_of vs))).
    { destruct Hok' as (H1 & _). specialize (H1 Hl). inversion H1; assumption. }
    constructor; [eapply Hone; eauto|].
    destruct vss as [|v2 vss]; [exfalso; apply chain_nonempty in Hc2; congruence|].
    destruct (orc_segs_tail _ _ _ _ _ Hok') as (Hok2 & Hw1 & Hw2).
    apply image_writes in H. pose proof (column_next c its vs _ _ _ Hc Hl (proj1 Hty) H) as Hn.
    destruct (Hn c2 Hr) as (its' & HC & HK & HN & _ & HP & HD). rewrite <- HK, <- HN. apply (IH its').
    + exact HC.
    + rewrite HK. exact Hl.
    + rewrite HN, HP. destruct (hasNulls c); [|reflexivity]. rewrite Hsp. apply next_stale_whole. unfold whole8, bitsOf in *. rewrite map_length. apply Hw1. reflexivity.
    + rewrite HN, HD, Hsd. destruct (cw_kind c); try reflexivity. apply next_stale_whole. unfold whole8 in *. rewrite map_length. apply Hw2. reflexivity.
    + rewrite HK, HN. exact Hok2.
Qed.

Lemma chain_plain_lays vss xs cf c : CChain c vss xs cf -> cw_kind c = KStruct -> hasNulls c = false -> streams c = [] ->
  Forall2 (lays KStruct false) vss xs.
Proof.
  assert (Hone : forall c vs x c', CImage c vs x c' -> cw_kind c = KStruct -> hasNulls c = false -> streams c = [] ->
    lays KStruct false vs x /\ cw_kind c' = KStruct /\ hasNulls c' = false /\ streams c' = []).
  { intros c0 vs x c' H Hk Hn Hs. destruct H as (c1 & c2 & Hw & Hf & _ & (n & Hwo) & Hi & _).
    rewrite writeVals_rows, struct_inactive in Hw by assumption. assert (c1 = c0) as -> by congruence. cbn in Hf, Hwo, Hi.
    destruct (c_Flush_streams deflate o c0 c2 ltac:(congruence) Hf) as (_ & Hk2 & Hn2 & _ & Hflu).
    destruct (c_WriteOut_streams o c2 _ n c' Hwo) as (_ & _ & _ & Hk3 & Hn3 & Hst3).
    rewrite Hs in Hflu. destruct (streams c2); [|contradiction]. split; [|split; [congruence|split; [congruence|exact Hst3]]].
    intros pre post. rewrite <- Hi, c_Infos_streams, Hst3. cbn [map offsets]. split; [reflexivity|]. split; [discriminate|intros E; contradiction]. }
  induction 1 as [c vs x c' H|c vs x c1 c2 vss xs cf H Hr Hc2 IH]; intros Hk Hn Hs;
    destruct (Hone _ _ _ _ H Hk Hn Hs) as (H1 & H2 & H3 & H4).
  - constructor; [exact H1|constructor].
  - constructor; [exact H1|]. destruct (c_Reset_streams o c1 c2 Hr) as (_ & Hk4 & Hn4 & Hst4). apply IH; try congruence.
    rewrite Hst4, H4. reflexivity.
Qed.

Lemma chain_struct_lays vss xs cf c : CChain c vss xs cf -> forall it, cw_kind c = KStruct -> hasNulls c = true ->
  streams c = [(it_kind it, newWriter (it_enc it))] -> Fits [it] (planned o KStruct true) -> it_stale it = [] ->
  Forall whole8 (removelast vss) -> Forall2 (lays KStruct true) vss xs.
Proof.
  assert (Hone : forall c vs x c' it, CImage c vs x c' -> cw_kind c = KStruct -> hasNulls c = true ->
    streams c = [(it_kind it, newWriter (it_enc it))] -> Fits [it] (planned o KStruct true) -> it_stale it = [] ->
    lays KStruct true vs x /\ cw_kind c' = KStruct /\ hasNulls c' = true /\
    exists it', map (fun q => (fst q, newWriter (w_enc (snd q)))) (streams c') = [(it_kind it', newWriter (it_enc it'))] /\
      Fits [it'] (planned o KStruct true) /\ it_stale it' = next_stale [] (bitsOf vs)).
  { intros c0 vs x c' it H Hk Hn Hst Hf Hsp. pose proof (image_writes _ _ _ _ _ _ _ _ H) as Hw. destruct H as (c1 & c2 & Hwv & Hfl & _ & (n & Hwo) & Hi & _).
    split.
    - intros pre post.
      pose proof (column_placed F stride c0 [it] vs (concat (ci_streams x)) (ci_infos x) c' Hst) as Hs.
      rewrite Hk, Hn in Hs. specialize (Hs eq_refl ltac:(discriminate) Hw pre post).
      inversion Hf as [|it0 p0 its' pl' [Hk0 Hf0] Hf']; subst it0 p0 its' pl'. cbn [fst snd] in *.
      destruct (offsets (zlen pre) (ci_infos x)) as [|[s0 off0] offs] eqn:Eo; [contradiction|].
      rewrite Hsp in Hf0.
      destruct (present_laid _ it [] s0 off0 offs ((s0, off0) :: offs) KStruct vs Hk0 Hf0 Hs (or_introl eq_refl)) as [Hs0 Hp].
      cbn [Placed] in Hs. destruct Hs as (_ & _ & Hs). destruct offs; [|contradiction].
      split; [unfold kinds; cbn [map fst app]; rewrite Hs0; reflexivity|]. split; [intros _; exact Hp|intros E; contradiction].
    - rewrite writeVals_rows in Hwv. cbn in Hfl, Hwo, Hi.
      destruct (writeRows_streams deflate F o stride vs c0 c1) as (_ & Hk1 & Hn1 & Hfed); [rewrite Hk, Hn; reflexivity|exact Hwv|].
      destruct (c_Flush_streams deflate o c1 c2 ltac:(congruence) Hfl) as (_ & Hk2 & Hn2 & _ & Hflu).
      destruct (c_WriteOut_streams o c2 _ n c' Hwo) as (_ & _ & _ & Hk3 & Hn3 & Hst3).
      split; [congruence|]. split; [congruence|]. rewrite Hst in Hfed.
      pose proof (Fed_Flushed_Done deflate o [it] _ _ _ Hfed Hflu) as Hd. rewrite Hk, Hn in Hd.
      destruct (Done_next deflate inflate o Ho Hok [it] (planned o KStruct true) (streams c2) (insAll true KStruct vs) Hd Hf) as [Hf' Hm'].
      { intros i it' Hi'. destruct i; [|destruct i; discriminate]. assert (it' = it) as -> by (cbn in Hi'; congruence). apply is_bytes_all. rewrite insAll_present.
        apply Forall_map. apply Forall_forall. intros; exact Logic.I. }
      cbn [Done] in Hd. destruct (streams c2) as [|[k2 w2] [|? ?]] eqn:Es2; cbn [Done] in Hd; try tauto.
      cbn [nextItems] in Hf', Hm'. eexists. split; [|split; [exact Hf'|]].
      + rewrite Hst3, map_map. cbn [map fst snd]. rewrite drained_enc. cbn [map fst snd] in Hm'. symmetry. exact Hm'.
      + cbn [nextItem it_stale]. inversion Hf as [|it0 p0 its' pl' [Hk0 Hf0] _]; subst it0 p0 its' pl'. cbn [fst snd] in *.
        destruct (it_enc it) eqn:Hie; cbn [Fresh] in Hf0; try contradiction. cbn [staleAfter]. rewrite insAll_present, map_map, Hsp. cbn [bool_of]. rewrite map_id. reflexivity. }
  induction 1 as [c vs x c' H|c vs x c1 c2 vss xs cf H Hr Hc2 IH]; intros it Hk Hn Hs Hf Hsp Hw8;
    destruct (Hone _ _ _ _ it H Hk Hn Hs Hf Hsp) as (H1 & H2 & H3 & it' & H4 & H5 & H6).
  - constructor; [exact H1|constructor].
  - constructor; [exact H1|]. destruct (c_Reset_streams o c1 c2 Hr) as (_ & Hk4 & Hn4 & Hst4).
    destruct vss as [|v2 vss]; [exfalso; apply chain_nonempty in Hc2; congruence|]. inversion Hw8 as [|? ? Hw Hw8']; subst.
    apply (IH it'); [congruence|congruence|congruence|exact H5| |exact Hw8'].
    rewrite H6. apply next_stale_whole. unfold whole8, bitsOf in *. rewrite map_length. exact Hw.
Qed.

(** A column created for the file. *)
Theorem chain_lays id k h vss xs cf : CChain (newColW o id k h) vss xs cf -> leaf k = true \/ k = KStruct ->
  orc_segs k h vss -> Forall2 (lays k h) vss xs.
Proof.
  intros Hc Hk Hs. assert (Hh : hasNulls (newColW o id k h) = h) by (destruct h; reflexivity). destruct Hk as [Hk| ->].
  - destruct (Clean_written id k h Hk) as (its & HC & HP & HD).
    pose proof (chain_leaf_lays _ _ _ _ Hc its HC Hk) as H. rewrite Hh in H. apply H; assumption.
  - destruct h.
    + destruct Hs as (_ & Hw & _).
      apply (chain_struct_lays _ _ _ _ Hc {| it_kind := sPRESENT; it_enc := EBool (NewBoolEncoder (WriteIndex o)); it_stale := [] |}); auto.
      constructor; [|constructor]. split; [reflexivity|]. cbn [snd it_enc it_stale Fresh]. split; [apply bool_New_inv|reflexivity].
    + apply (chain_plain_lays _ _ _ _ Hc); reflexivity.
Qed.
End Columns.
