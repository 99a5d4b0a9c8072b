(** How many buffers are made for the streams, for what was written, and for values. *)
From Coq Require Import ZifyBool ZifyNat.
From Verif.Model Require Import Go Codec ByteBool IntRle Chunk Stream Schema Rows File Column Wire Tree Assembled Memory.
From Verif.Spec Require Import BoolSpec Session StreamSpec ChunkSpec SchemaSpec RowsSpec FileSpec ColumnSpec AssemblySpec EndSpec OpenSpec MemorySpec.
From Verif.Proofs Require Import Base OpenBatchP SchemaP ChunkP TailP RowsP FileP OpenP FileClaimsP WireP ColumnP AssembledP BatchP EndP EndColP OpenTreeP EndFileP EndMainP MemoryP.

Notation many n l := (count_occ Z.eq_dec l n).
Lemma many_app n a b : many n (a ++ b) = (many n a + many n b)%nat.
Proof. apply count_occ_app. Qed.
Lemma abind_fst {A B} (m : asked A) (f : A -> asked B) a : snd m = Ok a -> fst (abind m f) = fst m ++ fst (f a).
Proof. unfold abind. intros ->. reflexivity. Qed.

(** Every included column has a reader. *)
Lemma newReaders_some b : forall ns hs encs i rs, newReaders b i ns hs encs = Ok rs -> 
  forall j, (j < length rs)%nat -> IsInclude b (i + Z.of_nat j) = true -> exists r, nth_error rs j = Some (Some r).
Proof.
  induction ns as [|n ns IH]; intros hs encs i rs H j Hj Hi; cbn [newReaders] in H.
  { assert (rs = []) as -> by congruence. cbn in Hj. lia. }
  destruct hs as [|h hs]; [assert (rs = []) as -> by congruence; cbn in Hj; lia|].
  apply rbind_inv in H. destruct H as (r0 & H0 & H). apply rbind_inv in H. destruct H as (rs0 & H1 & H). assert (rs = r0 :: rs0) as -> by congruence.
  destruct j as [|j].
  - replace (i + Z.of_nat 0) with i in Hi by lia. rewrite Hi in H0. destruct encs as [|e encs]; [discriminate|].
    apply rbind_inv in H0. destruct H0 as (x & _ & H0). exists x. cbn. congruence.
  - cbn [nth_error length] in *. apply (IH _ _ _ _ H1); [lia|]. replace (i + 1 + Z.of_nat j) with (i + Z.of_nat (S j)) by lia. exact Hi.
Qed.

Section Streams.
Variable inflate : list Z -> res (list Z).
Variable o : opts.
Variable b : batchOption.
Variable file : list Z.
Hypothesis Hk : isNone (CompressionKind o) = false.
Definition served (rs : list (option anyR)) : Prop := forall j, (j < length rs)%nat -> IsInclude b (Z.of_nat j) = true -> exists r, nth_error rs j = Some (Some r).
Lemma served_set rs j x : served rs -> served (set_nth rs j (Some x)).
Proof.
  intros H k Hl Hi. rewrite set_nth_length in Hl. destruct (H k Hl Hi) as (r & Hr). destruct (Nat.eq_dec j k) as [->|Hne].
  - exists x. apply set_nth_same. exact Hl.
  - exists r. rewrite set_nth_other by exact Hne. exact Hr.
Qed.
Lemma init_counts : forall l rs rs', served rs ->
  snd (initAllA inflate o file rs l) = Ok rs' -> (length (needed b l) <= many (ChunkSize o) (fst (initAllA inflate o file rs l)))%nat.
Proof.
  induction l as [|[s st] l IH]; intros rs rs' Hs H; cbn [initAllA needed filter length] in *; [lia|].
  fold (needed b l) in *.
  destruct (nth_error rs (Z.to_nat (st_column s))) as [[r|]|] eqn:En; [| |discriminate].
  - rewrite snd_abind in H. apply rbind_inv in H. destruct H as (r' & Hr & H). rewrite (abind_fst _ _ _ Hr), many_app.
    pose proof (IH _ _ (served_set rs (Z.to_nat (st_column s)) r' Hs) H) as Hle.
    match goal with |- context [if ?c then _ else _] => destruct c eqn:E end; [|lia]. cbn [length]. cbn [fst] in E.
    apply andb_prop in E. destruct E as [E _].
    destruct (Z.eqb_spec (st_kind s) 6) as [E6|]; [rewrite E6 in E; discriminate|]. unfold any_InitStreamA in *. rewrite Hk in *. cbn [negb andb] in *.
    assert (Hm : makesReader r s = true) by (destruct r as [c| | |]; try reflexivity; cbn [makesReader]; destruct (cr_kind c); try reflexivity; exact E).
    rewrite Hm in *. rewrite snd_abind in Hr. cbn [unasked snd] in Hr. destruct (any_InitStream file r s st); try discriminate.
    rewrite abind_ok, ask_fst. cbn [unasked fst]. unfold count_occ at 1. destruct (Z.eq_dec (ChunkSize o) (ChunkSize o)); [lia|contradiction].
  - pose proof (IH _ _ Hs H) as Hle. match goal with |- context [if ?c then _ else _] => destruct c eqn:E end; [|lia]. exfalso.
    apply andb_prop in E. destruct E as [_ E]. cbn [fst] in E. apply andb_prop in E. destruct E as [Hs0 E]. apply Z.leb_le in Hs0. destruct (Hs (Z.to_nat (st_column s))) as (r & Hr).
    + apply nth_error_Some. congruence.
    + rewrite Z2Nat.id by exact Hs0. exact E.
    + congruence.
Qed.
Variable nodes : list node.
Variable hasNulls : list bool.
Lemma stripes_count : forall l xs ss, initStripes inflate unmarshalSF (CompressionKind o) file l = Ok xs ->
  snd (openStripesA inflate o nodes hasNulls b file l) = Ok ss ->
  (length (flat_map (fun x : list Z * list (strm * Z) => needed b (snd x)) xs) <= many (ChunkSize o) (fst (openStripesA inflate o nodes hasNulls b file l)))%nat.
Proof.
  induction l as [|i l IH]; intros xs ss Hx H; cbn [initStripes openStripesA] in *.
  { assert (xs = []) as -> by congruence. cbn. lia. }
  destruct (_ =? 0); [discriminate|]. apply rbind_inv in Hx. destruct Hx as (x & Hx1 & Hx). apply rbind_inv in Hx. destruct Hx as (y & Hy & Hx).
  assert (xs = x :: y) as -> by congruence.  cbn [flat_map]. rewrite app_length.
  rewrite snd_abind in H. apply rbind_inv in H. destruct H as (x' & Hx' & H). rewrite (abind_fst _ _ _ Hx'), many_app. rewrite openStripeA_snd in Hx'. assert (x' = x) as -> by congruence.
  rewrite snd_abind in H. apply rbind_inv in H. destruct H as (s & Hs & H). rewrite (abind_fst _ _ _ Hs), many_app.
  rewrite snd_abind in H. apply rbind_inv in H. destruct H as (r & Hr & H). rewrite (abind_fst _ _ _ Hr), many_app.
  pose proof (IH _ _ Hy Hr) as Hle. enough (length (needed b (snd x)) <= many (ChunkSize o) (fst (newStripeRdA inflate o nodes hasNulls b file (NumberOfRows i) x)))%nat by lia.
  unfold newStripeRdA in *. rewrite snd_abind in Hs. apply rbind_inv in Hs. destruct Hs as (rs & Hrs & Hs). rewrite (abind_fst _ _ _ Hrs), many_app.
  rewrite snd_abind in Hs. apply rbind_inv in Hs. destruct Hs as (rs' & Hrs' & Hs). rewrite (abind_fst _ _ _ Hrs'), many_app.
  enough (length (needed b (snd x)) <= many (ChunkSize o) (fst (initAllA inflate o file rs (snd x))))%nat by lia.
  eapply init_counts; [|exact Hrs']. intros j Hj Hi. cbn [unasked snd] in Hrs. exact (newReaders_some _ _ _ _ _ _ Hrs j Hj Hi).
Qed.
End Streams.


(** One buffer for the footer and one for each of these streams. *)
Lemma opened_count inflate bopt file r x xs : openBatches inflate bopt file = Ok (r, x) -> fr_kind r <> NONE ->
  initStripes inflate unmarshalSF (fr_kind r) file (fr_stripes r) = Ok xs -> zlen file < 2 ^ 62 ->
  (1 + length (flat_map (fun x : list Z * list (strm * Z) => needed bopt (snd x)) xs) <= many (fr_chunkSize r) (fst (openBatchesA inflate bopt file)))%nat.
Proof.
  intros H Hk Hx Hf. rewrite <- openBatchesA_snd in H. unfold openBatchesA in *. rewrite snd_abind in H. apply rbind_inv in H. destruct H as (r' & Hr & H).
  rewrite (abind_fst _ _ _ Hr), many_app. destruct (_ =? 0); [discriminate|]. rewrite snd_abind in H. apply rbind_inv in H. destruct H as (ss & Hs & H).
  rewrite (abind_fst _ _ _ Hs), many_app. cbn [unasked snd] in H. assert (r' = r) as -> by congruence.
  pose proof (proj2 (reader_good inflate file Hf r Hr) Hk) as Hin. apply (count_occ_In Z.eq_dec) in Hin.
  assert (Hn : isNone (CompressionKind (readerOpts r)) = false) by (cbn; destruct (fr_kind r); [contradiction|reflexivity..]).
  pose proof (stripes_count inflate (readerOpts r) bopt file Hn _ _ _ _ _ Hx Hs) as Hle. cbn [readerOpts ChunkSize] in Hle. cbn [readerOpts ChunkSize]. lia.
Qed.

(** ** What was written *)
Lemma written_size deflate inflate F o stride StripeSize schema rows file r : flate_ok deflate inflate ->
  written_and_opened deflate inflate F o stride StripeSize schema rows file r -> fr_kind r = ZLIB /\ fr_chunkSize r = ChunkSize o.
Proof.
  intros Hflate (Hcs & (t0 & Hsize & Hnorm) & (vs & Hrows & Hclosed) & Hfile & Hnrows & Hopen).
  assert (Hs32 : size t0 <= 4294967296) by exact Hsize.
  destruct (normalize_spec _ _ Hs32 Hnorm) as (_ & Hnum & Hun).
  assert (Hflat : Flat schema = Ok (flatten schema)).
  { unfold Flat. rewrite (Numbered_CheckId _ Hnum Hun), Hun. reflexivity. }
  assert (Hnumd : numbered schema).
  { exists (flatten schema). split; [exact Hflat|]. apply Forall_forall. intros u Hx. apply (nth_id schema Hnum u Hx). }
  assert (Hrw : forall q, Rows vs q -> zlen q < W64).
  { intros q Hq. rewrite (Rows_fun _ _ Hq _ Hrows). change (2 ^ 62) with 4611686018427387904 in Hnrows. lia. }
  destruct (closed_opens deflate inflate _ _ _ _ wire o StripeSize cs_hasNull (columns_contract deflate F o stride) wire_ok Hflate Hcs _ _ _ Hclosed Hfile Hrw Hnumd)
    as (schemas & cs & rows' & rss & ms & csf & fb & psb & H1 & H2 & H3 & H4 & H5 & H6 & H7 & H8 & Hbig & Hempty & Hns & Hall).
  assert (rows' = rows) as -> by (eapply Rows_fun; eassumption). cbn [wire pb_unPS pb_unFooter] in *. destruct (Hns r Hopen) as (ns & Hn).
  destruct (Z_le_gt_dec (zlen fb + zlen psb + 1) 16384) as [Hle|Hgt]; [|rewrite Hbig in Hopen by lia; discriminate].
  assert (Hne : rows <> []) by (intros ->; rewrite Hempty in Hopen by (auto; lia); discriminate).
  destruct (Hall Hle Hne ns Hn) as (r' & Hr' & R1 & R2 & R3 & R4 & _). assert (r' = r) as -> by congruence. split; assumption.
Qed.
Lemma written_enough deflate inflate F o stride StripeSize schema rows file r bopt x M : flate_ok deflate inflate ->
  written_and_opened deflate inflate F o stride StripeSize schema rows file r -> openBatches inflate bopt file = Ok (r, x) ->
  zlen file <= M -> (within M (openBatchesA inflate bopt file) = Ok (r, x) <-> ChunkSize o <= M).
Proof.
  intros Hfl Hw Ho HM. destruct (written_size _ _ _ _ _ _ _ _ _ _ Hfl Hw) as [E1 E2]. destruct Hw as (_ & _ & _ & Hfile & _).
  rewrite (enough inflate bopt file r x M Hfile Ho HM), E1, E2. split; [intros [H|H]; [discriminate|exact H]|intros H; right; exact H].
Qed.

(** ** Values *)
Section Values.
Variable inflate : list Z -> res (list Z).
Variable o : opts.
Lemma nextTextA_value c old : cr_kind c = KString \/ cr_kind c = KBinary ->
  nextValue inflate o c old = let! x := snd (nextTextA inflate o c) in Ok (if match cr_kind c with KString => true | _ => false end then GString (fst x) else GBytes (fst x), snd x).
Proof.
  intros H. unfold nextValue, nextTextA. rewrite !snd_abind. cbn [unasked snd].
  destruct H as [-> | ->]; (destruct (nextSecond inflate o DecodeUInt (cr_second c)) as [[l s]| |]; [|reflexivity..]; cbn [rbind]; rewrite snd_abind; unfold ask; cbn [snd rbind fst];
    rewrite snd_abind; cbn [unasked snd]; match goal with |- rbind ?x _ = _ => destruct x as [[y d]| |] end; reflexivity).
Qed.
Lemma nextTextA_asks c : fst (nextTextA inflate o c) = match nextSecond inflate o DecodeUInt (cr_second c) with Ok x => [i64 (fst x)] | _ => [] end.
Proof.
  unfold nextTextA. unfold abind at 1. cbn [unasked snd fst app]. destruct (nextSecond _ _ _ _) as [[l s]| |]; try reflexivity. cbn [fst snd].
  unfold ask, abind. cbn [unasked fst snd app]. destruct (nextRaw _ _ _ _); reflexivity.
Qed.
Lemma DecodeBytes_length n r x r' : r_run inflate o (DecodeBytes n) r = Ok (x, r') -> zlen x = n.
Proof.
  unfold r_run, DecodeBytes. destruct (Z.ltb_spec n 0) as [|Hn]; [discriminate|]. cbn [runS]. intros H. apply rbind_inv in H. destruct H as ([y r1] & H & E). cbn [fst snd] in E.
  assert (x = y) as -> by (cbn [runS] in E; congruence). clear E. unfold r_ReadFull in H. destruct (Nat.eqb_spec (Z.to_nat n) 0) as [E0|E0].
  - assert (y = []) as -> by congruence. unfold zlen. cbn. lia.
  - apply rbind_inv in H. destruct H as (r2 & _ & H). destruct (Nat.leb_spec (Z.to_nat n) (length (r_buf r2))) as [Hl|]; [|discriminate].
    assert (y = firstn (Z.to_nat n) (r_buf r2)) as -> by congruence. unfold zlen. rewrite firstn_length. lia.
Qed.
Lemma nextTextA_exact c x c' : snd (nextTextA inflate o c) = Ok (x, c') -> fst (nextTextA inflate o c) = [zlen x].
Proof.
  intros H. rewrite nextTextA_asks. unfold nextTextA in H. rewrite snd_abind in H. apply rbind_inv in H. destruct H as ([l s] & H1 & H). cbn [unasked snd] in H1. rewrite H1.
  rewrite snd_abind in H. unfold ask in H. cbn [snd rbind fst] in H. rewrite snd_abind in H. apply rbind_inv in H. destruct H as ([y d] & H2 & H). cbn [unasked snd fst] in *.
  assert (x = y) as -> by congruence. f_equal. unfold nextRaw in H2. destruct (cr_data c) as [[]|]; try discriminate.
  apply rbind_inv in H2. destruct H2 as ([z r'] & H2 & E). assert (y = z) as -> by congruence. symmetry. exact (DecodeBytes_length _ _ _ _ H2).
Qed.
End Values.
