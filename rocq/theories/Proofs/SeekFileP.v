(** Seek on files of this writer. *)
From Coq Require Import ZifyBool ZifyNat.
From Verif.Model Require Import Go Codec ByteBool IntRle Chunk Stream Schema Rows Time File Column Wire Assembled.
From Verif.Spec Require Import BoolSpec Session StreamSpec ChunkSpec SchemaSpec RowsSpec FileSpec ColumnSpec AssemblySpec EndSpec.
From Verif.Proofs Require Import Base OpenBatchP SchemaP ChunkP TailP RowsP FileP OpenP FileClaimsP WireP AssembledP BatchP EndP EndColP OpenTreeP EndFileP EndMainP.

Lemma opened_facts deflate inflate F o stride StripeSize schema rows file r : flate_ok deflate inflate ->
  written_and_opened deflate inflate F o stride StripeSize schema rows file r ->
  fr_stride r = 0 /\ fr_rows r = zlen rows /\
  exists rss, rows = concat rss /\ map NumberOfRows (fr_stripes r) = map zlen rss.
Proof.
  intros Hflate (Hcs & (t0 & Hsize & Hnorm) & (vs & Hrows & Hclosed) & Hfile & Hnrows & Hopen).
  assert (Hs32 : size t0 <= 4294967296) by exact Hsize.
  destruct (normalize_spec _ _ Hs32 Hnorm) as (_ & Hnum & Hun).
  assert (Hflat : Flat schema = Ok (flatten schema)).
  { unfold Flat. rewrite (Numbered_CheckId _ Hnum Hun), Hun. reflexivity. }
  assert (Hnumd : numbered schema).
  { exists (flatten schema). split; [exact Hflat|]. apply Forall_forall. intros x Hx. apply flatten_Column in Hx.
    destruct (nth_flatten 0 schema x Hnum Hx) as [H1 H2]. rewrite flatten_length. clear - H2. lia. }
  assert (Hrw : forall q, Rows vs q -> zlen q < W64).
  { intros q Hq. rewrite (Rows_fun _ _ Hq _ Hrows). change (2 ^ 62) with 4611686018427387904 in Hnrows. lia. }
  destruct (closed_opens deflate inflate _ _ _ _ wire o StripeSize cs_hasNull (columns_contract deflate F o stride) wire_ok Hflate Hcs _ _ _ Hclosed Hfile Hrw Hnumd)
    as (schemas & cs & rows' & rss & ms & csf & fb & psb & H1 & H2 & H3 & H4 & H5 & H6 & H7 & H8 & Hbig & Hempty & Hns & Hall).
  assert (rows' = rows) as -> by (eapply Rows_fun; eassumption). assert (schemas = flatten schema) as -> by congruence. clear H1.
  cbn [wire pb_unPS pb_unFooter] in *. destruct (Hns r Hopen) as (ns & Hn).
  destruct (Z_le_gt_dec (zlen fb + zlen psb + 1) 16384) as [Hle|Hgt]; [|rewrite Hbig in Hopen by lia; discriminate].
  assert (Hne : rows <> []) by (intros ->; rewrite Hempty in Hopen by (auto; lia); discriminate).
  destruct (Hall Hle Hne ns Hn) as (r' & Hr' & R1 & R2 & R3 & R4 & R5 & R6 & R7 & R8). assert (r' = r) as -> by congruence.
  split; [exact R5|]. split; [exact R1|]. exists rss. split; [exact H4|].
  rewrite R2. clear - H6. generalize 3. revert ms H6. induction rss as [|q rss IH]; intros [|m ms] H z; try discriminate; [reflexivity|].
  cbn [directory map NumberOfRows]. rewrite IH by (cbn in H; lia). reflexivity.
Qed.

(** Row counts never change. *)
Definition counts (b : batchRd) : list Z * Z := (map sr_rows (br_stripes b), br_total b).
Lemma stripeNext_rows inflate o hn s v s' v' e : stripeNext inflate o hn s v = Ok (s', v', e) -> sr_rows s' = sr_rows s.
Proof.
  unfold stripeNext. intros H. apply rbind_inv in H. destruct H as (v1 & _ & H). destruct (sr_tree s); [|discriminate].
  apply rbind_inv in H. destruct H as ([x t'] & _ & H). match type of H with Ok (?a, _, _) = _ => assert (s' = a) as -> by congruence end. reflexivity.
Qed.
Lemma set_nth_rows ss : forall i s s', nth_error ss i = Some s -> sr_rows s' = sr_rows s -> map sr_rows (set_nth ss i s') = map sr_rows ss.
Proof.
  induction ss as [|x r IH]; intros [|i] s s' H E; try discriminate H; cbn [set_nth map].
  - cbn in H. congruence.
  - cbn in H. rewrite (IH i s s' H E). reflexivity.
Qed.
Lemma readLoop_rows inflate o hn fuel : forall ss i v ss' i' v', readLoop inflate o hn fuel ss i v = Ok (ss', i', v') ->
  map sr_rows ss' = map sr_rows ss.
Proof.
  induction fuel as [|f IH]; intros ss i v ss' i' v' H; [discriminate|]. cbn [readLoop] in H.
  destruct (nth_error ss i) as [s|] eqn:E; [|destruct (_ <? _)%nat; [discriminate|congruence]].
  apply rbind_inv in H. destruct H as ([[s' w] e] & H1 & H). apply stripeNext_rows in H1. pose proof (set_nth_rows _ _ _ _ E H1) as Hs.
  destruct e; [congruence|]. destruct (Cap w <=? Len w); [congruence|]. rewrite (IH _ _ _ _ _ _ H). exact Hs.
Qed.
Lemma Next_counts inflate r b v b' v' e : batchNext inflate r b v = Ok (b', v', e) -> counts b' = counts b.
Proof.
  unfold batchNext, readNext. intros H. destruct (_ <=? _); [congruence|]. apply rbind_inv in H. destruct H as ([[ss i] w] & H1 & H).
  apply readLoop_rows in H1. match type of H with Ok (?a, _, _) = _ => assert (b' = a) as -> by congruence end.
  unfold counts. cbn [br_stripes br_total]. congruence.
Qed.
Lemma Seek_counts inflate r b row b' : batchSeek inflate r b row = Ok b' -> counts b' = counts b.
Proof.
  unfold batchSeek, readSeek. intros H. destruct (_ <? _); [discriminate|]. apply rbind_inv in H. destruct H as (ss & H1 & H).
  match type of H with Ok ?a = _ => assert (b' = a) as -> by congruence end. unfold counts. cbn [br_stripes br_total]. f_equal.
  clear H. revert H1. generalize 0. generalize (br_stripes b) as l. intros l. revert ss. induction l as [|s l IH]; intros ss z H; [discriminate|].
  cbn [seekStripes] in H. destruct (_ <? _).
  - apply rbind_inv in H. destruct H as (s' & H1 & H). assert (ss = s' :: l) as -> by congruence. cbn [map]. f_equal.
    unfold stripeSeek in H1. apply rbind_inv in H1. destruct H1 as (off & _ & H1). destruct (sr_tree s); [|discriminate].
    apply rbind_inv in H1. destruct H1 as (t1 & _ & H1). apply rbind_inv in H1. destruct H1 as (t2 & _ & H1).
    match type of H1 with Ok ?a = _ => assert (s' = a) as -> by congruence end. reflexivity.
  - apply rbind_inv in H. destruct H as (l' & H1 & H). assert (ss = s :: l') as -> by congruence. cbn [map]. f_equal. eapply IH. exact H1.
Qed.
Lemma Reached_counts inflate r x y : Reached inflate r x y -> counts y = counts x.
Proof.
  induction 1 as [|y v y' v' e _ IH H|y row y' _ IH H]; [reflexivity|..].
  - rewrite (Next_counts _ _ _ _ _ _ _ H). exact IH.
  - rewrite (Seek_counts _ _ _ _ _ H). exact IH.
Qed.

Fixpoint sumZ (l : list Z) : Z := match l with [] => 0 | x :: r => x + sumZ r end.
Lemma sum_zlen {A} (rss : list (list A)) : sumZ (map zlen rss) = zlen (concat rss).
Proof. induction rss as [|q r IH]; [reflexivity|]. cbn [map concat sumZ]. rewrite zlen_app, IH. reflexivity. Qed.

Lemma seek_zero inflate o ss : forall row before, Forall (fun s => 0 <= sr_rows s) ss -> 0 <= before <= row ->
  before + sumZ (map sr_rows ss) < W64 -> row < W64 ->
  seekStripes inflate o 0 row before ss = if row <? before + sumZ (map sr_rows ss) then Panic else Err.
Proof.
  induction ss as [|s r IH]; intros row before Hf Hb Hs Hr; cbn [seekStripes map sumZ] in *.
  - replace (row <? before + 0) with false by lia. reflexivity.
  - inversion Hf as [|? ? H1 H2]; subst.
    assert (Hn : 0 <= sumZ (map sr_rows r)) by (clear - H2; induction H2; cbn [map sumZ]; lia).
    rewrite (u64_id (before + sr_rows s)) by (unfold is_u64; lia).
    destruct (Z.ltb_spec row (before + sr_rows s)) as [Hlt|Hge].
    + unfold stripeSeek. change (u64 0) with 0. rewrite (u64_id (row - before)) by (unfold is_u64; lia).
      replace (row - before <? 0) with false by lia. cbn [Z.eqb rbind]. replace (row <? before + (sr_rows s + sumZ (map sr_rows r))) with true by lia. reflexivity.
    + rewrite (IH row (before + sr_rows s) H2) by lia. replace (before + sr_rows s + sumZ (map sr_rows r)) with (before + (sr_rows s + sumZ (map sr_rows r))) by lia.
      destruct (_ <? _); reflexivity.
Qed.

Lemma newStripes_rows inflate o nodes hn bopt file l : forall xs ss, length xs = length l ->
  newStripes inflate o nodes hn bopt file l xs = Ok ss -> map sr_rows ss = map NumberOfRows l.
Proof.
  induction l as [|i l IH]; intros [|x xs] ss Hl H; try discriminate Hl; cbn [newStripes] in H.
  - assert (ss = []) as -> by congruence. reflexivity.
  - apply rbind_inv in H. destruct H as (s & H1 & H). apply rbind_inv in H. destruct H as (r & H2 & H).
    assert (ss = s :: r) as -> by congruence. cbn [map]. f_equal; [|apply (IH xs); [cbn in Hl; lia|exact H2]].
    unfold newStripeRd in H1. apply rbind_inv in H1. destruct H1 as (a & _ & H1). apply rbind_inv in H1. destruct H1 as (b & _ & H1).
    apply rbind_inv in H1. destruct H1 as (c & _ & H1). apply rbind_inv in H1. destruct H1 as (t & _ & H1).
    match type of H1 with Ok ?a = _ => assert (s = a) as -> by congruence end. reflexivity.
Qed.

Lemma no_seek deflate inflate F o stride StripeSize schema rows file r bopt x : flate_ok deflate inflate ->
  written_and_opened deflate inflate F o stride StripeSize schema rows file r ->
  openBatches inflate bopt file = Ok (r, x) -> forall y, Reached inflate r x y ->
  forall row, 0 <= row < W64 -> batchSeek inflate r y row = if row <? zlen rows then Panic else Err.
Proof.
  intros Hfl Hw Hx y Hy row Hrow. destruct (opened_facts _ _ _ _ _ _ _ _ _ _ Hfl Hw) as (Hs & Ht & rss & Hc & Hd).
  assert (Hlen : zlen rows < 2 ^ 62) by apply Hw. change (2 ^ 62) with 4611686018427387904 in Hlen. pose proof (zlen_nonneg rows).
  assert (Hcx : counts x = (map zlen rss, zlen rows)).
  { apply openBatches_ok in Hx. apply rbind_inv in Hx. destruct Hx as (r' & _ & Hx). apply rbind_inv in Hx. destruct Hx as (xs & Hxs & Hx).
    apply rbind_inv in Hx. destruct Hx as (ss & Hss & Hx). assert (r' = r) as -> by congruence.
    match type of Hx with Ok (_, ?a) = _ => assert (x = a) as -> by congruence end. unfold counts. cbn [br_stripes br_total].
    unfold CreateBatchReader in Hxs. destruct (_ =? _); [discriminate|]. destruct (initStripes_nth _ _ _ _ _ _ Hxs) as [Hl _].
    rewrite (newStripes_rows _ _ _ _ _ _ _ _ _ Hl Hss), Hd, Ht. reflexivity. }
  rewrite <- (Reached_counts _ _ _ _ Hy) in Hcx. unfold counts in Hcx.
  assert (Hm : map sr_rows (br_stripes y) = map zlen rss) by congruence. assert (Htot : br_total y = zlen rows) by congruence.
  unfold batchSeek, readSeek. rewrite Hs, Htot. change (i64 0) with 0. destruct (Z.ltb_spec (zlen rows) row).
  { replace (row <? zlen rows) with false by lia. reflexivity. }
  rewrite seek_zero; [|rewrite <- (Forall_map sr_rows (fun z => 0 <= z)), Hm, Forall_map; apply Forall_forall; intros; apply zlen_nonneg|lia|rewrite Hm, sum_zlen, <- Hc; lia|lia].
  rewrite Hm, sum_zlen, <- Hc, Z.add_0_l. destruct (_ <? _); reflexivity.
Qed.
