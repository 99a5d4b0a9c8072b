From Coq Require Import ZifyBool ZifyNat.
From Verif.Model Require Import Go Codec ByteBool IntRle Chunk Stream Schema Rows Time File Column Wire Nested Tree Assembled.
From Verif.Spec Require Import ChunkSpec PatchSpec RowsSpec EndSpec ProjectSpec ProgressSpec CrashSpec CauseSpec.
From Verif.Proofs Require Import Base ChunkP OpenBatchP StripeNpP SchemaP TreeP BatchP ProjectP ProgressP CrashP PatchPanicP OrcIntP CrashSeekP SeekP SkipP.

Section Cause.
Variable inflate : list Z -> res (list Z).
Variable o : opts.
Hypothesis Htame : tame inflate.
Hypothesis Hchunk : CompressionKind o = NONE -> 0 < ChunkSize o.

(** [Back]: the streams can be gone back to the start of. *)
Variable Back : Prop.
(** The reader of the stream from [f0] on, after [hist]. *)
Definition past (f0 : stretch) (hist : list Z) (r : reader) : Prop :=
  okR r /\ bytes hist /\ Unpacked inflate o f0 (hist ++ r_buf r) (r_rest r) /\
  r_length r = fst f0 /\ r_readLength r = behind f0 (r_rest r) /\ 0 <= behind f0 (r_rest r) /\ zlen (snd f0) < 2 ^ 64 /\
  (Back -> zdrop (u64 (r_start r + 0)) (r_file r) = snd f0).

Lemma take_drop n (l : list Z) : ztake n l ++ zdrop n l = l.
Proof. unfold ztake, zdrop. apply firstn_skipn. Qed.
Lemma chunk_past f0 hist r r' : past f0 hist r -> r_readLength r < r_length r -> readAChunk inflate o r = Ok r' -> past f0 hist r' /\ (length (r_rest r') < length (r_rest r))%nat.
Proof.
  intros (K & B & U & LN & RL & BH & FS & BK) Hl H. pose proof (chunk_fine inflate o Htame Hchunk r K (or_introl Hl)) as F. rewrite H in F. destruct F as [K' Hlen]. split; [|exact Hlen]. split; [exact K'|]. split; [exact B|].
  clear Hlen. pose proof K as (_ & _ & _ & UL & _). unfold is_u64 in UL. unfold readAChunk in H. destruct (CompressionKind o) eqn:Ek.
  { set (l := if _ <? _ then _ else _) in H. unfold copyN in H. destruct (Z.ltb_spec (zlen (r_rest r)) l) as [|Hz]; [discriminate H|]. cbn [rbind] in H.
    assert (r' = {| r_file := r_file r; r_start := r_start r; r_length := r_length r; r_rest := zdrop l (r_rest r); r_readLength := u64 (r_readLength r + l); r_buf := r_buf r ++ ztake l (r_rest r) |}) as -> by congruence.
    assert (Hl0 : 0 < l <= r_length r - r_readLength r) by (subst l; unfold behind in *; rewrite u64_id by (unfold is_u64; lia); specialize (Hchunk eq_refl); destruct (Z.ltb_spec (r_length r - r_readLength r) (ChunkSize o)); lia).
    assert (Hb' : behind f0 (zdrop l (r_rest r)) = behind f0 (r_rest r) + l) by (unfold behind, zlen, zdrop in *; rewrite skipn_length; lia).
    cbn [r_buf r_rest r_length r_readLength]. split; [|split; [exact LN|]].
    - rewrite app_assoc. apply U_raw; [exact Ek| |lia]. rewrite take_drop. exact U.
    - rewrite Hb', RL. split; [apply u64_id; unfold is_u64; lia|]. split; [lia|]. split; [exact FS|exact BK]. }
  all: destruct K as (_ & R & _ & _ & _); destruct (r_rest r) as [|h0 [|h1 [|h2 rest]]] eqn:Er; try discriminate H; inversion R as [|? ? B0 R1]; subst; inversion R1 as [|? ? B1 R2]; subst; inversion R2 as [|? ? B2 R3]; subst;
    rewrite (dec_header h0 h1 h2 B0 B1 B2) in H; set (n := h0 + 256 * h1 + 65536 * h2) in H; assert (Hn : 0 <= n < 2 ^ 24) by (unfold is_u8 in *; subst n; lia);
    assert (Eh : [h0; h1; h2] = le24 n) by (unfold le24, is_u8 in *; subst n; f_equal; [zlia|f_equal; [zlia|f_equal; zlia]]); clearbody n;
    (destruct (ChunkSize o <? n / 2); [discriminate H|]); unfold copyN in H; (destruct (Z.ltb_spec (zlen rest) (n / 2)) as [|Hz]; [discriminate H|]); cbn [rbind] in H;
    assert (Ep : zlen (ztake (n / 2) rest) = n / 2) by (unfold zlen, ztake in *; rewrite firstn_length; zlia);
    apply rbind_inv in H; destruct H as (d & Hd & H);
    match type of H with Ok ?z = _ => assert (r' = z) as -> by congruence end; cbn [r_buf r_rest r_length r_readLength];
    assert (Hb' : behind f0 (zdrop (n / 2) rest) = behind f0 (h0 :: h1 :: h2 :: rest) + 3 + n / 2) by (unfold behind, zlen, zdrop in *; rewrite skipn_length; cbn [length]; zlia);
    (split; [|split; [exact LN|]; rewrite Hb', RL; (split; [apply u64_id; unfold is_u64, behind, zlen in *; cbn [length] in *; zlia|]); (split; [zlia|]); split; [exact FS|exact BK]]);
    rewrite app_assoc.
  all: destruct (Z.eqb_spec (n mod 2) 1) as [E1|E1];
    [ assert (d = ztake (n / 2) rest) as -> by congruence; apply U_orig; [congruence|..]; rewrite Ep; replace (2 * (n / 2) + 1) with n by zlia; rewrite <- Eh, take_drop; [exact U|cbn [app]; lia]
    | try discriminate Hd ].
  all: apply (U_packed inflate o f0 _ (ztake (n / 2) rest) d); [congruence|..|exact Hd]; rewrite Ep; replace (2 * (n / 2)) with n by zlia; rewrite <- Eh, take_drop; [exact U|cbn [app]; lia].
Qed.
Lemma past_pop f0 hist r n : past f0 hist r -> (n <= length (r_buf r))%nat ->
  past f0 (hist ++ firstn n (r_buf r)) {| r_file := r_file r; r_start := r_start r; r_length := r_length r; r_rest := r_rest r; r_readLength := r_readLength r; r_buf := skipn n (r_buf r) |}.
Proof.
  intros ((F & R & B & L & RL) & H & U & Q) Hn. split; [|split; [|split; [|exact Q]]].
  - unfold okR. cbn. repeat match goal with |- _ /\ _ => split end; auto. apply bytes_skipn. exact B.
  - apply bytes_app. split; [exact H|apply bytes_firstn; exact B].
  - cbn [r_buf r_rest r_length r_readLength]. rewrite <- app_assoc, firstn_skipn. exact U.
Qed.
Lemma byte_past f0 hist r : past f0 hist r -> fine (fun x => past f0 (hist ++ [fst x]) (snd x)) (r_ReadByte inflate o r).
Proof.
  intros H. unfold r_ReadByte.
  assert (Hpop : forall r', past f0 hist r' -> fine (fun x => past f0 (hist ++ [fst x]) (snd x)) (match r_buf r' with [] => Err | b :: t => Ok (b, {| r_file := r_file r'; r_start := r_start r'; r_length := r_length r';
                          r_rest := r_rest r'; r_readLength := r_readLength r'; r_buf := t |}) end)).
  { intros r' H'. destruct (r_buf r') as [|b t] eqn:E; [exact I|]. pose proof (past_pop f0 hist r' 1 H') as X. rewrite E in X. apply X. cbn. lia. }
  destruct (r_buf r) as [|b t] eqn:Eb; [|pose proof (Hpop r H) as X; rewrite Eb in X; exact X]. destruct (Z.leb_spec (r_length r) (r_readLength r)); [exact I|].
  apply (fine_bind (past f0 hist)); [|exact Hpop]. apply fine_of; [|intros r' E; eapply chunk_past; eassumption]. eapply fine_np. apply (chunk_fine inflate o Htame Hchunk r (proj1 H)). left. exact H0.
Qed.
Lemma fill_past f0 hist n : forall fuel r, past f0 hist r -> (length (r_rest r) < fuel)%nat -> fine (past f0 hist) (fill inflate o fuel n r).
Proof.
  induction fuel as [|f IH]; intros r H Hf; [lia|]. cbn [fill]. destruct (_ && _) eqn:E; [|exact H]. assert (Hlt : r_readLength r < r_length r) by lia.
  pose proof (chunk_fine inflate o Htame Hchunk r (proj1 H) (or_introl Hlt)) as F. destruct (readAChunk inflate o r) as [r'| |] eqn:Ec; [|exact I|exact F]. cbn [rbind].
  destruct (chunk_past f0 hist r r' H Hlt Ec) as [H' Hl]. apply IH; [exact H'|lia].
Qed.
Lemma full_past f0 hist n r : past f0 hist r -> fine (fun x => length (fst x) = n /\ past f0 (hist ++ fst x) (snd x)) (r_ReadFull inflate o n r).
Proof.
  intros H. unfold r_ReadFull. destruct (Nat.eqb_spec n 0) as [->|Hn]; [cbn; split; [reflexivity|rewrite app_nil_r; exact H]|].
  apply (fine_bind (past f0 hist)).
  - destruct (n <=? length (r_buf r))%nat; [exact H|]. destruct (r_length r <=? r_readLength r); [exact I|]. apply fill_past; [exact H|lia].
  - intros r' H'. destruct (Nat.leb_spec n (length (r_buf r'))) as [Hl|Hl]; [|exact I]. cbn [fine fst snd]. split; [rewrite firstn_length; lia|]. apply past_pop; assumption.
Qed.
Lemma past_unpacks f0 hist r : past f0 hist r -> unpacks inflate o f0 hist.
Proof. intros (_ & _ & U & _). exists (r_buf r), (r_rest r). exact U. Qed.

(** A decoder over the stream does what it does over the bytes it takes. *)
Definition outcome {A} (f0 : stretch) (hist : list Z) (p : prog A) (x : res (A * reader)) : Prop :=
  match x with
  | Ok (a, r') => exists bs, past f0 (hist ++ bs) r' /\ bytes bs /\ run p bs = Ok (a, [])
  | Err => True
  | Panic => exists bs, unpacks inflate o f0 (hist ++ bs) /\ bytes bs /\ run p bs = Panic
  end.
Lemma run_past {A} f0 (p : prog A) : forall hist r, past f0 hist r -> outcome f0 hist p (r_run inflate o p r).
Proof.
  unfold r_run. induction p as [a| | |k IH|n k IH]; intros hist r H; cbn [runS].
  - exists []. rewrite app_nil_r. split; [exact H|]. split; [constructor|reflexivity].
  - exact I.
  - exists []. rewrite app_nil_r. split; [eapply past_unpacks; exact H|]. split; [constructor|reflexivity].
  - pose proof (byte_past f0 hist r H) as F. destruct (r_ReadByte inflate o r) as [[b r']| |]; [|exact I|destruct F]. cbn [fine fst snd rbind] in *. specialize (IH b _ _ F).
    assert (Hb : is_u8 b) by (destruct F as (_ & F & _); apply bytes_app in F; destruct F as [_ F]; inversion F; assumption).
    unfold outcome in *. destruct (runS _ _ (k b) r') as [[a r2]| |]; [|exact I|]; destruct IH as (bs & H1 & H2 & H3); exists (b :: bs); rewrite <- app_assoc in H1; (split; [exact H1|]); (split; [constructor; assumption|]); exact H3.
  - pose proof (full_past f0 hist n r H) as F. destruct (r_ReadFull inflate o n r) as [[b r']| |]; [|exact I|destruct F]. cbn [fine fst snd rbind] in *. destruct F as [Hl F]. specialize (IH b _ _ F).
    assert (Hb : bytes b) by (destruct F as (_ & F & _); apply bytes_app in F; apply F).
    assert (Er : forall bs, run (RdFull n k) (b ++ bs) = run (k b) bs).
    { intros bs. unfold run. cbn [runS]. unfold lrf. rewrite app_length. destruct (Nat.ltb_spec (length b + length bs) n); [lia|]. cbn [rbind].
      rewrite firstn_app, skipn_app, <- Hl, Nat.sub_diag, firstn_all, skipn_all, app_nil_r. reflexivity. }
    unfold outcome in *. destruct (runS _ _ (k b) r') as [[a r2]| |]; [|exact I|]; destruct IH as (bs & H1 & H2 & H3); exists (b ++ bs); rewrite <- app_assoc in H1; (split; [exact H1|]); (split; [apply bytes_app; split; assumption|]); rewrite Er; exact H3.
Qed.

(** Readers of integers. *)
Definition okI64 (signed : bool) (f0 : stretch) (v : vreader Z) : Prop :=
  exists hist us, past f0 hist (v_s v) /\ Runs signed hist us /\ (signed = false -> exists used, us = used ++ v_vals v).
Lemma signed_next f0 v : ~ stray_patch inflate o f0 -> okI64 true f0 v -> fine (fun x => okI64 true f0 (snd x)) (v_Next inflate o DecodeInt v).
Proof.
  intros Hn (hist & us & H & R & _). unfold v_Next. destruct (v_vals v) as [|x t].
  - pose proof (run_past f0 DecodeInt hist (v_s v) H) as F. unfold outcome in F. destruct (r_run inflate o DecodeInt (v_s v)) as [[xs s]| |]; [|exact I|].
    + destruct F as (bs & P & B & E). unfold DecodeInt in E. rewrite run_bind in E. apply rbind_inv in E. destruct E as ([ys l'] & E1 & E2). rewrite run_ret in E2.
      assert (xs = map UnZigzag ys) as -> by congruence. assert (l' = []) as -> by congruence. pose proof (decode_nonempty true bs ys [] B E1) as Hne. cbn [rbind]. destruct ys as [|y ys]; [congruence|]. cbn [map fine snd].
      exists (hist ++ bs), (us ++ y :: ys). split; [exact P|]. split; [apply R_snoc; assumption|discriminate].
    + destruct F as (bs & P & B & E). unfold DecodeInt in E. rewrite run_bind in E. destruct (run (decode true) bs) as [[ys l']| |] eqn:E1; [discriminate E|discriminate E|].
      apply Hn. exists hist, us, bs. split; [exact P|]. split; [exact R|]. apply (panic_all true bs B). exact E1.
  - cbn [fine snd]. exists hist, us. split; [exact H|]. split; [exact R|discriminate].
Qed.
Lemma unsigned_next f0 v : okI64 false f0 v -> fine (fun x => okI64 false f0 (snd x) /\ (~ negative_length inflate o f0 -> 0 <= i64 (fst x))) (v_Next inflate o DecodeUInt v).
Proof.
  intros (hist & us & H & R & D). destruct (D eq_refl) as (used & Eu). clear D.
  assert (Hlen : forall h vs a b c, unpacks inflate o f0 h -> Runs false h vs -> vs = a ++ b :: c -> ~ negative_length inflate o f0 -> 0 <= i64 b).
  { intros h vs a b c Hh Hr E Hn. destruct (Z.le_gt_cases 0 (i64 b)) as [|Hb]; [assumption|]. exfalso. apply Hn. exists h, vs. split; [exact Hh|]. split; [exact Hr|]. apply Exists_exists. exists b. split; [rewrite E; apply in_or_app; right; left; reflexivity|exact Hb]. }
  unfold v_Next. destruct (v_vals v) as [|x t].
  - pose proof (run_past f0 DecodeUInt hist (v_s v) H) as F. unfold outcome in F. destruct (r_run inflate o DecodeUInt (v_s v)) as [[xs s]| |]; [|exact I|].
    + destruct F as (bs & P & B & E). unfold DecodeUInt in E. pose proof (decode_nonempty false bs xs [] B E) as Hne. cbn [rbind]. destruct xs as [|y ys]; [congruence|]. cbn [fine fst snd].
      pose proof (R_snoc false hist us bs (y :: ys) R E) as R'. split.
      * exists (hist ++ bs), (us ++ y :: ys). split; [exact P|]. split; [exact R'|]. intros _. exists (us ++ [y]). cbn [v_vals]. rewrite <- app_assoc. reflexivity.
      * eapply Hlen; [eapply past_unpacks; exact P|exact R'|reflexivity].
    + destruct F as (bs & _ & B & E). apply (panic_all false bs B) in E. destruct E as [E _]. discriminate E.
  - cbn [fine fst snd]. split.
    * exists hist, us. split; [exact H|]. split; [exact R|]. intros _. exists (used ++ [x]). cbn [v_vals]. rewrite <- app_assoc. exact Eu.
    * eapply Hlen; [eapply past_unpacks; exact H|exact R|exact Eu].
Qed.
Lemma safe_uvarint n : forall x s, safe (fun _ => True) (read_uvarint n x s).
Proof. induction n as [|n IH]; intros x s; cbn [read_uvarint safe]; [exact I|]. intros b _. destruct (b <? 128); [|apply IH]. destruct (_ && _); exact I. Qed.
Lemma safe_varint : safe (fun _ => True) DecodeVarInt64.
Proof. unfold DecodeVarInt64, ReadVarint. eapply safe_bind; [apply safe_uvarint|]. intros a _. exact I. Qed.

(** Columns; [GD] and [GS] tell where their streams may start. *)
Variables GD GS : stretch -> Prop.
Definition held (G : stretch -> Prop) (signed : bool) (v : vreader Z) : Prop := exists f0, G f0 /\ okI64 signed f0 v.
Definition data_ok (k : ckind) (d : option sreader) : Prop :=
  match k, d with
  | (KShort | KInt | KLong | KDate | KTimestamp), Some (RRun v) => held GD true v
  | (KDecimal | KString | KBinary), Some (RRaw r) => okR r
  | (KByte | KBool | KFloat | KDouble), _ => okD k d
  | _, _ => False
  end.
Definition second_ok (k : ckind) (s : option (vreader Z)) : Prop :=
  match k with
  | KTimestamp | KString | KBinary => match s with Some v => held GS false v | None => False end
  | KDecimal => match s with Some v => held GS true v | None => False end
  | _ => True
  end.
Definition clean (k : ckind) : Prop :=
  match k with
  | KShort | KInt | KLong | KDate | KTimestamp => forall f0, GD f0 -> ~ stray_patch inflate o f0
  | KDecimal => forall f0, GS f0 -> ~ stray_patch inflate o f0
  | KString | KBinary => forall f0, GS f0 -> ~ negative_length inflate o f0
  | _ => True
  end.
Definition col_ok (c : colR) : Prop := okP (cr_present c) /\ data_ok (cr_kind c) (cr_data c) /\ second_ok (cr_kind c) (cr_second c).
Lemma signed_held (G : stretch -> Prop) v : (forall f0, G f0 -> ~ stray_patch inflate o f0) -> held G true v -> fine (fun x => held G true (snd x)) (v_Next inflate o DecodeInt v).
Proof. intros Hc (f0 & Hg & H). eapply fine_impl; [apply (signed_next f0 v (Hc f0 Hg) H)|]. intros x Hx. exists f0. split; assumption. Qed.
Lemma unsigned_held (G : stretch -> Prop) v : held G false v -> fine (fun x => held G false (snd x) /\ ((forall f0, G f0 -> ~ negative_length inflate o f0) -> 0 <= i64 (fst x))) (v_Next inflate o DecodeUInt v).
Proof. intros (f0 & Hg & H). eapply fine_impl; [apply (unsigned_next f0 v H)|]. intros x [Hx Hl]. split; [exists f0; split; assumption|]. intros Hc. apply Hl. apply Hc. exact Hg. Qed.
Lemma raw_ok {A} (p : prog A) d r : safe (fun _ => True) p -> d = Some (RRaw r) -> okR r -> fine (fun x => exists r', snd x = RRaw r' /\ okR r') (nextRaw inflate o p d).
Proof. intros Hs -> Hr. cbn [nextRaw]. eapply fine_bind; [apply (run_fine inflate o Htame Hchunk (fun _ => True) p Hs r Hr)|]. intros [x r'] [_ H]. cbn. exists r'. split; [reflexivity|exact H]. Qed.
Lemma value_ok c old : clean (cr_kind c) -> typed (cr_kind c) {| Null := false; V := old |} -> col_ok c ->
  fine (fun x => col_ok (snd x) /\ cr_kind (snd x) = cr_kind c) (nextValue inflate o c old).
Proof.
  intros Hc Ht (P & D & S).
  assert (Hs : sturdy (cr_kind c) = true -> fine (fun x => col_ok (snd x) /\ cr_kind (snd x) = cr_kind c) (nextValue inflate o c old)).
  { intros Hk. assert (Hok : okC c) by (split; [exact Hk|]; split; [exact P|]; destruct (cr_kind c); try discriminate Hk; exact D).
    pose proof (value_fine inflate o Htame Hchunk c old Hok) as F. destruct (nextValue inflate o c old) as [[g c']| |] eqn:E; [|exact I|destruct F]. cbn [fine fst snd] in *.
    assert (Ek : cr_kind c' = cr_kind c).
    { unfold nextValue in E. destruct (cr_kind c) eqn:Ek; try discriminate Hk; apply rbind_inv in E; destruct E as ([x d] & _ & E); match type of E with Ok (_, ?z) = _ => assert (c' = z) as -> by congruence end; exact Ek. }
    split; [|exact Ek]. destruct F as (K' & P' & D'). split; [exact P'|]. rewrite Ek in *. destruct (cr_kind c); try discriminate Hk; split; try exact I; exact D'. }
  assert (Hrun : forall d, (forall f0, GD f0 -> ~ stray_patch inflate o f0) -> match d with Some (RRun v) => held GD true v | _ => False end -> fine (fun x => match Some (snd x) with Some (RRun v) => held GD true v | _ => False end) (nextRun inflate o DecodeInt d)).
  { intros d Hcl Hd. destruct d as [[v|b|r]|]; try contradiction. cbn [nextRun]. eapply fine_bind; [apply (signed_held GD v Hcl Hd)|]. intros [x v'] Hv. exact Hv. }
  unfold nextValue. destruct (cr_kind c) eqn:Ek; try (cbn [sturdy] in Hs; specialize (Hs eq_refl); unfold nextValue in Hs; rewrite Ek in Hs; exact Hs); cbn [clean data_ok second_ok] in *; try contradiction.
  - eapply fine_bind; [apply (Hrun (cr_data c) Hc); destruct (cr_data c) as [[]|]; exact D|]. intros [x d] Hd. cbn [fine fst snd]. split; [|exact Ek]. unfold col_ok. cbn. rewrite Ek. split; [exact P|]. split; [exact Hd|exact I].
  - eapply fine_bind; [apply (Hrun (cr_data c) Hc); destruct (cr_data c) as [[]|]; exact D|]. intros [x d] Hd. cbn [fine fst snd]. split; [|exact Ek]. unfold col_ok. cbn. rewrite Ek. split; [exact P|]. split; [exact Hd|exact I].
  - eapply fine_bind; [apply (Hrun (cr_data c) Hc); destruct (cr_data c) as [[]|]; exact D|]. intros [x d] Hd. cbn [fine fst snd]. split; [|exact Ek]. unfold col_ok. cbn. rewrite Ek. split; [exact P|]. split; [exact Hd|exact I].
  - destruct (cr_second c) as [v|]; [|contradiction]. destruct (cr_data c) as [[|?|r]|] eqn:Ed; try contradiction. cbn [nextSecond]. eapply fine_bind; [apply (unsigned_held GS v S)|]. intros [l s] [Hv Hl]. cbn [fst snd] in *.
    eapply fine_bind; [apply (raw_ok (DecodeBytes (i64 l)) (Some (RRaw r)) r); [|reflexivity|exact D]|].
    { unfold DecodeBytes. specialize (Hl Hc). destruct (Z.ltb_spec (i64 l) 0); [lia|]. cbn. auto. }
    intros [x d] (r' & E & Hr). cbn [fst snd] in *. subst d. cbn [fine fst snd]. split; [|exact Ek]. unfold col_ok. cbn. rewrite Ek. split; [exact P|]. split; [exact Hr|exact Hv].
  - destruct (cr_second c) as [v|]; [|contradiction]. destruct (cr_data c) as [[|?|r]|] eqn:Ed; try contradiction. cbn [nextSecond]. eapply fine_bind; [apply (unsigned_held GS v S)|]. intros [l s] [Hv Hl]. cbn [fst snd] in *.
    eapply fine_bind; [apply (raw_ok (DecodeBytes (i64 l)) (Some (RRaw r)) r); [|reflexivity|exact D]|].
    { unfold DecodeBytes. specialize (Hl Hc). destruct (Z.ltb_spec (i64 l) 0); [lia|]. cbn. auto. }
    intros [x d] (r' & E & Hr). cbn [fst snd] in *. subst d. cbn [fine fst snd]. split; [|exact Ek]. unfold col_ok. cbn. rewrite Ek. split; [exact P|]. split; [exact Hr|exact Hv].
  - eapply fine_bind; [apply (Hrun (cr_data c) Hc); destruct (cr_data c) as [[]|]; exact D|]. intros [x d] Hd. cbn [fine fst snd]. split; [|exact Ek]. unfold col_ok. cbn. rewrite Ek. split; [exact P|]. split; [exact Hd|exact I].
  - eapply fine_bind; [apply (Hrun (cr_data c) Hc); destruct (cr_data c) as [[]|]; exact D|]. intros [x d] Hd. destruct (cr_second c) as [v|]; [|contradiction]. cbn [nextSecond]. eapply fine_bind; [apply (unsigned_held GS v S)|]. intros [l s] [Hv _]. cbn [fst snd] in *.
    cbn [typed V] in Ht. destruct old; try contradiction. cbn [fine fst snd]. split; [|exact Ek]. unfold col_ok. cbn. rewrite Ek. split; [exact P|]. split; [exact Hd|exact Hv].
  - destruct (cr_data c) as [[|?|r]|] eqn:Ed; try contradiction. eapply fine_bind; [apply (raw_ok DecodeVarInt64 (Some (RRaw r)) r safe_varint eq_refl D)|]. intros [x d] (r' & E & Hr). cbn [fst snd] in *. subst d.
    destruct (cr_second c) as [v|]; [|contradiction]. cbn [nextSecond]. eapply fine_bind; [apply (signed_held GS v Hc S)|]. intros [l s] Hv. cbn [fst snd] in *.
    cbn [typed V] in Ht. destruct old; try contradiction. cbn [fine fst snd]. split; [|exact Ek]. unfold col_ok. cbn. rewrite Ek. split; [exact P|]. split; [exact Hr|exact Hv].
Qed.
Lemma row_ok c old : clean (cr_kind c) -> typed (cr_kind c) old -> col_ok c -> fine (fun x => col_ok (snd x) /\ cr_kind (snd x) = cr_kind c) (nextRow inflate o c old).
Proof.
  intros Hc Ht (P & D & S). unfold nextRow.
  apply (fine_bind (fun x => col_ok (snd x) /\ cr_kind (snd x) = cr_kind c)).
  - unfold nextPresent. destruct (cr_present c) as [b|] eqn:E; [|cbn; unfold col_ok; rewrite E; auto]. eapply fine_bind; [apply (bnext_fine inflate o Htame Hchunk); exact P|]. intros [p b'] Hb. cbn. unfold col_ok. cbn. auto.
  - intros [null c1] [H1 K1]. cbn [fst snd] in *. destruct null; [cbn; auto|]. rewrite <- K1 in Hc, Ht. eapply fine_bind; [apply (value_ok c1 (V old) Hc); [destruct old; exact Ht|exact H1]|]. intros [g c2] [H2 K2]. cbn [fine fst snd] in *. split; [exact H2|congruence].
Qed.
Lemma batch_ok vec : forall c, clean (cr_kind c) -> Forall (typed (cr_kind c)) vec -> col_ok c -> NextBatch inflate o c vec <> Panic.
Proof.
  induction vec as [|old r IH]; intros c Hc Ht H; cbn [NextBatch]; [discriminate|]. inversion Ht as [|? ? T1 T2]; subst. pose proof (row_ok c old Hc T1 H) as F. destruct (nextRow inflate o c old) as [[x c1]| |]; [|discriminate|destruct F].
  destruct F as [H1 K1]. cbn [fst snd rbind] in *. rewrite <- K1 in Hc, T2. specialize (IH c1 Hc T2 H1). destruct (NextBatch inflate o c1 r) as [[xs c2]| |]; [discriminate..|congruence].
Qed.
End Cause.

(** ** Opening *)
Definition starts (file : list Z) (L : list (strm * Z)) (n : Z) (f0 : stretch) : Prop := exists s st, In (s, st) L /\ st_kind s = n /\ f0 = stretch_of file (s, st).
Section Opening.
Variable inflate : list Z -> res (list Z).
Variable o : opts.
Variable file : list Z.
Hypothesis Hf : bytes file.
Hypothesis Hsize : zlen file < 2 ^ 64.
Variable L : list (strm * Z).
Variable Back : Prop.
Hypothesis Hback : Back -> forall s st, In (s, st) L -> is_u64 st.
Definition doublet (k : ckind) : bool := match k with KString | KBinary | KTimestamp | KDecimal => true | _ => false end.
Definition part_ok (k : ckind) (c : colR) : Prop :=
  cr_kind c = k /\ okP (cr_present c) /\ (cr_data c = None \/ data_ok inflate o Back (starts file L sDATA) k (cr_data c)) /\
  (doublet k = true -> cr_second c = None \/ second_ok inflate o Back (starts file L (second_kind k)) k (cr_second c)).
Lemma new_past s st : In (s, st) L -> is_u64 (st_length s) -> past inflate o Back (stretch_of file (s, st)) [] (newReader file st (st_length s)).
Proof.
  intros Hin Hl. split; [apply okR_new; assumption|]. split; [constructor|]. split; [apply U_nil|]. unfold behind, stretch_of. cbn. split; [reflexivity|]. split; [lia|]. split; [lia|].
  split; [unfold zlen, zdrop in *; rewrite skipn_length; lia|]. intros B. rewrite Z.add_0_r, u64_id by exact (Hback B s st Hin). reflexivity.
Qed.
Lemma new_held n s st signed : In (s, st) L -> st_kind s = n -> is_u64 (st_length s) -> held inflate o Back (starts file L n) signed (newVreader (newReader file st (st_length s))).
Proof.
  intros Hin Hn Hl. exists (stretch_of file (s, st)). split; [exists s, st; auto|]. exists [], []. split; [apply new_past; [exact Hin|exact Hl]|]. split; [constructor|]. intros _. exists []. reflexivity.
Qed.
Lemma init_part k c c' s st : k <> KStruct -> k <> KDict -> In (s, st) L -> is_u64 (st_length s) -> part_ok k c -> InitStream file c s st = Ok c' ->
  part_ok k c' /\ (st_kind s = sDATA \/ cr_data c <> None -> cr_data c' <> None) /\ (doublet k = true -> st_kind s = second_kind k \/ cr_second c <> None -> cr_second c' <> None).
Proof.
  intros N1 N2 Hin Hl (K & P & D & S) H. pose proof (okR_new file st _ Hf Hl) as Hr. pose proof (fun n g E => new_held n s st g Hin E Hl) as Hh. unfold InitStream in H. set (r := newReader file st (st_length s)) in *.
  destruct (Z.eqb_spec (st_kind s) sPRESENT) as [Ep|Ep].
  - assert (c' = setPresent (newBoolReader r) c) as -> by (destruct (cr_kind c); destruct (cr_hasNulls c); congruence). split; [|split].
    + split; [exact K|]. split; [split; [exact Hr|constructor]|]. split; [exact D|exact S].
    + intros [E|E]; [rewrite Ep in E; discriminate E|exact E].
    + intros _ [E|E]; [rewrite Ep in E; destruct k; discriminate E|exact E].
  - destruct (Z.eqb_spec (st_kind s) sDATA) as [Ed|Ed].
    + destruct (dataReader (cr_kind c) r) as [d|] eqn:E; [|discriminate]. assert (c' = setData d c) as -> by congruence. rewrite K in E. split; [|split].
      * split; [exact K|]. split; [exact P|]. split; [right|exact S]. cbn [cr_data setData]. destruct k; try congruence; cbn in E; injection E as <-; cbn [data_ok okD]; try exact Hr; try (apply Hh; exact Ed); (split; [exact Hr|constructor]).
      * discriminate.
      * intros _ [E0|E0]; [rewrite Ed in E0; destruct k; discriminate E0|exact E0].
    + rewrite K in H. destruct k eqn:Ek; try discriminate H; try congruence; subst k.
      * assert (c' = c) as -> by congruence. split; [split; auto|]. split; [intros [E|E]; [congruence|exact E]|discriminate].
      * destruct (Z.eqb_spec (st_kind s) sLENGTH) as [E1|]; [|discriminate]. assert (c' = setSecond (newVreader r) c) as -> by congruence. split; [|split; [intros [E|E]; [congruence|exact E]|discriminate]].
        split; [exact K|]. split; [exact P|]. split; [exact D|]. intros _. right. cbn. apply Hh. exact E1.
      * destruct (Z.eqb_spec (st_kind s) sLENGTH) as [E1|]; [|discriminate]. assert (c' = setSecond (newVreader r) c) as -> by congruence. split; [|split; [intros [E|E]; [congruence|exact E]|discriminate]].
        split; [exact K|]. split; [exact P|]. split; [exact D|]. intros _. right. cbn. apply Hh. exact E1.
      * destruct (Z.eqb_spec (st_kind s) sSECONDARY) as [E1|]; [|discriminate]. assert (c' = setSecond (newVreader r) c) as -> by congruence. split; [|split; [intros [E|E]; [congruence|exact E]|discriminate]].
        split; [exact K|]. split; [exact P|]. split; [exact D|]. intros _. right. cbn. apply Hh. exact E1.
      * destruct (Z.eqb_spec (st_kind s) sSECONDARY) as [E1|]; [|discriminate]. assert (c' = setSecond (newVreader r) c) as -> by congruence. split; [|split; [intros [E|E]; [congruence|exact E]|discriminate]].
        split; [exact K|]. split; [exact P|]. split; [exact D|]. intros _. right. cbn. apply Hh. exact E1.
Qed.
Lemma open_part k l : k <> KStruct -> k <> KDict -> (forall p, In p l -> In p L) -> lengths_ok l -> forall c r, part_ok k c -> openColumn inflate o file (RCol c) l = Ok r ->
  exists c', r = RCol c' /\ part_ok k c' /\ (has_stream sDATA l \/ cr_data c <> None -> cr_data c' <> None) /\ (doublet k = true -> has_stream (second_kind k) l \/ cr_second c <> None -> cr_second c' <> None).
Proof.
  intros N1 N2. induction l as [|[s st] l IH]; intros HL Hl c r Hc H; cbn [openColumn] in H.
  - assert (r = RCol c) as -> by congruence. exists c. split; [reflexivity|]. split; [exact Hc|]. split; [intros [(s & st & [] & _)|E]; exact E|intros _ [(s & st & [] & _)|E]; exact E].
  - inversion Hl as [|? ? Hs Hl']; subst. apply rbind_inv in H. destruct H as (r1 & H1 & H).
    assert (exists c1, r1 = RCol c1 /\ part_ok k c1 /\ (st_kind s = sDATA \/ cr_data c <> None -> cr_data c1 <> None) /\ (doublet k = true -> st_kind s = second_kind k \/ cr_second c <> None -> cr_second c1 <> None)) as (c1 & -> & I1 & D1 & S1).
    { destruct (Z.eqb_spec (st_kind s) 6) as [E|_]; cbn [any_InitIndex any_InitStream] in H1; apply rbind_inv in H1; destruct H1 as (c1 & H1 & E1); assert (r1 = RCol c1) as -> by congruence; exists c1; (split; [reflexivity|]).
      - unfold InitIndex in H1. apply rbind_inv in H1. destruct H1 as (x & _ & H1). assert (c1 = setIndex x c) as -> by congruence. split; [exact Hc|]. split; [intros [E0|E0]; [rewrite E in E0; discriminate E0|exact E0]|].
        intros _ [E0|E0]; [rewrite E in E0; destruct k; discriminate E0|exact E0].
      - apply (init_part k c c1 s st N1 N2); auto. apply HL. left. reflexivity. }
    destruct (IH (fun p Hp => HL p (or_intror Hp)) Hl' _ _ I1 H) as (c' & -> & I' & D' & S'). exists c'. split; [reflexivity|]. split; [exact I'|]. split.
    + intros Hd. apply D'. destruct Hd as [(s0 & st0 & [E0|Hin] & Hk)|E0]; [injection E0 as <- <-; right; apply D1; left; exact Hk|left; exists s0, st0; auto|right; apply D1; right; exact E0].
    + intros Hb Hd. apply (S' Hb). destruct Hd as [(s0 & st0 & [E0|Hin] & Hk)|E0]; [injection E0 as <- <-; right; apply (S1 Hb); left; exact Hk|left; exists s0, st0; auto|right; apply (S1 Hb); right; exact E0].
Qed.
End Opening.

Lemma clean_calm inflate o file k h l r : tame inflate -> (CompressionKind o = NONE -> 0 < ChunkSize o) -> bytes file -> zlen file < 2 ^ 64 -> lengths_ok l -> complete k l ->
  k <> KStruct -> k <> KDict -> clean_streams inflate o file k l -> openColumn inflate o file (RCol (newColR k h)) l = Ok r -> calm inflate o r.
Proof.
  intros Ht Hch Hf Hz Hl [Hd Hs] N1 N2 Hc H.
  destruct (open_part inflate o file Hf Hz l False (fun B => match B with end) k l N1 N2 (fun p Hp => Hp) Hl (newColR k h) r) as (c' & -> & (K & P & D & S) & Dn & Sn); [|exact H|].
  { split; [reflexivity|]. split; [exact I|]. split; [left; reflexivity|]. intros _. left. reflexivity. }
  intros vec Hv. apply (batch_ok inflate o Ht Hch False (starts file l sDATA) (starts file l (second_kind k))); [|exact Hv|].
  - rewrite K. unfold clean_streams in Hc. destruct k; try exact I; cbn [clean]; intros f0 (s & st & Hin & Ek & ->); exact (Hc s st Hin Ek).
  - rewrite <- K in *. split; [exact P|]. split; [destruct D as [D|D]; [exfalso; apply Dn; auto|exact D]|].
    destruct (doublet (cr_kind c')) eqn:Eb; [|destruct (cr_kind c'); try discriminate Eb; exact I].
    destruct (S eq_refl) as [E|E]; [|exact E]. exfalso. apply (Sn eq_refl); [|exact E]. left. destruct (cr_kind c'); try discriminate Eb; exact Hs.
Qed.

(** Files. *)
Lemma crash_clean inflate b file schema r x w n : reading inflate b file schema r x w -> tame inflate -> bytes file -> zlen file < 2 ^ 64 ->
  fr_stripes r <> [] -> not_nested b schema -> flat_nulls b schema ->
  (forall fs f, stripe_footers inflate b file r fs -> In f fs -> lengths_ok (snd f) /\
    forall y e k, In y (flatten schema) -> IsInclude b (td_id y) = true -> td_kind y <> STRUCT ->
      nth_error (fst f) (Z.to_nat (td_id y)) = Some e -> readerKind (td_kind y) e = Ok k ->
      k <> KDict /\ complete k (own (td_id y) (snd f)) /\ clean_streams inflate (readerOpts r) file k (own (td_id y) (snd f))) ->
  calls inflate r x (batchOf w) (repeat CNext n) <> Panic.
Proof.
  intros H Ht Hf Hsz Hne Hnn Hflat Hfs. pose proof (open_chunk _ _ _ _ _ (rd_open _ _ _ _ _ _ _ H)) as Hch. apply (crash inflate b file schema r x w n H Ht Hf Hne Hnn Hflat).
  intros fs E. split; [apply Forall_forall; intros f Hin; apply (Hfs fs f E Hin)|]. intros f y c Hin Hy Hi Hk (e & r0 & A1 & A2 & A3).
  destruct (Hfs fs f E Hin) as [Hl Hd]. specialize (Hnn y Hy Hi).
  assert (Hown : lengths_ok (own (td_id y) (snd f))) by (unfold lengths_ok, own in *; rewrite Forall_forall in *; intros z Hz; apply filter_In in Hz; apply Hl; apply Hz).
  assert (exists k, readerKind (td_kind y) e = Ok k /\ k <> KStruct /\ (k <> KDict -> r0 = RCol (newColR k (td_hasNulls y)))) as (k & Ek & Nk & E0).
  { unfold newAnyR in A2. assert (A3' : (let! c0 := readerKind (td_kind y) e in Ok (match c0 with KDict => RDict (newDictR (td_hasNulls y)) | _ => RCol (newColR c0 (td_hasNulls y)) end)) = Ok r0) by (destruct (td_kind y); try exact A2; contradiction).
    apply rbind_inv in A3'. destruct A3' as (k & Ek & A4). exists k. split; [exact Ek|]. split.
    - intros ->. unfold readerKind in Ek. destruct (td_kind y); try congruence; repeat match type of Ek with (if ?z then _ else _) = _ => destruct z end; discriminate Ek.
    - intros Hk'. destruct k; congruence. }
  destruct (Hd y e k Hy Hi Hk A1 Ek) as (N2 & Hcomp & Hclean). rewrite (E0 N2) in A3. eapply clean_calm; eassumption.
Qed.

(** ** Going back and skipping *)
Section Seeking.
Variable inflate : list Z -> res (list Z).
Variable o : opts.
Hypothesis Htame : tame inflate.
Hypothesis Hchunk : CompressionKind o = NONE -> 0 < ChunkSize o.
Variables GD GS : stretch -> Prop.
Hypothesis Hpos : forall f0, GD f0 \/ GS f0 -> 0 < fst f0.
Lemma seek_past f0 hist r : 0 < fst f0 -> past inflate o True f0 hist r -> fine (past inflate o True f0 []) (r_seek inflate o 0 0 r).
Proof.
  intros H0 (K & B & U & LN & RL & BH & FS & BK). unfold r_seek. destruct K as (F & R & Bu & L & RLu).
  set (r0 := {| r_file := r_file r; r_start := r_start r; r_length := r_length r; r_rest := zdrop (u64 (r_start r + 0)) (r_file r); r_readLength := 0; r_buf := [] |}).
  assert (P : past inflate o True f0 [] r0).
  { unfold past, okR, r0. cbn [r_file r_start r_length r_rest r_readLength r_buf app]. rewrite (BK I) in *. split; [repeat match goal with |- _ /\ _ => split end; auto; try (constructor; fail); try (unfold is_u64; lia); rewrite <- (BK I); apply bytes_zdrop; exact F|].
    split; [constructor|]. split; [apply U_nil|]. split; [exact LN|]. unfold behind. split; [lia|]. split; [lia|]. split; [exact FS|]. intros _. reflexivity. }
  assert (Hlt : r_readLength r0 < r_length r0) by (cbn; rewrite LN; exact H0).
  pose proof (chunk_fine inflate o Htame Hchunk r0 (proj1 P) (or_introl Hlt)) as Fi. destruct (readAChunk inflate o r0) as [r'| |] eqn:Ec; [|exact I|exact Fi]. cbn [rbind fine].
  destruct (chunk_past inflate o Htame Hchunk True f0 [] r0 r' P Hlt Ec) as [P' _]. destruct r'. exact P'.
Qed.
Lemma run_seek signed dec (G : stretch -> Prop) v : (forall f0, G f0 -> 0 < fst f0) -> held inflate o True G signed v -> fine (held inflate o True G signed) (seekRun inflate o dec [0; 0; 0] v).
Proof.
  intros Hp (f0 & Hg & hist & us & P & _). unfold seekRun, v_Seek. eapply fine_bind; [apply (seek_past f0 hist (v_s v) (Hp f0 Hg) P)|]. intros s Hs. change (Z.to_nat (i64 0)) with O. cbn [v_skip fine].
  exists f0. split; [exact Hg|]. exists [], []. split; [exact Hs|]. split; [constructor|]. intros _. exists []. reflexivity.
Qed.
Lemma back_clean c : cr_kind c <> KStruct -> col_ok inflate o True GD GS c -> fine (fun c' => col_ok inflate o True GD GS c' /\ cr_kind c' = cr_kind c) (SeekStride inflate o 0 c).
Proof.
  intros Hk0 (P & D & S). pose proof (fun f0 H => Hpos f0 (or_introl H)) as HD. pose proof (fun f0 H => Hpos f0 (or_intror H)) as HS.
  destruct (sturdy (cr_kind c)) eqn:Hk.
  { assert (Hok : okC c) by (split; [exact Hk|]; split; [exact P|]; destruct (cr_kind c); try discriminate Hk; exact D).
    pose proof (back_ok inflate o Htame Hchunk c Hok) as F. destruct (SeekStride inflate o 0 c) as [c'| |] eqn:E; [|exact I|destruct F]. cbn [fine] in *.
    assert (Ek : cr_kind c' = cr_kind c) by (apply (same_kind c c'); eapply SeekStride_same; exact E).
    split; [|exact Ek]. destruct F as (K' & P' & D'). split; [exact P'|]. rewrite Ek in *. destruct (cr_kind c); try discriminate Hk; split; try exact I; exact D'. }
  assert (Hrun : forall v', held inflate o True GD true v' -> fine (fun d => match d with RRun v => held inflate o True GD true v | _ => False end) (Ok (RRun v'))) by (intros v' Hv; exact Hv).
  assert (Hraw : forall r', okR r' -> fine (fun d => match d with RRaw r => okR r | _ => False end) (Ok (RRaw r'))) by (intros r' Hr; exact Hr).
  unfold SeekStride. destruct (cr_kind c) eqn:Ek; try discriminate Hk; try congruence; cbn [Z.eqb andb negb].
  6: { unfold strideEntry. destruct (cr_index c); exact I. }
  all: cbn [data_ok second_ok] in D, S; try contradiction.
  all: unfold seekTo; rewrite Ek; cbn [hasSecond]; apply (fine_bind (fun c1 => okP (cr_present c1) /\ cr_data c1 = cr_data c /\ cr_second c1 = cr_second c /\ cr_kind c1 = cr_kind c));
    [destruct (cr_present c) as [b|] eqn:Ep; [eapply fine_bind; [apply (bseek_ok inflate o Htame Hchunk); exact P|]; intros b' Hb; cbn; auto|cbn; rewrite Ep; auto]|intros c1 (P1 & D1 & S1 & K1); rewrite D1, ?S1].
  all: destruct (cr_data c) as [[v|b|r]|]; try contradiction; cbn [seekData dataDec dataExtra repeat].
  1-3: eapply fine_bind; [eapply fine_bind; [apply (run_seek true DecodeInt GD v HD D)|intros v' Hv; exact (Hrun v' Hv)]|];
    intros d Hd; cbn [fine]; unfold col_ok; cbn; rewrite K1, Ek; (split; [|reflexivity]); (split; [exact P1|]); split; [exact Hd|exact I].
  1-2: eapply fine_bind; [eapply fine_bind; [apply (seek_ok inflate o Htame Hchunk 0 0 r u64_0 D)|intros v' Hv; exact (Hraw v' Hv)]|];
    intros d Hd; change (cr_second (setData d c1)) with (cr_second c1); rewrite S1; (destruct (cr_second c) as [v|]; [|contradiction]); cbn [seekSecond secondDec];
    (eapply fine_bind; [apply (run_seek false DecodeUInt GS v HS S)|]); intros s Hs; cbn [fine]; unfold col_ok; cbn; rewrite K1, Ek; (split; [|reflexivity]); (split; [exact P1|]); split; [exact Hd|exact Hs].
  - eapply fine_bind; [eapply fine_bind; [apply (run_seek true DecodeInt GD v HD D)|intros v' Hv; exact (Hrun v' Hv)]|].
    intros d Hd. change (cr_second (setData d c1)) with (cr_second c1). rewrite S1. destruct (cr_second c) as [v2|]; [|contradiction]. cbn [seekSecond secondDec].
    eapply fine_bind; [apply (run_seek false DecodeUInt GS v2 HS S)|]. intros s Hs. cbn [fine]. unfold col_ok. cbn. rewrite K1, Ek. split; [|reflexivity]. split; [exact P1|]. split; [exact Hd|exact Hs].
  - eapply fine_bind; [eapply fine_bind; [apply (seek_ok inflate o Htame Hchunk 0 0 r u64_0 D)|intros v' Hv; exact (Hraw v' Hv)]|].
    intros d Hd. change (cr_second (setData d c1)) with (cr_second c1). rewrite S1. destruct (cr_second c) as [v2|]; [|contradiction]. cbn [seekSecond secondDec].
    eapply fine_bind; [apply (run_seek true DecodeInt GS v2 HS S)|]. intros s Hs. cbn [fine]. unfold col_ok. cbn. rewrite K1, Ek. split; [|reflexivity]. split; [exact P1|]. split; [exact Hd|exact Hs].
Qed.
Lemma skip_clean c : clean inflate o GD GS (cr_kind c) -> col_ok inflate o True GD GS c -> fine (fun c' => col_ok inflate o True GD GS c' /\ cr_kind c' = cr_kind c) (Skip inflate o 1 c).
Proof.
  intros Hc H. unfold Skip. change (Z.to_nat (i64 1)) with 1%nat. cbn [skipRows].
  apply (fine_bind (fun x => col_ok inflate o True GD GS (snd x) /\ cr_kind (snd x) = cr_kind c)).
  - destruct H as (P & D & S). unfold nextPresent. destruct (cr_present c) as [b|] eqn:E; [|cbn; unfold col_ok; rewrite E; auto]. eapply fine_bind; [apply (bnext_fine inflate o Htame Hchunk); exact P|]. intros [p b'] Hb. cbn. unfold col_ok. cbn. auto.
  - intros [null c1] [H1 K1]. cbn [fst snd] in *. apply (fine_bind (fun c2 => col_ok inflate o True GD GS c2 /\ cr_kind c2 = cr_kind c)); [|intros c2 H2; exact H2]. destruct null; [cbn; auto|].
    rewrite <- K1 in Hc. eapply fine_bind; [apply (value_ok inflate o Htame Hchunk True GD GS c1 (skipOld (cr_kind c)) Hc); [rewrite K1; destruct (cr_kind c); exact I|exact H1]|]. intros [g c2] [H2 K2]. cbn [fine fst snd] in *. split; [exact H2|congruence].
Qed.
Lemma batch_clean vec : forall c, clean inflate o GD GS (cr_kind c) -> Forall (typed (cr_kind c)) vec -> col_ok inflate o True GD GS c -> fine (fun x => col_ok inflate o True GD GS (snd x) /\ cr_kind (snd x) = cr_kind c) (NextBatch inflate o c vec).
Proof.
  induction vec as [|old r IH]; intros c Hc Ht H; cbn [NextBatch]; [cbn; auto|]. inversion Ht as [|? ? T1 T2]; subst. eapply fine_bind; [apply (row_ok inflate o Htame Hchunk True GD GS c old Hc T1 H)|].
  intros [x c1] [H1 K1]. cbn [fst snd] in *. rewrite <- K1 in Hc, T2. eapply fine_bind; [apply (IH c1 Hc T2 H1)|]. intros [xs c2] [H2 K2]. cbn [fine fst snd] in *. split; [exact H2|congruence].
Qed.
Lemma clean_steady_col c : cr_kind c <> KStruct -> clean inflate o GD GS (cr_kind c) -> col_ok inflate o True GD GS c -> steady inflate o (RCol c).
Proof.
  intros N Hc H l. revert c N Hc H. induction l as [|a l IH]; intros c N Hc H Hl; cbn [doDeeds]; [discriminate|]. inversion Hl as [|? ? Ha Hl']; subst.
  assert (F : fine (fun r => exists c', r = RCol c' /\ col_ok inflate o True GD GS c' /\ cr_kind c' = cr_kind c) (doDeed inflate o (RCol c) a)).
  { destruct a as [vec| |]; cbn [doDeed fitting] in *.
    - eapply fine_bind; [apply (batch_clean vec c Hc Ha H)|]. intros [x c'] [H' K']. exists c'. auto.
    - eapply fine_bind; [apply (back_clean c N H)|]. intros c' [H' K']. exists c'. auto.
    - eapply fine_bind; [apply (skip_clean c Hc H)|]. intros c' [H' K']. exists c'. auto. }
  destruct (doDeed inflate o (RCol c) a) as [r| |]; [|discriminate|destruct F]. destruct F as (c' & -> & H' & K'). cbn [rbind]. apply IH; [congruence|rewrite K'; exact Hc|exact H'|].
  eapply Forall_impl; [|exact Hl']. intros x Hx. destruct x; cbn [fitting] in *; [rewrite K'; exact Hx|exact I..].
Qed.
End Seeking.

Lemma clean_steady inflate o file k h l r : tame inflate -> (CompressionKind o = NONE -> 0 < ChunkSize o) -> bytes file -> zlen file < 2 ^ 64 -> lengths_ok l -> complete k l ->
  Forall (fun p => is_u64 (snd p)) l -> (forall s st, In (s, st) l -> st_kind s = sDATA \/ st_kind s = second_kind k -> 0 < st_length s) ->
  k <> KStruct -> k <> KDict -> clean_streams inflate o file k l -> openColumn inflate o file (RCol (newColR k h)) l = Ok r -> steady inflate o r.
Proof.
  intros Ht Hch Hf Hz Hl [Hd Hs] Hst Hpos N1 N2 Hc H. rewrite Forall_forall in Hst.
  destruct (open_part inflate o file Hf Hz l True (fun _ s st Hin => Hst (s, st) Hin) k l N1 N2 (fun p Hp => Hp) Hl (newColR k h) r) as (c' & -> & (K & P & D & S) & Dn & Sn); [|exact H|].
  { split; [reflexivity|]. split; [exact I|]. split; [left; reflexivity|]. intros _. left. reflexivity. }
  apply (clean_steady_col inflate o Ht Hch (starts file l sDATA) (starts file l (second_kind k))).
  - intros f0 [(s & st & Hin & E & ->)|(s & st & Hin & E & ->)]; cbn; apply (Hpos s st Hin); auto.
  - congruence.
  - rewrite K. unfold clean_streams in Hc. destruct k; try exact I; cbn [clean]; intros f0 (s & st & Hin & Ek & ->); exact (Hc s st Hin Ek).
  - rewrite <- K in *. split; [exact P|]. split; [destruct D as [D|D]; [exfalso; apply Dn; auto|exact D]|].
    destruct (doublet (cr_kind c')) eqn:Eb; [|destruct (cr_kind c'); try discriminate Eb; exact I].
    destruct (S eq_refl) as [E|E]; [|exact E]. exfalso. apply (Sn eq_refl); [|exact E]. left. destruct (cr_kind c'); try discriminate Eb; exact Hs.
Qed.
Lemma crash_clean_seek inflate b file schema r x w l : reading inflate b file schema r x w -> tame inflate -> bytes file -> zlen file < 2 ^ 64 ->
  fr_stripes r <> [] -> not_nested b schema -> flat_nulls b schema -> u64 (fr_stride r) <> 0 ->
  (forall fs f, stripe_footers inflate b file r fs -> In f fs -> lengths_ok (snd f) /\ Forall (fun p => is_u64 (snd p)) (snd f) /\
    forall y e k, In y (flatten schema) -> IsInclude b (td_id y) = true -> td_kind y <> STRUCT ->
      nth_error (fst f) (Z.to_nat (td_id y)) = Some e -> readerKind (td_kind y) e = Ok k ->
      k <> KDict /\ complete k (own (td_id y) (snd f)) /\ clean_streams inflate (readerOpts r) file k (own (td_id y) (snd f)) /\
      forall s st, In (s, st) (own (td_id y) (snd f)) -> st_kind s = sDATA \/ st_kind s = second_kind k -> 0 < st_length s) ->
  calls inflate r x (batchOf w) l <> Panic.
Proof.
  intros H Ht Hf Hsz Hne Hnn Hflat Hstr Hfs. pose proof (open_chunk _ _ _ _ _ (rd_open _ _ _ _ _ _ _ H)) as Hch. apply (crash_seek inflate b file schema r x w l H Ht Hf Hne Hnn Hflat Hstr).
  intros fs E. split; [apply Forall_forall; intros f Hin; apply (Hfs fs f E Hin)|]. intros f y c Hin Hy Hi Hk (e & r0 & A1 & A2 & A3).
  destruct (Hfs fs f E Hin) as (Hl & Hst & Hd). specialize (Hnn y Hy Hi).
  assert (Hown : lengths_ok (own (td_id y) (snd f))) by (unfold lengths_ok, own in *; rewrite Forall_forall in *; intros z Hz; apply filter_In in Hz; apply Hl; apply Hz).
  assert (Hown' : Forall (fun p => is_u64 (snd p)) (own (td_id y) (snd f))) by (unfold own in *; rewrite Forall_forall in *; intros z Hz; apply filter_In in Hz; apply Hst; apply Hz).
  assert (exists k, readerKind (td_kind y) e = Ok k /\ k <> KStruct /\ (k <> KDict -> r0 = RCol (newColR k (td_hasNulls y)))) as (k & Ek & Nk & E0).
  { unfold newAnyR in A2. assert (A3' : (let! c0 := readerKind (td_kind y) e in Ok (match c0 with KDict => RDict (newDictR (td_hasNulls y)) | _ => RCol (newColR c0 (td_hasNulls y)) end)) = Ok r0) by (destruct (td_kind y); try exact A2; contradiction).
    apply rbind_inv in A3'. destruct A3' as (k & Ek & A4). exists k. split; [exact Ek|]. split.
    - intros ->. unfold readerKind in Ek. destruct (td_kind y); try congruence; repeat match type of Ek with (if ?z then _ else _) = _ => destruct z end; discriminate Ek.
    - intros Hk'. destruct k; congruence. }
  destruct (Hd y e k Hy Hi Hk A1 Ek) as (N2 & Hcomp & Hclean & Hpos). rewrite (E0 N2) in A3. eapply clean_steady; eassumption.
Qed.
