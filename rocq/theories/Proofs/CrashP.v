From Coq Require Import ZifyBool ZifyNat.
From Verif.Model Require Import Go Codec ByteBool IntRle Chunk Stream Schema Rows Time File Column Wire Nested Tree Assembled.
From Verif.Spec Require Import RowsSpec EndSpec ProjectSpec ProgressSpec CrashSpec.
From Verif.Proofs Require OpenTreeP EndP OpenCloseP.
From Verif.Proofs Require Import Base OpenBatchP StripeNpP SchemaP TreeP BatchP ProjectP ProgressP.

(** ** Results that are no crash *)

(** ** Decoders *)
Fixpoint safe {A} (P : A -> Prop) (p : prog A) : Prop :=
  match p with
  | Ret a => P a
  | Fail => True
  | Crash => False
  | RdByte k => forall b, is_u8 b -> safe P (k b)
  | RdFull n k => forall bs, length bs = n -> bytes bs -> safe P (k bs)
  end.
Lemma bytes_app l m : bytes (l ++ m) <-> bytes l /\ bytes m.
Proof. apply Forall_app. Qed.
(** A decoder that does not crash on byte lists crashes over no reader. *)
Lemma safe_of_run {A} (P : A -> Prop) (p : prog A) : (forall i, bytes i -> fine (fun x => P (fst x)) (run p i)) -> safe P p.
Proof.
  unfold run. induction p as [a| | |k IH|n k IH]; intros H; cbn [safe].
  - exact (H [] (Forall_nil _)).
  - exact I.
  - exact (H [] (Forall_nil _)).
  - intros b Hb. apply IH. intros i Hi. exact (H (b :: i) (Forall_cons _ Hb Hi)).
  - intros bs Hl Hb. apply IH. intros i Hi. specialize (H (bs ++ i) (proj2 (bytes_app _ _) (conj Hb Hi))). cbn [runS] in H. unfold lrf in H.
    rewrite app_length in H. destruct (Nat.ltb_spec (length bs + length i) n); [lia|]. cbn [rbind] in H.
    rewrite firstn_app, skipn_app, <- Hl, Nat.sub_diag, firstn_all, skipn_all, app_nil_r in H. exact H.
Qed.
Lemma safe_impl {A} (P Q : A -> Prop) (p : prog A) : (forall a, P a -> Q a) -> safe P p -> safe Q p.
Proof. intros H. induction p; cbn [safe]; auto. Qed.
Lemma safe_bind {A B} (P : A -> Prop) (Q : B -> Prop) (p : prog A) (f : A -> prog B) : safe P p -> (forall a, P a -> safe Q (f a)) -> safe Q (pbind p f).
Proof. intros H Hf. induction p; cbn [safe pbind] in *; auto. Qed.
Lemma safe_read_n n : safe (fun l => length l = n /\ bytes l) (read_n n).
Proof.
  induction n as [|n IH]; cbn [read_n safe]; [split; [reflexivity|constructor]|]. intros b Hb. apply (safe_bind _ _ _ _ IH). intros l [Hl Hl']. cbn [safe length]. split; [congruence|constructor; assumption].
Qed.
Lemma safe_byte : safe (fun l => l <> [] /\ bytes l) DecodeByteRL.
Proof.
  unfold DecodeByteRL. cbn [safe]. intros b Hb. destruct (b <? 128) eqn:E.
  - cbn [safe]. intros v Hv. split; [unfold MinRepeats; rewrite Nat.add_comm; discriminate|]. apply Forall_forall. intros y Hy. apply repeat_spec in Hy. subst. exact Hv.
  - cbn. eapply safe_impl; [|apply safe_read_n]. cbn. intros l [Hl Hl']. split; [|exact Hl']. unfold is_u8 in Hb. destruct l; [cbn in Hl; lia|discriminate].
Qed.

(** ** Stream readers *)
Section Readers.
Variable inflate : list Z -> res (list Z).
Variable o : opts.
Hypothesis Htame : tame inflate.
Hypothesis Hchunk : CompressionKind o = NONE -> 0 < ChunkSize o.
Definition okR (r : reader) : Prop := bytes (r_file r) /\ bytes (r_rest r) /\ bytes (r_buf r) /\ is_u64 (r_length r) /\ is_u64 (r_readLength r).
Lemma bytes_zdrop n l : bytes l -> bytes (zdrop n l).
Proof. unfold zdrop. generalize (Z.to_nat n) as m. intros m. revert l. induction m as [|m IH]; intros l H; [exact H|]. destruct H; [constructor|]. apply IH. assumption. Qed.
Lemma bytes_skipn n l : bytes l -> bytes (skipn n l).
Proof. intros H. rewrite <- (Nat2Z.id n). apply (bytes_zdrop (Z.of_nat n)). exact H. Qed.
Lemma bytes_firstn n l : bytes l -> bytes (firstn n l).
Proof. intros H. rewrite <- (firstn_skipn n l) in H. apply bytes_app in H. apply H. Qed.
Lemma copyN_fine l rest : bytes rest -> fine (fun x => bytes (fst x) /\ bytes (snd x) /\ (length (snd x) <= length rest)%nat /\ (0 < l -> (length (snd x) < length rest)%nat)) (copyN l rest).
Proof.
  intros H. unfold copyN. destruct (Z.ltb_spec (zlen rest) l) as [Hl|Hl]; [exact I|]. cbn [fine fst snd]. unfold ztake, zdrop. split; [apply bytes_firstn; exact H|]. split; [apply bytes_skipn; exact H|].
  rewrite skipn_length. unfold zlen in Hl. lia.
Qed.
Lemma chunk_fine r : okR r -> r_readLength r < r_length r \/ CompressionKind o <> NONE -> fine (fun r' => okR r' /\ (length (r_rest r') < length (r_rest r))%nat) (readAChunk inflate o r).
Proof.
  intros (F & R & B & L & RL) Hlt. unfold readAChunk. destruct (CompressionKind o) eqn:Ek.
  { destruct Hlt as [Hlt|Hlt]; [|congruence]. set (l := if _ <? _ then _ else _).
    assert (Hl : 0 < l) by (unfold is_u64 in *; subst l; rewrite u64_id by (unfold is_u64; lia); specialize (Hchunk eq_refl); destruct (_ <? _); lia).
    eapply fine_bind; [apply copyN_fine; exact R|]. intros [p rest] (Hp & Hr & _ & Hd). cbn [fst snd] in *. cbn [fine]. split; [|cbn [r_rest]; apply Hd; exact Hl].
    unfold okR. cbn. repeat match goal with |- _ /\ _ => split end; auto; try apply u64_range. apply bytes_app. auto. }
  all: clear Hlt Hchunk; (destruct (r_rest r) as [|h0 [|h1 [|h2 rest]]] eqn:Er; [exact I..|]); destruct (DecChunkHeader h0 h1 h2) as [cl orig];
    (destruct (ChunkSize o <? cl); [exact I|]); (eapply fine_bind; [apply copyN_fine; inversion R as [|? ? _ R1]; inversion R1 as [|? ? _ R2]; inversion R2; assumption|]);
    intros [p rest'] (Hp & Hr & Hd & _); cbn [fst snd] in *.
  all: apply (fine_bind bytes); [destruct orig; [exact Hp|cbn [Decompress]; try exact I]; destruct (Htame p Hp) as [Hnp Hb]; apply fine_of; assumption|].
  all: intros d Hdb; cbn [fine]; split; [|cbn [r_rest length]; lia]; unfold okR; cbn; repeat match goal with |- _ /\ _ => split end; auto; try apply u64_range; apply bytes_app; auto.
Qed.
Lemma readByte_fine r : okR r -> fine (fun x => is_u8 (fst x) /\ okR (snd x)) (r_ReadByte inflate o r).
Proof.
  intros H. unfold r_ReadByte. assert (Hpop : forall r', okR r' -> fine (fun x => is_u8 (fst x) /\ okR (snd x)) (match r_buf r' with [] => Err | b :: t => Ok (b, {| r_file := r_file r'; r_start := r_start r'; r_length := r_length r';
                          r_rest := r_rest r'; r_readLength := r_readLength r'; r_buf := t |}) end)).
  { intros r' (F & R & B & L & RL). destruct (r_buf r'); [exact I|]. inversion B; subst. cbn. split; [assumption|]. unfold okR. cbn. auto. }
  destruct (r_buf r) as [|b t] eqn:Eb; [|pose proof (Hpop r H) as X; rewrite Eb in X; exact X]. destruct (Z.leb_spec (r_length r) (r_readLength r)); [exact I|].
  eapply fine_bind; [apply chunk_fine; [exact H|left; lia]|]. intros r' [H' _]. apply Hpop. exact H'.
Qed.
Lemma fill_fine n : forall fuel r, okR r -> (length (r_rest r) < fuel)%nat -> fine okR (fill inflate o fuel n r).
Proof.
  induction fuel as [|f IH]; intros r H Hf; [lia|]. cbn [fill]. destruct (_ && _) eqn:E; [|exact H].
  eapply fine_bind; [apply chunk_fine; [exact H|left; lia]|]. intros r' [H' Hl]. apply IH; [exact H'|lia].
Qed.
Lemma readFull_fine n r : okR r -> fine (fun x => length (fst x) = n /\ bytes (fst x) /\ okR (snd x)) (r_ReadFull inflate o n r).
Proof.
  intros H. unfold r_ReadFull. destruct (Nat.eqb_spec n 0) as [->|Hn]; [cbn; split; [reflexivity|split; [constructor|exact H]]|].
  apply (fine_bind okR).
  - destruct (n <=? length (r_buf r))%nat; [exact H|]. destruct (r_length r <=? r_readLength r); [exact I|]. apply fill_fine; [exact H|lia].
  - intros r' (F & R & B & L & RL). destruct (Nat.leb_spec n (length (r_buf r'))) as [Hl|Hl]; [|exact I]. cbn. split; [rewrite firstn_length; lia|]. split; [apply bytes_firstn; exact B|].
    unfold okR. cbn. repeat match goal with |- _ /\ _ => split end; auto. apply bytes_skipn. exact B.
Qed.
Lemma run_fine {A} (P : A -> Prop) (p : prog A) : safe P p -> forall r, okR r -> fine (fun x => P (fst x) /\ okR (snd x)) (r_run inflate o p r).
Proof.
  unfold r_run. induction p as [a| | |k IH|n k IH]; intros Hs r H; cbn [safe runS] in *; [cbn; auto|exact I|contradiction|..].
  - eapply fine_bind; [apply readByte_fine; exact H|]. intros [b r'] [Hb H']. apply IH; auto.
  - eapply fine_bind; [apply readFull_fine; exact H|]. intros [bs r'] (Hl & Hb & H'). apply IH; auto.
Qed.
Definition okV (v : vreader Z) : Prop := okR (v_s v) /\ bytes (v_vals v).
Lemma vnext_fine v : okV v -> fine (fun x => is_u8 (fst x) /\ okV (snd x)) (v_Next inflate o DecodeByteRL v).
Proof.
  intros [H B]. unfold v_Next. destruct (v_vals v) as [|x t].
  - eapply fine_bind; [apply (run_fine _ _ safe_byte); exact H|]. intros [xs s] [[Hne Hb] Hs]. cbn [fst snd] in *. destruct Hb as [|x t Hx Ht]; [congruence|]. cbn. split; [exact Hx|]. split; assumption.
  - inversion B; subst. cbn. split; [assumption|]. split; assumption.
Qed.
Definition okB (b : boolReader) : Prop := okV (bl_r b).
Lemma bnext_fine b : okB b -> fine (fun x => okB (snd x)) (bool_Next inflate o b).
Proof.
  intros H. unfold bool_Next. destruct (bl_vals b); [|exact H]. eapply fine_bind; [apply vnext_fine; exact H|]. intros [v r] [_ Hr]. exact Hr.
Qed.

(** ** Columns *)
Definition okD (k : ckind) (d : option sreader) : Prop :=
  match k, d with
  | KByte, Some (RRun v) => okV v
  | KBool, Some (RBool b) => okB b
  | (KFloat | KDouble), Some (RRaw r) => okR r
  | _, _ => False
  end.
Definition okP (p : option boolReader) : Prop := match p with Some b => okB b | None => True end.
Definition okC (c : colR) : Prop := sturdy (cr_kind c) = true /\ okP (cr_present c) /\ okD (cr_kind c) (cr_data c).
Lemma present_fine c old : okP (cr_present c) -> fine (fun x => okP (cr_present (snd x)) /\ cr_kind (snd x) = cr_kind c /\ cr_data (snd x) = cr_data c) (nextPresent inflate o c old).
Proof.
  intros H. unfold nextPresent. destruct (cr_present c) as [b|] eqn:E; [|cbn; rewrite E; auto]. eapply fine_bind; [apply bnext_fine; exact H|]. intros [p b'] Hb. cbn. auto.
Qed.
Lemma value_fine c old : okC c -> fine (fun x => okC (snd x)) (nextValue inflate o c old).
Proof.
  intros (K & P & D). unfold nextValue. destruct (cr_kind c) eqn:Ek; try discriminate K; unfold okD in D; destruct (cr_data c) as [[v|b|r]|] eqn:Ed; try contradiction.
  - unfold nextRun. apply (fine_bind (fun y => okD KByte (Some (snd y)))); [eapply fine_bind; [apply vnext_fine; exact D|]|]; [intros [x v'] [_ Hv]; exact Hv|].
    intros [x d] Hd. unfold okC. cbn. rewrite Ek. auto.
  - unfold nextBool. apply (fine_bind (fun y => okD KBool (Some (snd y)))); [eapply fine_bind; [apply bnext_fine; exact D|]|]; [intros [x v'] Hv; exact Hv|].
    intros [x d] Hd. unfold okC. cbn. rewrite Ek. auto.
  - unfold nextRaw. apply (fine_bind (fun y => okD KFloat (Some (snd y)))); [eapply fine_bind; [apply (run_fine (fun _ => True)); [cbn; auto|exact D]|]|]; [intros [x v'] [_ Hv]; exact Hv|].
    intros [x d] Hd. unfold okC. cbn. rewrite Ek. auto.
  - unfold nextRaw. apply (fine_bind (fun y => okD KDouble (Some (snd y)))); [eapply fine_bind; [apply (run_fine (fun _ => True)); [cbn; auto|exact D]|]|]; [intros [x v'] [_ Hv]; exact Hv|].
    intros [x d] Hd. unfold okC. cbn. rewrite Ek. auto.
Qed.
Lemma row_fine c old : okC c -> fine (fun x => okC (snd x)) (nextRow inflate o c old).
Proof.
  intros (K & P & D). unfold nextRow. eapply fine_bind; [apply present_fine; exact P|]. intros [null c1] (P1 & K1 & D1). cbn [snd] in *.
  assert (H1 : okC c1) by (unfold okC; rewrite K1, D1; auto). destruct null; [exact H1|]. eapply fine_bind; [apply value_fine; exact H1|]. intros [g c2] H2. exact H2.
Qed.
Lemma batch_fine vec : forall c, okC c -> fine (fun x => okC (snd x)) (NextBatch inflate o c vec).
Proof.
  induction vec as [|old r IH]; intros c H; cbn [NextBatch]; [exact H|]. eapply fine_bind; [apply row_fine; exact H|]. intros [x c1] H1. eapply fine_bind; [apply IH; exact H1|]. intros [xs c2] H2. exact H2.
Qed.
End Readers.

(** Opening one. *)
Definition okI (c : colR) : Prop := sturdy (cr_kind c) = true /\ okP (cr_present c) /\ (cr_data c = None \/ okD (cr_kind c) (cr_data c)).
Lemma okR_new file start len : bytes file -> is_u64 len -> okR (newReader file start len).
Proof. intros Hf Hl. unfold okR, newReader. cbn. split; [exact Hf|]. split; [apply bytes_zdrop; exact Hf|]. split; [constructor|]. split; [exact Hl|]. unfold is_u64. lia. Qed.
Lemma init_col file s st c c' : bytes file -> is_u64 (st_length s) -> okI c -> InitStream file c s st = Ok c' -> okI c' /\ cr_kind c' = cr_kind c /\ (st_kind s = sDATA \/ cr_data c <> None -> cr_data c' <> None).
Proof.
  intros Hf Hl (K & P & D) H. pose proof (okR_new file st _ Hf Hl) as Hr. unfold InitStream in H. set (r := newReader file st (st_length s)) in *.
  destruct (Z.eqb_spec (st_kind s) sPRESENT) as [Ep|Ep].
  - assert (c' = setPresent (newBoolReader r) c) as -> by (destruct (cr_kind c); try discriminate K; destruct (cr_hasNulls c); congruence). unfold okI. cbn. split; [split; [exact K|]; split; [|exact D]|].
    + split; [exact Hr|constructor].
    + split; [reflexivity|]. intros [E|E]; [rewrite Ep in E; discriminate E|exact E].
  - destruct (Z.eqb_spec (st_kind s) sDATA) as [Ed|Ed].
    + destruct (dataReader (cr_kind c) r) as [d|] eqn:E; [|discriminate]. assert (c' = setData d c) as -> by congruence. unfold okI. cbn. split; [split; [exact K|]; split; [exact P|right]|split; [reflexivity|discriminate]].
      destruct (cr_kind c); try discriminate K; cbn in E; injection E as <-; try exact Hr; (split; [exact Hr|constructor]).
    + destruct (cr_kind c) eqn:Ek; try discriminate K; try discriminate H. assert (c' = c) as -> by congruence. split; [split; [rewrite Ek; exact K|split; [exact P|rewrite Ek; exact D]]|]. split; [exact Ek|]. intros [E|E]; [congruence|exact E].
Qed.
Lemma init_any inflate o file s st c r : bytes file -> is_u64 (st_length s) -> okI c ->
  (if st_kind s =? 6 then any_InitIndex inflate o file (RCol c) st (st_length s) else any_InitStream file (RCol c) s st) = Ok r ->
  exists c', r = RCol c' /\ okI c' /\ cr_kind c' = cr_kind c /\ (st_kind s = sDATA \/ cr_data c <> None -> cr_data c' <> None).
Proof.
  intros Hf Hs Hc H. destruct (Z.eqb_spec (st_kind s) 6) as [E|_]; cbn [any_InitIndex any_InitStream] in H; apply rbind_inv in H; destruct H as (c1 & H1 & E1); assert (r = RCol c1) as -> by congruence; exists c1; (split; [reflexivity|]).
  - unfold InitIndex in H1. apply rbind_inv in H1. destruct H1 as (l & _ & H1). assert (c1 = setIndex l c) as -> by congruence. split; [exact Hc|]. split; [reflexivity|]. intros [E0|E0]; [rewrite E in E0; discriminate E0|exact E0].
  - exact (init_col _ _ _ _ _ Hf Hs Hc H1).
Qed.
Lemma open_col inflate o file l : bytes file -> forall c r, lengths_ok l -> okI c -> openColumn inflate o file (RCol c) l = Ok r ->
  exists c', r = RCol c' /\ okI c' /\ cr_kind c' = cr_kind c /\ (has_stream sDATA l \/ cr_data c <> None -> cr_data c' <> None).
Proof.
  intros Hf. induction l as [|[s st] l IH]; intros c r Hl Hc H; cbn [openColumn] in H.
  - assert (r = RCol c) as -> by congruence. exists c. split; [reflexivity|]. split; [exact Hc|]. split; [reflexivity|]. intros [(s & st & [] & _)|E]; exact E.
  - inversion Hl as [|? ? Hs Hl']; subst. apply rbind_inv in H. destruct H as (r1 & H1 & H). destruct (init_any _ _ _ _ _ _ _ Hf Hs Hc H1) as (c1 & -> & I1 & K1 & D1).
    destruct (IH _ _ Hl' I1 H) as (c' & -> & I' & K' & D'). exists c'. split; [reflexivity|]. split; [exact I'|]. split; [congruence|].
    intros Hd. apply D'. destruct Hd as [(s0 & st0 & [E0|Hin] & Hk)|E0]; [injection E0 as <- <-; right; apply D1; left; exact Hk|left; exists s0, st0; auto|right; apply D1; right; exact E0].
Qed.
Lemma okC_calm inflate o c : tame inflate -> (CompressionKind o = NONE -> 0 < ChunkSize o) -> okC c -> calm inflate o (RCol c).
Proof. intros Ht Hch H vec _. eapply fine_np. apply (batch_fine inflate o Ht Hch). exact H. Qed.
Lemma sturdy_calm inflate o file k h l r : tame inflate -> (CompressionKind o = NONE -> 0 < ChunkSize o) -> bytes file -> lengths_ok l -> has_stream sDATA l ->
  sturdy k = true -> openColumn inflate o file (RCol (newColR k h)) l = Ok r -> calm inflate o r.
Proof.
  intros Ht Hch Hf Hl Hd Hk H. destruct (open_col inflate o file l Hf (newColR k h) r Hl) as (c' & -> & (K & P & D) & Ek & Hn); [split; [exact Hk|split; [exact I|left; reflexivity]]|exact H|].
  apply okC_calm; auto. split; [exact K|]. split; [exact P|]. destruct D as [D|D]; [exfalso; apply Hn; auto|exact D].
Qed.
(** A struct. *)
Definition okS (c : colR) : Prop := cr_kind c = KStruct /\ okP (cr_present c) /\ (cr_present c <> None -> cr_hasNulls c = true).
Lemma open_struct inflate o file l : bytes file -> forall c r, lengths_ok l -> okS c -> openColumn inflate o file (RCol c) l = Ok r ->
  exists c', r = RCol c' /\ okS c' /\ cr_hasNulls c' = cr_hasNulls c.
Proof.
  intros Hf. induction l as [|[s st] l IH]; intros c r Hl Hc H; cbn [openColumn] in H; [assert (r = RCol c) as -> by congruence; eauto|].
  inversion Hl as [|? ? Hs Hl']; subst. apply rbind_inv in H. destruct H as (r1 & H1 & H). 
  assert (exists c1, r1 = RCol c1 /\ okS c1 /\ cr_hasNulls c1 = cr_hasNulls c) as (c1 & -> & S1 & N1).
  { destruct (st_kind s =? 6); cbn [any_InitIndex any_InitStream] in H1; apply rbind_inv in H1; destruct H1 as (c1 & H1 & E1); assert (r1 = RCol c1) as -> by congruence; exists c1; (split; [reflexivity|]).
    - unfold InitIndex in H1. apply rbind_inv in H1. destruct H1 as (i & _ & H1). assert (c1 = setIndex i c) as -> by congruence. split; [exact Hc|reflexivity].
    - destruct Hc as (K & P & N). unfold InitStream in H1. rewrite K in H1. cbn [dataReader] in H1. cbv zeta in H1. destruct (st_kind s =? sPRESENT); [|destruct (st_kind s =? sDATA); discriminate].
      destruct (cr_hasNulls c) eqn:Eh; [|discriminate]. assert (c1 = setPresent (newBoolReader (newReader file st (st_length s))) c) as -> by congruence. unfold okS. cbn. split; [|exact Eh]. split; [exact K|]. split; [|intros _; exact Eh].
      split; [apply okR_new; assumption|constructor]. }
  destruct (IH _ _ Hl' S1 H) as (c' & -> & S' & N'). exists c'. split; [reflexivity|]. split; [exact S'|congruence].
Qed.

(** ** Columns one after another *)
Section Calm.
Variable inflate : list Z -> res (list Z).
Variable o : opts.
Lemma NextBatch_app v1 : forall c v2, NextBatch inflate o c (v1 ++ v2) = let! (x1, c1) := NextBatch inflate o c v1 in let! (x2, c2) := NextBatch inflate o c1 v2 in Ok (x1 ++ x2, c2).
Proof.
  induction v1 as [|v r IH]; intros c v2; cbn [NextBatch app rbind].
  - destruct (NextBatch inflate o c v2) as [[x2 c2]| |]; reflexivity.
  - destruct (nextRow inflate o c v) as [[x c1]| |]; cbn [rbind]; try reflexivity. rewrite IH. destruct (NextBatch inflate o c1 r) as [[xs c2]| |]; cbn [rbind]; try reflexivity.
    destruct (NextBatch inflate o c2 v2) as [[ys c3]| |]; reflexivity.
Qed.
Lemma nextRow_kind c old x c' : nextRow inflate o c old = Ok (x, c') -> cr_kind c' = cr_kind c /\ (typed (cr_kind c) old -> typed (cr_kind c) x).
Proof.
  unfold nextRow, nextPresent. intros H. apply rbind_inv in H. destruct H as ([null c1] & H1 & H).
  assert (K1 : cr_kind c1 = cr_kind c).
  { destruct (cr_present c); [|congruence]. apply rbind_inv in H1. destruct H1 as ([p b'] & _ & H1). assert (c1 = setPresent b' c) as -> by congruence. reflexivity. }
  destruct null; [assert (x = {| Null := true; V := V old |} /\ c' = c1) as [-> ->] by (split; congruence); split; [exact K1|]; intros T; exact T|].
  apply rbind_inv in H. destruct H as ([g c2] & H2 & H). assert (x = {| Null := false; V := g |} /\ c' = c2) as [-> ->] by (split; congruence).
  rewrite <- K1. clear - H2. unfold nextValue in H2. unfold typed. cbn [V].
  destruct (cr_kind c1) eqn:Ek; try discriminate H2; repeat (apply rbind_inv in H2; destruct H2 as ([? ?] & _ & H2)); try (split; [match type of H2 with Ok (_, ?z) = _ => assert (c2 = z) as -> by congruence end; cbn; congruence|auto]).
  - destruct (V old) eqn:Ev; try discriminate H2. match type of H2 with Ok (?y, ?z) = _ => assert (g = y /\ c2 = z) as [-> ->] by (split; congruence) end. cbn. auto.
  - destruct (V old) eqn:Ev; try discriminate H2. match type of H2 with Ok (?y, ?z) = _ => assert (g = y /\ c2 = z) as [-> ->] by (split; congruence) end. cbn. auto.
Qed.
Lemma NextBatch_kind l : forall c xs c', NextBatch inflate o c l = Ok (xs, c') -> cr_kind c' = cr_kind c /\ (Forall (typed (cr_kind c)) l -> Forall (typed (cr_kind c)) xs).
Proof.
  induction l as [|v r IH]; intros c xs c' H; cbn [NextBatch] in H; [assert (xs = [] /\ c' = c) as [-> ->] by (split; congruence); auto|].
  apply rbind_inv in H. destruct H as ([x c1] & H1 & H). apply rbind_inv in H. destruct H as ([ys c2] & H2 & H). assert (xs = x :: ys /\ c' = c2) as [-> ->] by (split; congruence).
  destruct (nextRow_kind _ _ _ _ H1) as [K1 T1]. destruct (IH _ _ _ H2) as [K2 T2]. split; [congruence|]. intros T. inversion T; subst. constructor; [auto|]. rewrite K1 in T2. auto.
Qed.
Lemma calm_next c l xs c' : calm inflate o (RCol c) -> Forall (typed (cr_kind c)) l -> NextBatch inflate o c l = Ok (xs, c') -> calm inflate o (RCol c').
Proof.
  intros Hc Hl E vec Hv Hp. destruct (NextBatch_kind _ _ _ _ E) as [K _]. rewrite K in Hv. apply (Hc (l ++ vec)); [apply Forall_app; auto|]. rewrite NextBatch_app, E. cbn [rbind]. rewrite Hp. reflexivity.
Qed.
Lemma dictRows_app ss v1 : forall p d v2, dictRows inflate o ss p d (v1 ++ v2) =
  let! (x1, p1, d1) := dictRows inflate o ss p d v1 in let! (x2, p2, d2) := dictRows inflate o ss p1 d1 v2 in Ok (x1 ++ x2, p2, d2).
Proof.
  induction v1 as [|v r IH]; intros p d v2; cbn [dictRows app rbind].
  - destruct (dictRows inflate o ss p d v2) as [[[x2 p2] d2]| |]; reflexivity.
  - destruct (match p with Some b => let! (x, b') := bool_Next inflate o b in Ok (negb x, Some b') | None => Ok (Null v, None) end) as [[null p1]| |]; cbn [rbind]; try reflexivity.
    destruct null.
    + rewrite IH. destruct (dictRows inflate o ss p1 d r) as [[[xs p2] d2]| |]; cbn [rbind]; try reflexivity. destruct (dictRows inflate o ss p2 d2 v2) as [[[ys p3] d3]| |]; reflexivity.
    + destruct (nextSecond inflate o DecodeUInt d) as [[i d1]| |]; cbn [rbind]; try reflexivity. destruct (if i <? zlen ss then _ else _) as [s|]; [|reflexivity].
      rewrite IH. destruct (dictRows inflate o ss p1 (Some d1) r) as [[[xs p2] d2]| |]; cbn [rbind]; try reflexivity. destruct (dictRows inflate o ss p2 d2 v2) as [[[ys p3] d3]| |]; reflexivity.
Qed.
Lemma calm_dict d l xs d' : calm inflate o (RDict d) -> dict_NextBatch inflate o d l = Ok (xs, d') -> calm inflate o (RDict d').
Proof.
  intros Hc E vec Hp. apply (Hc (l ++ vec)). unfold dict_NextBatch in *. destruct (loadDict inflate o d) as [d1| |] eqn:El; cbn [rbind] in *; try discriminate.
  assert (Hl : dr_loaded d1 = true).
  { unfold loadDict in El. destruct (dr_loaded d) eqn:Ed; [congruence|]. destruct (dr_length d); [|discriminate]. apply rbind_inv in El. destruct El as ([[l' dd] ss] & _ & El). destruct (v_Finished l'); [|discriminate].
    assert (d1 = dict_loaded ss (dict_words dd (Some l') d)) as -> by congruence. reflexivity. }
  apply rbind_inv in E. destruct E as ([[ys p] dd] & E & E'). assert (xs = ys /\ d' = dict_at p dd d1) as [-> ->] by (split; congruence).
  rewrite dictRows_app, E. cbn [rbind]. assert (El' : loadDict inflate o (dict_at p dd d1) = Ok (dict_at p dd d1)) by (unfold loadDict, dict_at; cbn [dr_loaded]; rewrite Hl; reflexivity).
  rewrite El' in Hp. cbn [rbind dict_at dr_strings dr_present dr_data] in Hp. destruct (dictRows inflate o (dr_strings d1) p dd vec) as [[[zs p2] d2]| |]; cbn [rbind] in *; [discriminate Hp|discriminate Hp|reflexivity].
Qed.

(** ** The tree *)
Hypothesis Htame : tame inflate.
Hypothesis Hchunk : CompressionKind o = NONE -> 0 < ChunkSize o.
Variable b : batchOption.
(** What is known of every column: it can be read without a crash, and then is known again. *)
Variable Q : anyR -> Prop.
Hypothesis Qcol : forall c vec, Q (RCol c) -> Forall (typed (cr_kind c)) vec -> fine (fun y => Q (RCol (snd y))) (NextBatch inflate o c vec).
Hypothesis Qdict : forall d vec, Q (RDict d) -> fine (fun y => Q (RDict (snd y))) (dict_NextBatch inflate o d vec).
Section Each.
Context {A : Type}.
Variable R : td -> A -> Prop.
(** One element for each included column. *)
Fixpoint each (cs : list td) (l : list A) : Prop :=
  match cs with
  | [] => l = []
  | c :: r => if IsInclude b (td_id c) then exists a l', l = a :: l' /\ R c a /\ each r l' else each r l
  end.
End Each.
Definition typedT (k : tkind) (v : value) : Prop :=
  match k, V v with
  | TIMESTAMP, GTimestamp _ => True
  | TIMESTAMP, _ => False
  | DECIMAL, GDecimal _ _ => True
  | DECIMAL, _ => False
  | _, _ => True
  end.
Fixpoint calmT (t : td) (a : ctree) : Prop :=
  match t with
  | Td _ k _ _ h cs =>
      match k with
      | STRUCT => exists p i ks, a = CStruct p i ks /\ okP p /\ (p <> None -> h = true) /\ each calmT cs ks
      | _ => match a with
             | CLeaf c => Q (RCol c) /\ (forall v, typedT k v -> typed (cr_kind c) v) /\ (forall v, typed (cr_kind c) v -> typedT k v)
             | CDict d => Q (RDict d) /\ k <> TIMESTAMP /\ k <> DECIMAL
             | _ => False
             end
      end
  end.
Fixpoint shapeX (n : nat) (t : td) (x : vtree) : Prop :=
  match t with
  | Td _ k _ _ h cs =>
      match k with
      | STRUCT => exists vals xs, x = VT vals xs /\ (if h then length vals = n else vals = []) /\ each (shapeX n) cs xs
      | _ => exists vals, x = VT vals [] /\ length vals = n /\ Forall (typedT k) vals
      end
  end.
Lemma calmT_other id k ns e h cs a : k <> STRUCT -> (calmT (Td id k ns e h cs) a <-> match a with
             | CLeaf c => Q (RCol c) /\ (forall v, typedT k v -> typed (cr_kind c) v) /\ (forall v, typed (cr_kind c) v -> typedT k v)
             | CDict d => Q (RDict d) /\ k <> TIMESTAMP /\ k <> DECIMAL
             | _ => False
             end).
Proof. intros Hk. destruct k; try reflexivity. congruence. Qed.
Lemma shapeX_other n id k ns e h cs x : k <> STRUCT -> (shapeX n (Td id k ns e h cs) x <-> exists vals, x = VT vals [] /\ length vals = n /\ Forall (typedT k) vals).
Proof. intros Hk. destruct k; try reflexivity. congruence. Qed.
(** Structs with nulls have no structs below. *)
Definition flatN (t : td) : Prop :=
  forall x c, In x (flatten t) -> td_kind x = STRUCT -> td_hasNulls x = true -> IsInclude b (td_id x) = true -> In c (td_children x) -> IsInclude b (td_id c) = true -> td_kind c <> STRUCT.
Lemma readNulls_fine l : forall x, okB x -> fine (fun y => length (fst y) = length l /\ okB (snd y)) (readNulls inflate o x l).
Proof.
  induction l as [|v l IH]; intros x Hx; cbn [readNulls]; [split; [reflexivity|exact Hx]|].
  eapply fine_bind; [apply (bnext_fine inflate o Htame Hchunk); exact Hx|]. intros [p b1] H1. eapply fine_bind; [apply IH; exact H1|]. intros [xs b2] [Hl H2]. cbn in *. split; [congruence|exact H2].
Qed.
Lemma copy_typed k p : forall l l', copyNulls p l = Ok l' -> Forall (typedT k) l -> Forall (typedT k) l'.
Proof.
  induction p as [|x p IH]; intros [|y l] l' H T; cbn [copyNulls] in H; try congruence. apply rbind_inv in H. destruct H as (t & H & E). assert (l' = {| Null := Null x; V := V y |} :: t) as -> by congruence.
  inversion T; subst. constructor; [assumption|eauto].
Qed.
Lemma fill_leaf n c p x : td_kind c <> STRUCT -> shapeX n c x -> length p = n -> exists x', fillNulls p x = Ok x' /\ shapeX n c x'.
Proof.
  destruct c as [id k ns e h cs]. cbn [td_kind]. intros Hk. rewrite shapeX_other by exact Hk. intros (vals & -> & Hl & Ht) Hp. rewrite fillNulls_eq.
  destruct (copyNulls_ok p vals ltac:(congruence)) as (out & E & _ & Ho). rewrite E. cbn [rbind fillL]. eexists. split; [reflexivity|]. apply shapeX_other; [exact Hk|]. exists out. split; [reflexivity|]. split; [congruence|eapply copy_typed; eassumption].
Qed.
Lemma fill_each n cs p : length p = n -> (forall c, In c cs -> IsInclude b (td_id c) = true -> td_kind c <> STRUCT) -> forall xs, each (shapeX n) cs xs -> exists xs', mapM (fillNulls p) xs = Ok xs' /\ each (shapeX n) cs xs'.
Proof.
  intros Hp. induction cs as [|c cs IH]; intros Hc xs H; cbn [each] in *; [subst; exists []; auto|]. destruct (IsInclude b (td_id c)) eqn:Ei; [|apply IH; [intros; apply Hc; [right; assumption|assumption]|exact H]].
  destruct H as (x & xs1 & -> & Hx & Hxs). destruct (fill_leaf n c p x (Hc c (or_introl eq_refl) Ei) Hx Hp) as (x' & E & Hx'). destruct (IH ltac:(intros; apply Hc; [right; assumption|assumption]) xs1 Hxs) as (xs' & E' & Hxs').
  cbn [mapM]. rewrite E. cbn [rbind]. rewrite E'. cbn [rbind]. exists (x' :: xs'). split; [reflexivity|]. exists x', xs'. auto.
Qed.
Notation next := (tree_NextBatch inflate o).
Lemma kids_fine n cs : Forall (fun c => IsInclude b (td_id c) = true -> forall a x, calmT c a -> shapeX n c x -> fine (fun y => shapeX n c (fst y) /\ calmT c (snd y)) (next a x)) cs ->
  forall ks xs, each calmT cs ks -> each (shapeX n) cs xs -> fine (fun y => each (shapeX n) cs (fst y) /\ each calmT cs (snd y)) (nextKids next ks xs).
Proof.
  intros H. induction H as [|c cs Hc _ IH]; intros ks xs Hk Hx; cbn [each] in *; [subst; cbn; auto|]. destruct (IsInclude b (td_id c)) eqn:Ei; [|apply IH; assumption].
  destruct Hk as (a & ks1 & -> & Ha & Hk). destruct Hx as (x & xs1 & -> & Hx & Hxs). cbn [nextKids].
  eapply fine_bind; [apply (Hc eq_refl a x Ha Hx)|]. intros [x' a'] [Hx' Ha']. eapply fine_bind; [apply (IH _ _ Hk Hxs)|]. intros [xs' ks'] [Hxs' Hk']. cbn in *. split; [exists x', xs'|exists a', ks']; auto.
Qed.
Lemma flatN_child id k ns e h cs c : flatN (Td id k ns e h cs) -> In c cs -> flatN c.
Proof. intros H Hc x y Hx. apply H. rewrite flatten_eq. right. apply in_flat_map. eauto. Qed.
Lemma next_fine n t : flatN t -> IsInclude b (td_id t) = true -> forall a x, calmT t a -> shapeX n t x -> fine (fun y => shapeX n t (fst y) /\ calmT t (snd y)) (next a x).
Proof.
  induction t as [id k ns e h cs IH] using td_rect'. intros Hf Hi a x Ha Hx. destruct (tkind_dec k) as [->|Hk].
  - destruct Ha as (p & i & ks & -> & Hp & Hph & Hks). destruct Hx as (vals & xs & -> & Hv & Hxs). rewrite tree_NextBatch_struct.
    assert (Hcs : Forall (fun c => IsInclude b (td_id c) = true -> forall a x, calmT c a -> shapeX n c x -> fine (fun y => shapeX n c (fst y) /\ calmT c (snd y)) (next a x)) cs).
    { rewrite Forall_forall in *. intros c Hc Hci. apply IH; [exact Hc|eapply flatN_child; eassumption|exact Hci]. }
    apply (fine_bind (fun y => let '(vals', xs', p') := y in (if h then length vals' = n else vals' = []) /\ each (shapeX n) cs xs' /\ okP p' /\ (p' <> None -> h = true))).
    + destruct p as [x|]; [|cbn; auto]. eapply fine_bind; [apply readNulls_fine; exact Hp|]. intros [vals' x'] [Hl Hx']. cbn [fst snd] in *. assert (h = true) as -> by (apply Hph; discriminate).
      destruct (fill_each n cs vals' ltac:(congruence) ltac:(intros c Hc Hci; exact (Hf _ c (flatten_self _) eq_refl eq_refl Hi Hc Hci)) xs Hxs) as (xs' & E & Hxs').
      rewrite E. cbn. repeat match goal with |- _ /\ _ => split end; auto. congruence.
    + intros [[vals' xs'] p'] (V1 & V2 & V3 & V4). eapply fine_bind; [apply (kids_fine n cs Hcs _ _ Hks V2)|]. intros [xs'' ks'] [W1 W2]. cbn in *. split; [exists vals', xs''; auto|exists p', i, ks'; auto].
  - rewrite calmT_other in Ha by exact Hk. rewrite shapeX_other in Hx by exact Hk. destruct Hx as (vals & -> & Hl & Ht). destruct a as [c|d| | |]; try contradiction.
    + destruct Ha as (Hc & T1 & T2). assert (Ht' : Forall (typed (cr_kind c)) vals) by (eapply Forall_impl; [exact T1|exact Ht]). rewrite tree_NextBatch_leaf.
      pose proof (Qcol c vals Hc Ht') as Hq. destruct (NextBatch inflate o c vals) as [[vals' c']| |] eqn:E; cbn [rbind]; [|exact I|exact Hq]. cbn [fine fst snd] in *. destruct (NextBatch_kind _ _ _ _ E) as [K T].
      split; [apply shapeX_other; [exact Hk|]; exists vals'; split; [reflexivity|split; [pose proof (NextBatch_len inflate o _ _ _ _ E) as L; unfold zlen in L; lia|eapply Forall_impl; [exact T2|apply T; exact Ht']]]|].
      apply calmT_other; [exact Hk|]. split; [exact Hq|]. rewrite K. auto.
    + destruct Ha as (Hc & T1 & T2). rewrite tree_NextBatch_dict. pose proof (Qdict d vals Hc) as Hq. destruct (dict_NextBatch inflate o d vals) as [[vals' d']| |] eqn:E; cbn [rbind]; [|exact I|exact Hq]. cbn [fine fst snd] in *.
      split; [|apply calmT_other; [exact Hk|]; split; [exact Hq|auto]].
      apply shapeX_other; [exact Hk|]. exists vals'. split; [reflexivity|]. split.
      * unfold dict_NextBatch in E. apply rbind_inv in E. destruct E as (d1 & _ & E). apply rbind_inv in E. destruct E as ([[ys p] dd] & E & E'). assert (vals' = ys) as -> by congruence. pose proof (dictRows_len inflate o _ _ _ _ _ _ _ E) as L. unfold zlen in L. lia.
      * apply Forall_forall. intros v _. unfold typedT. destruct k; auto; congruence.
Qed.
End Calm.

(** ** Batches *)
Section Shape.
Variable b : batchOption.
Fixpoint shapeV (n c : Z) (t : td) (v : bvec) : Prop :=
  match t with
  | Td id k _ _ h cs =>
      match k with
      | STRUCT => exists s vs, v = BVec id STRUCT s vs /\ (if h then slice n c s else s = None) /\ each b (shapeV n c) cs vs
      | _ => exists a rest, v = BVec id k (Some (a, rest)) [] /\ zlen a = n /\ zlen (a ++ rest) = c /\ Forall (typedT k) (a ++ rest)
      end
  end.
Lemma shapeV_other n c id k ns e h cs v : k <> STRUCT -> (shapeV n c (Td id k ns e h cs) v <->
  exists a rest, v = BVec id k (Some (a, rest)) [] /\ zlen a = n /\ zlen (a ++ rest) = c /\ Forall (typedT k) (a ++ rest)).
Proof. intros H. destruct k; try reflexivity. congruence. Qed.
(** No lists, maps and unions. *)
Definition plain (t : td) : Prop := forall x, In x (flatten t) -> IsInclude b (td_id x) = true -> match td_kind x with LIST | MAP | UNION => False | _ => True end.
Lemma plain_child id k ns e h cs c : plain (Td id k ns e h cs) -> In c cs -> plain c.
Proof. intros H Hc x Hx. apply H. rewrite flatten_eq. right. apply in_flat_map. eauto. Qed.
Lemma flagged_child hs id k ns e h cs c : ProjectP.flagged hs (Td id k ns e h cs) -> In c cs -> ProjectP.flagged hs c.
Proof. intros H Hc x Hx. apply H. rewrite flatten_eq. right. apply in_flat_map. eauto. Qed.
Lemma each_mono {A B} (R : td -> A -> Prop) (S : td -> B -> Prop) (f : A -> B) cs : Forall (fun c => IsInclude b (td_id c) = true -> forall a, R c a -> S c (f a)) cs -> forall l, each b R cs l -> each b S cs (map f l).
Proof.
  intros H. induction H as [|c cs Hc _ IH]; intros l E; cbn [each] in *; [subst; reflexivity|]. destruct (IsInclude b (td_id c)); [|apply IH; exact E].
  destruct E as (a & l' & -> & Ha & El). exists (f a), (map f l'). cbn. auto.
Qed.
Lemma each_all {A} (R : td -> A -> Prop) (P : A -> Prop) cs : Forall (fun c => IsInclude b (td_id c) = true -> forall a, R c a -> P a) cs -> forall l, each b R cs l -> all P l.
Proof.
  intros H. induction H as [|c cs Hc _ IH]; intros l E; cbn [each] in *; [subst; exact I|]. destruct (IsInclude b (td_id c)); [|apply IH; exact E].
  destruct E as (a & l' & -> & Ha & El). cbn. split; [apply Hc; auto|apply IH; exact El].
Qed.
Lemma shape_uni hs n c t : ProjectP.flagged hs t -> forall v, shapeV n c t v -> uni hs n c v.
Proof.
  induction t as [id k ns e h cs IH] using td_rect'. intros Hf v H. destruct (tkind_dec k) as [->|Hk].
  - destruct H as (s & vs & -> & Hs & Hv). apply uni_struct. rewrite (Hf _ (flatten_self _) : nth_error hs (Z.to_nat id) = Some h). split; [exact Hs|].
    eapply each_all; [|exact Hv]. rewrite Forall_forall in *. intros x Hx _. apply IH; [exact Hx|eapply flagged_child; eassumption].
  - rewrite shapeV_other in H by exact Hk. destruct H as (a & r & -> & H1 & H2 & _). apply uni_other; [exact Hk|]. split; [exists a, r; auto|]. intros _. exact I.
Qed.
Lemma shape_Clear n c t : forall v, shapeV n c t v -> shapeV 0 c t (Clear v).
Proof.
  induction t as [id k ns e h cs IH] using td_rect'. intros v H. destruct (tkind_dec k) as [->|Hk].
  - destruct H as (s & vs & -> & Hs & Hv). cbn [Clear]. exists (clearVals s), (map Clear vs). split; [reflexivity|]. split.
    + destruct h; [|subst; reflexivity]. destruct Hs as (x & y & -> & H1 & H2). exists [], (x ++ y). auto.
    + eapply each_mono; [|exact Hv]. rewrite Forall_forall in *. auto.
  - rewrite shapeV_other in * by exact Hk. destruct H as (a & r & -> & H1 & H2 & H3). exists [], (a ++ r). auto.
Qed.
Lemma reslice_some m a r : 0 <= m <= zlen (a ++ r) -> reslice m (Some (a, r)) = Ok (Some (ztake m (a ++ r), zdrop m (a ++ r))) /\ zlen (ztake m (a ++ r)) = m /\ ztake m (a ++ r) ++ zdrop m (a ++ r) = a ++ r.
Proof.
  intros H. unfold reslice. replace ((m <? 0) || (zlen (a ++ r) <? m)) with false by lia. split; [reflexivity|]. unfold ztake, zdrop, zlen in *. rewrite firstn_skipn, firstn_length. split; [lia|reflexivity].
Qed.
Lemma shape_size hs n c m t : plain t -> IsInclude b (td_id t) = true -> ProjectP.flagged hs t -> 0 <= m <= c -> forall v, shapeV n c t v -> exists v', setVectorSize hs m v = Ok v' /\ shapeV m c t v'.
Proof.
  induction t as [id k ns e h cs IH] using td_rect'. intros Hp Hi Hf Hm v H. destruct (tkind_dec k) as [->|Hk].
  - destruct H as (s & vs & -> & Hs & Hv). rewrite ProjectP.setVectorSize_struct, (Hf _ (flatten_self _) : nth_error hs (Z.to_nat id) = Some h).
    assert (exists vs', ProjectP.sizeL hs m vs = Ok vs' /\ each b (shapeV m c) cs vs') as (vs' & Ev & Hv').
    { clear Hs. assert (Hcs : Forall (fun x => IsInclude b (td_id x) = true -> forall v, shapeV n c x v -> exists v', setVectorSize hs m v = Ok v' /\ shapeV m c x v') cs).
      { rewrite Forall_forall in *. intros x Hx Hxi. apply IH; [exact Hx|eapply plain_child; eassumption|exact Hxi|eapply flagged_child; eassumption|exact Hm]. }
      clear - Hcs Hv. revert vs Hv. induction Hcs as [|x cs Hx _ IH]; intros vs Hv; cbn [each] in *; [subst; exists []; auto|]. destruct (IsInclude b (td_id x)); [|apply IH; exact Hv].
      destruct Hv as (v & l & -> & Hv & Hl). destruct (Hx eq_refl v Hv) as (v' & E & Hv'). destruct (IH l Hl) as (l' & El & Hl'). unfold ProjectP.sizeL in *. cbn [mapM]. rewrite E. cbn [rbind]. rewrite El. cbn [rbind]. exists (v' :: l'). split; [reflexivity|]. exists v', l'. auto. }
    destruct h.
    + destruct Hs as (x & y & -> & H1 & H2). destruct (reslice_some m x y ltac:(lia)) as (E & L & A). rewrite E. cbn [rbind]. rewrite Ev. cbn [rbind]. eexists. split; [reflexivity|].
      eexists _, vs'. split; [reflexivity|]. split; [|exact Hv']. eexists _, _. split; [reflexivity|]. split; [exact L|]. rewrite A. exact H2.
    + subst s. cbn [rbind]. rewrite Ev. cbn [rbind]. eexists. split; [reflexivity|]. exists None, vs'. auto.
  - rewrite shapeV_other in H by exact Hk. destruct H as (a & r & -> & H1 & H2 & H3). destruct (reslice_some m a r ltac:(lia)) as (E & L & A).
    pose proof (Hp _ (flatten_self _) Hi) as Hc. cbn [td_kind] in Hc.
    exists (BVec id k (Some (ztake m (a ++ r), zdrop m (a ++ r))) []). split; [destruct k; try contradiction; try congruence; cbn [setVectorSize]; rewrite E; reflexivity|].
    apply shapeV_other; [exact Hk|]. eexists _, _. split; [reflexivity|]. rewrite A. auto.
Qed.
Lemma shape_view n c t : 0 <= n -> forall v, shapeV n c t v -> shapeX b (Z.to_nat n) t (view v).
Proof.
  intros Hn. induction t as [id k ns e h cs IH] using td_rect'. intros v H. destruct (tkind_dec k) as [->|Hk].
  - destruct H as (s & vs & -> & Hs & Hv). cbn [view]. eexists _, _. split; [reflexivity|]. split.
    + destruct h; [destruct Hs as (x & y & -> & H1 & _); unfold zlen in H1; lia|subst; reflexivity].
    + eapply each_mono; [|exact Hv]. rewrite Forall_forall in *. auto.
  - rewrite shapeV_other in H by exact Hk. rewrite shapeX_other by exact Hk. destruct H as (a & r & -> & H1 & H2 & H3). cbn [view map]. exists a. split; [reflexivity|]. apply Forall_app in H3. unfold zlen in H1. split; [lia|apply H3].
Qed.
Lemma shape_put n c t : 0 <= n -> forall v x, shapeV n c t v -> shapeX b (Z.to_nat n) t x -> shapeV n c t (put v x).
Proof.
  intros Hn. induction t as [id k ns e h cs IH] using td_rect'. intros v x H Hx. destruct (tkind_dec k) as [->|Hk].
  - destruct H as (s & vs & -> & Hs & Hv). destruct Hx as (vals & xs & -> & Hl & Hxs). rewrite ProjectP.put_eq. eexists _, _. split; [reflexivity|]. split.
    + destruct h; [apply slice_put; [exact Hs|unfold zlen; lia]|subst; reflexivity].
    + clear - IH Hv Hxs. revert vs xs Hv Hxs. induction IH as [|y cs Hy _ IH]; intros vs xs Hv Hxs; cbn [each] in *; [subst; reflexivity|]. destruct (IsInclude b (td_id y)); [|apply IH; assumption].
      destruct Hv as (v & l & -> & Hv & Hl). destruct Hxs as (x & m & -> & Hx & Hm). exists (put v x), (ProjectP.putL l m). split; [reflexivity|]. auto.
  - rewrite shapeV_other in * by exact Hk. rewrite shapeX_other in Hx by exact Hk. destruct H as (a & r & -> & H1 & H2 & H3). destruct Hx as (vals & -> & Hl & Ht). cbn [put].
    assert (E : zlen vals = zlen a) by (unfold zlen in *; lia). exists vals, r. rewrite (putVals_same a r vals) by (unfold zlen in E; lia). split; [reflexivity|]. split; [congruence|].
    rewrite zlen_app in *. apply Forall_app in H3. split; [lia|]. apply Forall_app. split; [exact Ht|apply H3].
Qed.
Lemma create_in x : IsInclude b (td_id x) = true -> createVector b x <> Ok None.
Proof.
  destruct x as [i k ns e h cs]. cbn [td_id]. intros Ei H. rewrite createVector_eq, Ei in H. cbv zeta in H. destruct k; try discriminate H.
  - destruct cs as [|c ?]; [discriminate|]. apply rbind_inv in H. destruct H as (? & _ & H). discriminate H.
  - destruct cs as [|c [|d ?]]; try discriminate. apply rbind_inv in H. destruct H as (? & _ & H). apply rbind_inv in H. destruct H as (? & _ & H). discriminate H.
  - apply rbind_inv in H. destruct H as (? & _ & H). discriminate H.
Qed.
Lemma shape_create hs t : 0 < RowSize b -> NotCreateVector b = false -> plain t -> IsInclude b (td_id t) = true -> ProjectP.flagged hs t ->
  forall w, createVector b t = Ok (Some w) -> shapeV (RowSize b) (RowSize b) t (batchOf w).
Proof.
  intros Hpos Hn. induction t as [id k ns e h cs IH] using td_rect'. intros Hp Hi Hf w H. pose proof (Hp _ (flatten_self _) Hi) as Hc. cbn [td_kind td_id] in *.
  rewrite createVector_eq in H. rewrite Hi in H. destruct (tkind_dec k) as [->|Hk].
  - apply rbind_inv in H. destruct H as (vs & Ev & H). assert (w = Vec id STRUCT (if h && negb (NotCreateVector b) then RowSize b else 0) vs) as -> by congruence. rewrite batchOf_eq.
    eexists _, _. split; [reflexivity|]. split.
    + rewrite Hn. destruct h; cbn [andb negb]; [apply slice_new; exact Hpos|reflexivity].
    + assert (Hcs : Forall (fun x => IsInclude b (td_id x) = true -> forall w, createVector b x = Ok (Some w) -> shapeV (RowSize b) (RowSize b) x (batchOf w)) cs).
      { rewrite Forall_forall in *. intros x Hx Hxi. apply IH; [exact Hx|eapply plain_child; eassumption|exact Hxi|eapply flagged_child; eassumption]. }
      clear - Hcs Ev. revert vs Ev. induction Hcs as [|x cs Hx _ IH]; intros vs Ev; cbn [goV each] in *; [assert (vs = []) as -> by congruence; reflexivity|].
      apply rbind_inv in Ev. destruct Ev as (v & E1 & Ev). apply rbind_inv in Ev. destruct Ev as (vs1 & E2 & Ev). specialize (IH _ E2).
      destruct (IsInclude b (td_id x)) eqn:Ei.
      * destruct v as [v|]; [|exfalso; exact (create_in x Ei E1)].
        assert (vs = Some v :: vs1) as -> by congruence. exists (batchOf v), (unpack vs1). split; [reflexivity|]. split; [apply Hx; auto|exact IH].
      * assert (v = None) as -> by (destruct x as [i' k' ? ? ? ?]; cbn [td_id] in Ei; rewrite createVector_eq, Ei in E1; congruence). assert (vs = vs1) as -> by congruence. exact IH.
  - assert (w = Vec id k (RowSize b) []) as -> by (rewrite Hn in H; destruct k; try contradiction; congruence). rewrite batchOf_eq. apply shapeV_other; [exact Hk|].
    destruct (Z.eqb_spec (RowSize b) 0); [lia|]. exists (repeat (initialValue k) (Z.to_nat (RowSize b))), []. rewrite app_nil_r. unfold zlen. rewrite repeat_length. split; [reflexivity|]. split; [lia|]. split; [lia|].
    apply Forall_forall. intros v Hv. apply repeat_spec in Hv. subst v. destruct k; exact I.
Qed.
End Shape.

(** ** Stripes *)
Section Stripes.
Variable inflate : list Z -> res (list Z).
Variable o : opts.
Hypothesis Htame : tame inflate.
Hypothesis Hchunk : CompressionKind o = NONE -> 0 < ChunkSize o.
Variable b : batchOption.
Variable Q : anyR -> Prop.
Hypothesis Qcol : forall c vec, Q (RCol c) -> Forall (typed (cr_kind c)) vec -> fine (fun y => Q (RCol (snd y))) (NextBatch inflate o c vec).
Hypothesis Qdict : forall d vec, Q (RDict d) -> fine (fun y => Q (RDict (snd y))) (dict_NextBatch inflate o d vec).
Variable hs : list bool.
Variable schema : td.
Variable c : Z.
Hypothesis Hc : 0 < c.
Hypothesis Hflag : ProjectP.flagged hs schema.
Hypothesis Hplain : plain b schema.
Hypothesis Hflat : flatN b schema.
Hypothesis Hincl : IsInclude b (td_id schema) = true.
Definition okSt (s : stripeRd) : Prop := 0 <= sr_cursor s <= sr_rows s /\ sr_rows s < W63 /\ exists a, sr_tree s = Some a /\ calmT b Q schema a.
Lemma stripe_fine w s : shapeV b 0 c schema w -> okSt s ->
  fine (fun y => let '(s', w', e) := y in okSt s' /\ (exists n, shapeV b n c schema w') /\ (e = true \/ Cap w' <= Len w')) (stripeNext inflate o hs s w).
Proof.
  intros Hw (Hcur & Hr & a & Ea & Ha). pose proof (shape_uni b hs 0 c schema Hflag w Hw) as U.
  assert (HL : Len w = 0) by (apply quiet_Len; eapply uni_quiet; exact U).
  assert (HC : Cap w = c /\ leads hs w \/ Cap w = 0 /\ ~ leads hs w).
  { destruct (Z.eq_dec (Cap w) 0) as [E|E]; [right; split; [exact E|]; intros L; apply (uni_Cap _ _ _ _ U) in L; lia|]. left. pose proof (uni_leads _ _ _ _ U E) as L. split; [eapply uni_Cap; eassumption|exact L]. }
  unfold stripeNext. rewrite Ea, HL. cbv zeta. rewrite i64_u64, i64_id by (unfold is_i64; lia). set (page := if _ <? _ then _ else _).
  assert (Hpage : 0 <= page <= c /\ page <= sr_rows s - sr_cursor s /\ page <= Cap w /\ (page = Cap w \/ page = sr_rows s - sr_cursor s)) by (unfold page; destruct (_ <? _) eqn:E; lia). clearbody page.
  destruct (shape_size b hs 0 c page schema Hplain Hincl Hflag ltac:(lia) w Hw) as (w1 & E1 & H1). rewrite E1. cbn [rbind].
  eapply fine_bind; [exact (next_fine inflate o Htame Hchunk b Q Qcol Qdict (Z.to_nat page) schema Hflat Hincl a (view w1) Ha (shape_view b page c schema ltac:(lia) w1 H1))|].
  intros [x a'] [Hx Ha']. cbn [fst snd] in *. pose proof (shape_put b page c schema ltac:(lia) w1 x H1 Hx) as H2. pose proof (shape_uni b hs page c schema Hflag _ H2) as U2.
  assert (Hk : skel (put w1 x) = skel w) by (rewrite skel_put; eapply skel_size; exact E1).
  assert (HL2 : Len (put w1 x) = page /\ Cap (put w1 x) = Cap w).
  { destruct HC as [[C L]|[C L]].
    - assert (L2 : leads hs (put w1 x)) by (apply (leads_same hs w); [symmetry; exact Hk|exact L]). split; [eapply uni_Len; eassumption|]. rewrite C. eapply uni_Cap; eassumption.
    - assert (page = 0) as E0 by lia. rewrite E0 in U2. split; [rewrite E0; apply quiet_Len; eapply uni_quiet; exact U2|]. rewrite C. destruct (Z.eq_dec (Cap (put w1 x)) 0) as [E|E]; [exact E|]. exfalso. apply L. apply (leads_same hs (put w1 x)); [exact Hk|]. eapply uni_leads; eassumption. }
  destruct HL2 as [L2 C2]. cbn [fine]. rewrite L2, C2. rewrite (u64_id (sr_cursor s + page)) by (unfold is_u64; lia). rewrite u64_id by (unfold is_u64; lia).
  split; [split; [cbn [sr_cursor sr_rows]; lia|split; [exact Hr|exists a'; auto]]|]. split; [exists page; exact H2|]. lia.
Qed.
Definition okBr (x : batchRd) : Prop := Forall okSt (br_stripes x) /\ (br_index x < length (br_stripes x))%nat.
Lemma next_batch_fine n x w : shapeV b n c schema w -> okBr x ->
  fine (fun y => let '(x', w', e) := y in okBr x' /\ exists m, shapeV b m c schema w') (readNext inflate o hs x w).
Proof.
  intros Hw [Hs Hi]. apply shape_Clear in Hw. unfold readNext. cbv zeta. destruct (_ <=? _); [cbn; split; [split; assumption|eauto]|].
  cbn [readLoop]. destruct (nth_error (br_stripes x) (br_index x)) as [s|] eqn:En; [|apply nth_error_None in En; lia].
  assert (Hok : okSt s) by (rewrite Forall_forall in Hs; apply Hs; eapply nth_error_In; exact En).
  apply (fine_bind (fun y => let '(ss, i, w') := y in Forall okSt ss /\ length ss = length (br_stripes x) /\ (i <= length ss)%nat /\ exists m, shapeV b m c schema w')).
  - eapply fine_bind; [exact (stripe_fine _ _ Hw Hok)|]. intros [[s' w'] e] (Hs' & Hw' & He).
    assert (G : Forall okSt (set_nth (br_stripes x) (br_index x) s')).
    { clear - Hs Hs'. revert Hs. generalize (br_index x) as i. induction (br_stripes x) as [|q l IH]; intros i H; [destruct i; constructor|]. inversion H; subst. destruct i; cbn [set_nth]; constructor; auto. }
    destruct e; [cbn [fine]; rewrite EndP.set_nth_length; auto 10|]. destruct He as [He|He]; [discriminate|]. replace (Cap w' <=? Len w') with true by lia. cbn [fine]. rewrite EndP.set_nth_length. split; [exact G|]. split; [reflexivity|]. split; [lia|exact Hw'].
  - intros [[ss i] w'] (G & El & Hii & Hm). cbn [fine]. split; [|exact Hm]. split; [exact G|]. cbn [br_stripes br_index]. unfold stepBack. destruct (Nat.eqb_spec i (length ss)); [|lia]. destruct (length ss) eqn:E; lia.
Qed.
End Stripes.
(** ** Opening *)
Lemma typed_kind k e c : readerKind k e = Ok c -> forall v, typedT k v <-> typed c v.
Proof.
  unfold readerKind. intros H v. destruct k; repeat match type of H with context [if ?x then _ else _] => destruct x end; try discriminate H; match type of H with Ok ?z = _ => assert (c = z) as -> by congruence end; reflexivity.
Qed.
Lemma open_class inflate o file l : forall r r', openColumn inflate o file r l = Ok r' ->
  match r with RCol c => exists c', r' = RCol c' /\ cr_kind c' = cr_kind c | RDict _ => exists d', r' = RDict d' | _ => True end.
Proof.
  induction l as [|[s st] l IH]; intros r r' H; cbn [openColumn] in H; [assert (r' = r) as -> by congruence; destruct r; eauto|].
  apply rbind_inv in H. destruct H as (r1 & H1 & H). specialize (IH _ _ H). destruct r as [c|d| |]; try exact I.
  - assert (exists c1, r1 = RCol c1 /\ cr_kind c1 = cr_kind c) as (c1 & -> & K).
    { destruct (st_kind s =? 6); cbn [any_InitIndex any_InitStream] in H1; apply rbind_inv in H1; destruct H1 as (c1 & H1 & E1); assert (r1 = RCol c1) as -> by congruence; exists c1; (split; [reflexivity|]).
      - unfold InitIndex in H1. apply rbind_inv in H1. destruct H1 as (i & _ & H1). assert (c1 = setIndex i c) as -> by congruence. reflexivity.
      - eapply InitStream_kind. exact H1. }
    destruct IH as (c' & -> & K'). exists c'. split; [reflexivity|congruence].
  - destruct (st_kind s =? 6); cbn [any_InitIndex any_InitStream] in H1; apply rbind_inv in H1; destruct H1 as (d1 & H1 & E1); match type of E1 with Ok ?z = _ => assert (r1 = z) as -> by congruence end; exact IH.
Qed.
Section Opening.
Variable inflate : list Z -> res (list Z).
Variable o : opts.
Variable b : batchOption.
Variable Q : anyR -> Prop.
Lemma initAll_alone file l : forall rs rs' i r0, initAll inflate o file rs l = Ok rs' -> nth_error rs i = Some (Some r0) ->
  exists r', nth_error rs' i = Some (Some r') /\ openColumn inflate o file r0 (filter (fun p => Nat.eqb (Z.to_nat (st_column (fst p))) i) l) = Ok r'.
Proof.
  induction l as [|[s st] l IH]; intros rs rs' i r0 H Hi; cbn [initAll filter openColumn fst] in *; [assert (rs' = rs) as -> by congruence; exists r0; auto|].
  destruct (nth_error rs (Z.to_nat (st_column s))) as [[r|]|] eqn:En; try discriminate.
  - apply rbind_inv in H. destruct H as (r1 & H1 & H). destruct (Nat.eqb_spec (Z.to_nat (st_column s)) i) as [E|E].
    + subst i. assert (r0 = r) as -> by congruence. cbn [openColumn]. rewrite H1. cbn [rbind]. apply (IH _ _ _ _ H). apply OpenTreeP.set_nth_same. apply nth_error_Some. congruence.
    + apply (IH _ _ _ _ H). rewrite OpenTreeP.set_nth_other; assumption.
  - destruct (Nat.eqb_spec (Z.to_nat (st_column s)) i) as [E|E]; [subst i; congruence|]. exact (IH _ _ _ _ H Hi).
Qed.
Lemma newReaders_alone ns : forall i hs encs rs j r, newReaders b i ns hs encs = Ok rs -> nth_error rs j = Some (Some r) ->
  exists n h e, nth_error ns j = Some n /\ nth_error hs j = Some h /\ nth_error encs j = Some e /\ newAnyR (n_kind n) e h = Ok r.
Proof.
  induction ns as [|n ns IH]; intros i [|h hs] encs rs j r H Hj; cbn [newReaders] in H; try (assert (rs = []) as -> by congruence; destruct j; discriminate).
  apply rbind_inv in H. destruct H as (r0 & H0 & H). apply rbind_inv in H. destruct H as (rs1 & H1 & H). assert (rs = r0 :: rs1) as -> by congruence. destruct j as [|j]; cbn [nth_error] in *.
  - assert (r0 = Some r) as -> by congruence. destruct (IsInclude b i); [|discriminate]. destruct encs as [|e encs]; [discriminate|]. apply rbind_inv in H0. destruct H0 as (x & H0 & E). assert (x = r) as -> by congruence. exists n, h, e. auto.
  - destruct (IH _ _ _ _ _ _ H1 Hj) as (n' & h' & e' & A1 & A2 & A3 & A4). exists n', h', e'. destruct encs; [destruct j; discriminate|]. auto.
Qed.
Variable nodes : list node.
Variable hs : list bool.
Variable file : list Z.
Hypothesis Hfile : bytes file.
Lemma build_calm f rs rs' : lengths_ok (snd f) -> newReaders b 0 nodes hs (fst f) = Ok rs -> initAll inflate o file rs (snd f) = Ok rs' ->
  (forall x, nth_error rs x = None \/ nth_error rs x = Some None -> nth_error rs' x = None \/ nth_error rs' x = Some None) ->
  forall t, nodesOf nodes t -> ProjectP.flagged hs t -> plain b t -> IsInclude b (td_id t) = true ->
  (forall x c, In x (flatten t) -> IsInclude b (td_id x) = true -> td_kind x <> STRUCT -> column_alone inflate o file f x c -> Q c) ->
  forall fuel a, buildTree nodes b fuel rs' (td_id t) = Ok a -> calmT b Q t a.
Proof.
  intros Hlen Hnew Hinit Hnone. induction t as [id k ns e h cs IH] using td_rect'. intros Hn Hf Hp Hi Hcol fuel a H. destruct fuel as [|fuel]; [discriminate|]. rewrite buildTree_eq in H.
  destruct (Hn _ (flatten_self _)) as (Hid & n & En & Ekn & Esub). pose proof (Hf _ (flatten_self _)) as Eh. cbn [td_id td_kind td_children td_hasNulls] in *. rewrite En in H.
  destruct (nth_error rs' (Z.to_nat id)) as [[r|]|] eqn:Er; try discriminate H.
  assert (exists r0, nth_error rs (Z.to_nat id) = Some (Some r0)) as (r0 & Er0).
  { destruct (nth_error rs (Z.to_nat id)) as [[r0|]|] eqn:E0; [eauto|..]; exfalso; destruct (Hnone (Z.to_nat id) ltac:(auto)); congruence. }
  destruct (newReaders_alone _ _ _ _ _ _ _ Hnew Er0) as (n' & h' & e' & A1 & A2 & A3 & A4). assert (n' = n) as -> by congruence. assert (h' = h) as -> by congruence. rewrite Ekn in A4.
  destruct (initAll_alone _ _ _ _ _ _ Hinit Er0) as (r' & Er' & Ho). assert (r' = r) as -> by congruence.
  pose proof (Hp _ (flatten_self _) Hi) as Hck. cbn [td_kind] in Hck.
  destruct (tkind_dec k) as [->|Hk].
  - unfold newAnyR, readerKind in A4. destruct (e' =? 0); [|discriminate A4]. cbn [rbind] in A4. assert (r0 = RCol (newColR KStruct h)) as -> by congruence.
    assert (Hown : lengths_ok (own id (snd f))) by (unfold lengths_ok, own in *; rewrite Forall_forall in *; intros x Hx; apply filter_In in Hx; apply Hlen; apply Hx).
    assert (Hs0 : okS (newColR KStruct h)) by (split; [reflexivity|split; [exact I|intros X; exfalso; apply X; reflexivity]]).
    destruct (open_struct inflate o file _ Hfile _ r Hown Hs0 Ho) as (c' & -> & (K & P & N) & Nh).
    rewrite K in H. apply rbind_inv in H. destruct H as (kids & Ek & H). assert (a = CStruct (cr_present c') (cr_index c') kids) as -> by congruence.
    exists (cr_present c'), (cr_index c'), kids. split; [reflexivity|]. split; [exact P|]. split; [intros X; rewrite <- (N X); rewrite Nh; reflexivity|].
    assert (Hcs : Forall (fun x => IsInclude b (td_id x) = true -> forall a, buildTree nodes b fuel rs' (td_id x) = Ok a -> calmT b Q x a) cs).
    { rewrite Forall_forall in *. intros x Hx Hxi a Ha. apply (IH x Hx) with (fuel := fuel); [eapply nodesOf_child; eassumption|eapply flagged_child; eassumption|eapply plain_child; eassumption|exact Hxi| |exact Ha].
      intros y c Hy. apply Hcol. rewrite flatten_eq. right. apply in_flat_map. eauto. }
    rewrite Esub in Ek. clear - Hcs Ek. revert kids Ek. induction Hcs as [|x cs Hx _ IH]; intros kids Ek; cbn [map goT each] in *; [assert (kids = []) as -> by congruence; reflexivity|].
    destruct (IsInclude b (td_id x)); [|apply IH; exact Ek]. apply rbind_inv in Ek. destruct Ek as (y & E1 & Ek). apply rbind_inv in Ek. destruct Ek as (ys & E2 & Ek). assert (kids = y :: ys) as -> by congruence. exists y, ys. auto.
  - assert (Hcalm : Q r) by (apply (Hcol _ r (flatten_self _) Hi Hk); exists e', r0; auto).
    rewrite calmT_other by exact Hk.
    assert (A5 : exists c, readerKind k e' = Ok c /\ r0 = match c with KDict => RDict (newDictR h) | _ => RCol (newColR c h) end).
    { unfold newAnyR in A4. destruct k; try contradiction; apply rbind_inv in A4; destruct A4 as (c & A4 & A5); exists c; (split; [exact A4|congruence]). }
    destruct A5 as (c & A5 & E0). pose proof (typed_kind _ _ _ A5) as Ht. pose proof (class_new _ _ _ _ A4) as Hcl. pose proof (open_class _ _ _ _ _ _ Ho) as Hoc. destruct r0 as [c0|d0| |].
    + destruct Hoc as (c' & -> & K). assert (c0 = newColR c h) as -> by (destruct c; congruence). cbn [newColR cr_kind] in K.
      assert (a = CLeaf c') as -> by (rewrite K in H; destruct c; try congruence; exfalso; destruct k; try contradiction; try congruence; exact (Hcl eq_refl)).
      split; [exact Hcalm|]. rewrite K. split; intros v Hv; apply Ht; exact Hv.
    + destruct Hoc as (d' & ->). assert (a = CDict d') as -> by congruence. split; [exact Hcalm|]. assert (c = KDict) as -> by (destruct c; congruence).
      split; intros ->; unfold readerKind in A5; destruct (e' =? 2); discriminate A5.
    + destruct c; discriminate E0.
    + destruct c; discriminate E0.
Qed.
Lemma initAll_none l : forall rs rs', initAll inflate o file rs l = Ok rs' -> forall x, nth_error rs x = None \/ nth_error rs x = Some None -> nth_error rs' x = None \/ nth_error rs' x = Some None.
Proof.
  induction l as [|[s st] l IH]; intros rs rs' H x Hx; cbn [initAll] in H; [assert (rs' = rs) as -> by congruence; exact Hx|].
  destruct (nth_error rs (Z.to_nat (st_column s))) as [[r|]|] eqn:En; [|exact (IH _ _ H _ Hx)|discriminate]. apply rbind_inv in H. destruct H as (r1 & _ & H). apply (IH _ _ H).
  destruct (Nat.eq_dec (Z.to_nat (st_column s)) x) as [E|E]; [subst x; destruct Hx; congruence|]. rewrite OpenTreeP.set_nth_other by assumption. exact Hx.
Qed.
End Opening.

Lemma stripes_calm inflate o b (Q : anyR -> Prop) nodes hs file schema : bytes file -> td_id schema = 0 -> nodesOf nodes schema -> ProjectP.flagged hs schema -> plain b schema -> rooted b nodes ->
  forall l xs ss, length xs = length l -> Forall (fun i => 0 <= NumberOfRows i < W63) l -> Forall (fun f => lengths_ok (snd f)) xs ->
  (forall f x c, In f xs -> In x (flatten schema) -> IsInclude b (td_id x) = true -> td_kind x <> STRUCT -> column_alone inflate o file f x c -> Q c) ->
  newStripes inflate o nodes hs b file l xs = Ok ss -> Forall (okSt b Q schema) ss /\ length ss = length l.
Proof.
  intros Hfile Hid Hn Hf Hp Hroot. assert (Hi : IsInclude b (td_id schema) = true) by (rewrite Hid; apply Hroot).
  induction l as [|i l IH]; intros [|f xs] ss Hl Hrows Hlen Hcol H; cbn [newStripes length] in *; try discriminate; [assert (ss = []) as -> by congruence; split; [constructor|reflexivity]|].
  inversion Hrows as [|? ? Hr Hrs]; subst. inversion Hlen as [|? ? Hf0 Hfs]; subst. apply rbind_inv in H. destruct H as (s & E1 & H). apply rbind_inv in H. destruct H as (r & E2 & H). assert (ss = s :: r) as -> by congruence.
  destruct (IH xs r ltac:(congruence) Hrs Hfs ltac:(intros; eapply Hcol; [right; eassumption|..]; eassumption) E2) as [I1 I2].
  split; [constructor; [|exact I1]|cbn [length]; congruence]. unfold newStripeRd in E1. apply rbind_inv in E1. destruct E1 as (rs & F1 & E1). apply rbind_inv in E1. destruct E1 as (rs' & F2 & E1).
  apply rbind_inv in E1. destruct E1 as (u & _ & E1). apply rbind_inv in E1. destruct E1 as (t & F3 & E1). assert (s = {| sr_rows := NumberOfRows i; sr_cursor := 0; sr_tree := t |}) as -> by congruence.
  destruct (Hn _ (flatten_self _)) as (_ & n & En & _). rewrite Hid in En. pose proof (Hf _ (flatten_self _)) as Eh. rewrite Hid in Eh. cbn in En, Eh.
  destruct nodes as [|n0 nodes']; [discriminate|]. destruct hs as [|h0 hs']; [discriminate|].
  destruct (first_new b n0 nodes' h0 hs' _ rs (proj1 Hroot) F1) as (r0 & Er0). destruct (first_init inflate o file _ _ _ _ Er0 F2) as (r1 & Er1). rewrite (firstReader_0 _ _ 0 Er1) in F3. apply rbind_inv in F3. destruct F3 as (a & F3 & Ea).
  split; [cbn; lia|]. split; [cbn; lia|]. exists a. split; [cbn; congruence|]. rewrite <- Hid in F3.
  refine (build_calm inflate o b Q (n0 :: nodes') (h0 :: hs') file Hfile f rs rs' Hf0 F1 F2 (initAll_none inflate o file _ _ _ F2) schema Hn Hf Hp Hi _ _ _ F3).
  intros x c. apply Hcol. left. reflexivity.
Qed.
Lemma open_chunk inflate b file r x : openBatches inflate b file = Ok (r, x) -> fr_kind r = NONE -> 0 < fr_chunkSize r.
Proof.
  intros H Hk. apply openBatches_ok in H. apply rbind_inv in H. destruct H as (r' & E & H). apply rbind_inv in H. destruct H as (xs & _ & H). apply rbind_inv in H. destruct H as (ss & _ & H). assert (r' = r) as -> by congruence. clear H.
  unfold newFileReader in E. apply rbind_inv in E. destruct E as ([[ps f]|] & _ & E); [|discriminate]. destruct (f_rows f =? 0); [discriminate|]. apply rbind_inv in E. destruct E as (ns & _ & E). destruct (_ <? _)%nat; [discriminate|].
  match type of E with Ok ?z = _ => assert (r = z) as -> by congruence end. cbn [fr_kind fr_chunkSize] in *. rewrite Hk. reflexivity.
Qed.
(** A batch reader just made, and its first batch. *)
Lemma opened_calm inflate b file schema r x w (Q : anyR -> Prop) : reading inflate b file schema r x w -> bytes file ->
  fr_stripes r <> [] -> not_nested b schema ->
  (forall fs, stripe_footers inflate b file r fs -> Forall (fun f => lengths_ok (snd f)) fs /\
    forall f y c, In f fs -> In y (flatten schema) -> IsInclude b (td_id y) = true -> td_kind y <> STRUCT -> column_alone inflate (readerOpts r) file f y c -> Q c) ->
  (fr_kind r = NONE -> 0 < fr_chunkSize r) /\ 0 < RowSize b /\ ProjectP.flagged (fr_hasNulls r) schema /\ IsInclude b (td_id schema) = true /\
  shapeV b (RowSize b) (RowSize b) schema (batchOf w) /\ okBr b Q schema x.
Proof.
  intros [[Hid Hu] Hroot Hn2 Hpos (Hrow & Hsum & HT) Hopen Hvec] Hfile Hne Hnest Hcols. pose proof (open_chunk _ _ _ _ _ Hopen) as Hch.
  assert (Hnodes : nodesOf (fr_nodes r) schema) by (intros t Htt; destruct (Hu t Htt) as (H0 & Hn & _); auto).
  assert (Hflag : ProjectP.flagged (fr_hasNulls r) schema) by (intros t Htt; apply Hu; exact Htt).
  assert (Hi : IsInclude b (td_id schema) = true) by (rewrite Hid; apply Hroot).
  apply openBatches_ok in Hopen. apply rbind_inv in Hopen. destruct Hopen as (r' & E1 & Hopen). apply rbind_inv in Hopen. destruct Hopen as (xs & E2 & Hopen).
  apply rbind_inv in Hopen. destruct Hopen as (ss & E3 & Hopen). assert (r' = r) as -> by congruence.
  assert (x = {| br_stripes := ss; br_index := 0; br_total := fr_rows r; br_cursor := 0 |}) as -> by congruence. clear Hopen.
  destruct (Hcols _ E2) as [Hlen Hcol].
  assert (Hrow1 : Forall (fun n => 0 <= n) (map NumberOfRows (fr_stripes r))) by (rewrite Forall_map; exact Hrow).
  destruct (sum_bounds _ Hrow1) as [_ Hrow2]. rewrite Forall_map in Hrow2.
  assert (Hrows : Forall (fun i => 0 <= NumberOfRows i < W63) (fr_stripes r)) by (eapply Forall_impl; [|exact Hrow2]; cbn; intros; change (2 ^ 63) with 9223372036854775808 in *; lia).
  unfold CreateBatchReader in E2. destruct (RowSize b =? 0) eqn:Ers; [discriminate|].
  destruct (stripes_calm inflate (readerOpts r) b Q (fr_nodes r) (fr_hasNulls r) file schema Hfile Hid Hnodes Hflag Hnest Hroot _ _ _ (eq_sym (OpenCloseP.initStripes_len _ _ _ _ _ _ E2)) Hrows Hlen Hcol E3) as [Hok Hl].
  unfold CreateVector in Hvec. rewrite Ers in Hvec. destruct (verifySchema schema); [|discriminate].
  split; [exact Hch|]. split; [exact Hpos|]. split; [exact Hflag|]. split; [exact Hi|]. split; [exact (shape_create b (fr_hasNulls r) schema Hpos Hn2 Hnest Hi Hflag w Hvec)|].
  split; [exact Hok|]. cbn [br_index br_stripes]. rewrite Hl. destruct (fr_stripes r); [congruence|cbn; lia].
Qed.
Lemma calm_col inflate o c vec : calm inflate o (RCol c) -> Forall (typed (cr_kind c)) vec -> fine (fun y => calm inflate o (RCol (snd y))) (NextBatch inflate o c vec).
Proof. intros Hc Hv. destruct (NextBatch inflate o c vec) as [[v' c']| |] eqn:E; [exact (calm_next inflate o c vec v' c' Hc Hv E)|exact I|exact (Hc vec Hv E)]. Qed.
Lemma calm_dct inflate o d vec : calm inflate o (RDict d) -> fine (fun y => calm inflate o (RDict (snd y))) (dict_NextBatch inflate o d vec).
Proof. intros Hc. destruct (dict_NextBatch inflate o d vec) as [[v' c']| |] eqn:E; [exact (calm_dict inflate o d vec v' c' Hc E)|exact I|exact (Hc vec E)]. Qed.
Lemma crash inflate b file schema r x w n : reading inflate b file schema r x w -> tame inflate -> bytes file ->
  fr_stripes r <> [] -> not_nested b schema -> flat_nulls b schema ->
  (forall fs, stripe_footers inflate b file r fs -> Forall (fun f => lengths_ok (snd f)) fs /\
    forall f y c, In f fs -> In y (flatten schema) -> IsInclude b (td_id y) = true -> td_kind y <> STRUCT -> column_alone inflate (readerOpts r) file f y c -> calm inflate (readerOpts r) c) ->
  calls inflate r x (batchOf w) (repeat CNext n) <> Panic.
Proof.
  intros H Ht Hfile Hne Hnest Hflat Hcols.
  destruct (opened_calm inflate b file schema r x w (calm inflate (readerOpts r)) H Hfile Hne Hnest Hcols) as (Hch & Hc & Hf & Hi & Hw & Hx).
  clear - Ht Hch Hc Hf Hi Hw Hx Hnest Hflat. revert Hw Hx. generalize (RowSize b) at 1 as m. generalize (batchOf w) as v. revert x.
  induction n as [|k IH]; intros x v m Hw Hx; cbn [repeat calls]; [discriminate|].
  pose proof (next_batch_fine inflate (readerOpts r) Ht Hch b _ (calm_col inflate _) (calm_dct inflate _) (fr_hasNulls r) schema _ Hc Hf Hnest Hflat Hi m x v Hw Hx) as F. unfold batchNext. destruct (readNext _ _ _ x v) as [[[x' w'] e]| |]; cbn [fine rbind] in *; [|discriminate|contradiction].
  destruct F as (Hx' & m' & Hw'). specialize (IH x' w' m' Hw' Hx'). destruct (calls inflate r x' w' (repeat CNext k)); cbn [rbind]; congruence.
Qed.

Lemma crash_sturdy inflate b file schema r x w n : reading inflate b file schema r x w -> tame inflate -> bytes file ->
  fr_stripes r <> [] -> flat_nulls b schema ->
  (forall y, In y (flatten schema) -> IsInclude b (td_id y) = true -> sturdyT (td_kind y) = true) ->
  (forall fs f, stripe_footers inflate b file r fs -> In f fs -> lengths_ok (snd f) /\
    forall y, In y (flatten schema) -> IsInclude b (td_id y) = true -> td_kind y <> STRUCT -> has_stream sDATA (own (td_id y) (snd f))) ->
  calls inflate r x (batchOf w) (repeat CNext n) <> Panic.
Proof.
  intros H Ht Hf Hne Hflat Hst Hfs. pose proof (open_chunk _ _ _ _ _ (rd_open _ _ _ _ _ _ _ H)) as Hch. apply (crash inflate b file schema r x w n H Ht Hf Hne); [|exact Hflat|].
  - intros y Hy Hi. specialize (Hst y Hy Hi). destruct (td_kind y); try discriminate Hst; exact I.
  - intros fs E. split; [apply Forall_forall; intros f Hin; apply (Hfs fs f E Hin)|]. intros f y c Hin Hy Hi Hk (e & r0 & A1 & A2 & A3).
    destruct (Hfs fs f E Hin) as [Hl Hd]. specialize (Hst y Hy Hi). specialize (Hd y Hy Hi Hk).
    assert (Hown : lengths_ok (own (td_id y) (snd f))) by (unfold lengths_ok, own in *; rewrite Forall_forall in *; intros z Hz; apply filter_In in Hz; apply Hl; apply Hz).
    assert (exists k, r0 = RCol (newColR k (td_hasNulls y)) /\ sturdy k = true) as (k & -> & Hk').
    { unfold newAnyR, readerKind in A2. destruct (td_kind y); try discriminate Hst; try congruence; (destruct (e =? 0); [|discriminate A2]); cbn [rbind] in A2; match type of A2 with Ok (RCol (newColR ?z _)) = _ => exists z end; (split; [congruence|reflexivity]). }
    eapply sturdy_calm; try eassumption.
Qed.
