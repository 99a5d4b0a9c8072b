(** Which contents of whole streams crash a column of integers beside a PRESENT stream. *)
From Coq Require Import ZifyBool ZifyNat.
From Verif.Model Require Import Go Codec ByteBool IntRle Chunk Stream Schema Rows Time File Column Wire Nested Tree Assembled.
From Verif.Spec Require Import Bits ChunkSpec StreamSpec OrcInt OrcColumn PatchSpec RowsSpec EndSpec ProjectSpec ProgressSpec CrashSpec CauseSpec.
From Verif.Proofs Require Import Base ByteBoolP ChunkP StreamP ReadP OrcIntP PatchPanicP StripeNpP CrashP CauseP CauseIffP.

Lemma bit_same b k : (Z.land (Z.shiftr b k) 1 =? 1) = Z.testbit b k.
Proof.
  rewrite Z.testbit_odd. generalize (Z.shiftr b k) as x. intros x. change 1 with (Z.ones 1) at 1. rewrite Z.land_ones by lia. change (2 ^ 1) with 2. rewrite Zmod_odd. destruct (Z.odd x); reflexivity.
Qed.
Lemma bits_same b : DecodeBoolsFromByte b = bitsN 8 b.
Proof. unfold DecodeBoolsFromByte. cbn [map]. rewrite !bit_same. reflexivity. Qed.
Lemma rows_same ys : rows_present ys = length (filter (fun b => b) (flat_map DecodeBoolsFromByte ys)).
Proof. unfold rows_present. do 2 f_equal. apply flat_map_ext. intros y. symmetry. apply bits_same. Qed.
(** A run of bytes, forwards and backwards. *)
Lemma byte_run_repeat c v t : 0 <= c < 128 -> run DecodeByteRL ([c; v] ++ t) = Ok (repeat v (Z.to_nat (c + 3)), t).
Proof.
  intros H. unfold DecodeByteRL. cbn [app]. rewrite run_byte. destruct (Z.ltb_spec c 128); [|lia]. rewrite run_byte, run_ret. do 3 f_equal. unfold MinRepeats. lia.
Qed.
Lemma byte_run_literal l t : 1 <= zlen l <= 128 -> run DecodeByteRL (((256 - zlen l) :: l) ++ t) = Ok (l, t).
Proof.
  intros H. unfold DecodeByteRL. cbn [app]. rewrite run_byte. destruct (Z.ltb_spec (256 - zlen l) 128); [lia|]. apply run_read_n. unfold zlen. lia.
Qed.
Lemma read_n_all n : forall i vs r, run (read_n n) i = Ok (vs, r) -> i = vs ++ r.
Proof.
  induction n as [|n IH]; intros i vs r H; cbn [read_n] in H.
  - rewrite run_ret in H. injection H as <- <-. reflexivity.
  - destruct i as [|b i]; [discriminate|]. rewrite run_byte, run_bind in H. apply rbind_inv in H. destruct H as ([l i1] & E & H). rewrite run_ret in H. injection H as <- <-. cbn [app]. f_equal. apply IH. exact E.
Qed.
Lemma byte_run_inv p ys i vs r : bytes i -> ByteRuns p ys -> run DecodeByteRL i = Ok (vs, r) -> exists c, i = c ++ r /\ ByteRuns (p ++ c) (ys ++ vs) /\ vs <> [].
Proof.
  intros Hb HB H. pose proof (ByteRL_nonempty i vs r Hb H) as N. destruct i as [|h i]; [discriminate|]. inversion Hb as [|? ? Hh Hbi]; subst. unfold is_u8 in Hh.
  unfold DecodeByteRL in H. rewrite run_byte in H. destruct (Z.ltb_spec h 128).
  - destruct i as [|v i]; [discriminate|]. rewrite run_byte, run_ret in H. assert (r = i) as -> by congruence. exists [h; v]. split; [reflexivity|]. split; [|exact N].
    assert (vs = repeat v (Z.to_nat (h + 3))) as -> by (transitivity (repeat v (Z.to_nat h + MinRepeats)); [congruence|f_equal; unfold MinRepeats; lia]). apply B_repeat; [exact HB|lia].
  - cbv zeta in H. pose proof (run_read_n_length _ _ _ _ H) as L. pose proof (read_n_all _ _ _ _ H) as E. exists (h :: vs). subst i. split; [reflexivity|]. split; [|exact N].
    replace h with (256 - zlen vs) by (unfold zlen; lia). apply B_literal; [exact HB|unfold zlen; lia].
Qed.
Lemma byte_calm i : bytes i -> run DecodeByteRL i <> Panic.
Proof.
  intros Hb H. destruct i as [|h i]; [discriminate|]. unfold DecodeByteRL in H. rewrite run_byte in H. destruct (h <? 128).
  - destruct i as [|v i]; [discriminate|]. rewrite run_byte, run_ret in H. discriminate.
  - cbv zeta in H. revert H. clear Hb. generalize (Z.to_nat (- (h - 256))). intros n. revert i. induction n as [|n IH]; intros i H; cbn [read_n] in H; [rewrite run_ret in H; discriminate|].
    destruct i as [|b i]; [discriminate|]. rewrite run_byte, run_bind in H. specialize (IH i). destruct (run (read_n n) i) as [[l t]| |]; cbn [rbind] in H; [rewrite run_ret in H; discriminate|discriminate|apply IH; reflexivity].
Qed.

Section Present.
Variable inflate : list Z -> res (list Z).
Variable o : opts.
Hypothesis Ho : supported o.
Variable file : list Z.
Section At.
Variable start len : Z.
Hypothesis Hlen : 0 <= len < W64.
Notation R := (Rep inflate o file start len).
Fixpoint passes (ys : list Z) (v v' : vreader Z) : Prop :=
  match ys with [] => v = v' | y :: t => exists w, v_Next inflate o DecodeByteRL v = Ok (y, w) /\ passes t w v' end.
Lemma passes_app xs : forall ys v w u, passes xs v w -> passes ys w u -> passes (xs ++ ys) v u.
Proof. induction xs as [|x xs IH]; intros ys v w u H1 H2; cbn [app passes] in *; [subst w; exact H2|]. destruct H1 as (z & E & H1). exists z. split; [exact E|]. eapply IH; eassumption. Qed.
Lemma passes_pops t : forall s, passes t {| v_s := s; v_vals := t |} {| v_s := s; v_vals := [] |}.
Proof. induction t as [|x t IH]; intros s; [reflexivity|]. cbn [passes]. exists {| v_s := s; v_vals := t |}. split; [reflexivity|apply IH]. Qed.
Lemma passes_yields ys : forall v v', passes ys v v' -> Yields (v_Next inflate o DecodeByteRL) v ys.
Proof. induction ys as [|y ys IH]; intros v v' H; [constructor|]. destruct H as (w & E & H). econstructor; [exact E|]. eapply IH. exact H. Qed.
Lemma pass_one vs v c rest : vs <> [] -> v_vals v = [] -> R (v_s v) (c ++ rest) -> run DecodeByteRL (c ++ rest) = Ok (vs, rest) -> exists v', passes vs v v' /\ v_vals v' = [] /\ R (v_s v') rest.
Proof.
  intros N Hv HR Hr. pose proof (sim inflate o Ho file start len Hlen DecodeByteRL _ _ HR) as S. rewrite Hr in S. destruct S as (s & E & Rs). destruct vs as [|x xs]; [congruence|].
  exists {| v_s := s; v_vals := [] |}. split; [|split; [reflexivity|exact Rs]]. cbn [passes]. exists {| v_s := s; v_vals := xs |}. split; [|apply passes_pops]. unfold v_Next. rewrite Hv, E. reflexivity.
Qed.
Lemma pass p ys : ByteRuns p ys -> forall v rest, v_vals v = [] -> R (v_s v) (p ++ rest) -> exists v', passes ys v v' /\ v_vals v' = [] /\ R (v_s v') rest.
Proof.
  induction 1 as [|bs ys c x _ IH Hc|bs ys l _ IH Hl]; intros v rest Hv HR; [exists v; split; [reflexivity|]; auto| |]; rewrite <- app_assoc in HR; destruct (IH v _ Hv HR) as (v1 & P1 & Hv1 & R1).
  - destruct (pass_one (repeat x (Z.to_nat (c + 3))) v1 [c; x] rest) as (v2 & P2 & Hv2 & R2); [|exact Hv1|exact R1|apply byte_run_repeat; exact Hc|].
    { replace (Z.to_nat (c + 3)) with (S (Z.to_nat (c + 2))) by lia. discriminate. }
    exists v2. split; [eapply passes_app; eassumption|auto].
  - destruct (pass_one l v1 ((256 - zlen l) :: l) rest) as (v2 & P2 & Hv2 & R2); [|exact Hv1|exact R1|apply byte_run_literal; exact Hl|].
    { intros ->. unfold zlen in Hl. cbn in Hl. lia. }
    exists v2. split; [eapply passes_app; eassumption|auto].
Qed.
Notation trues l := (length (filter (fun b : bool => b) l)).
Lemma present_crash bits : forall n c b v v', whole_int (cr_kind c) -> cr_present c = Some b -> cr_data c = Some (RRun v) -> Yields (bool_Next inflate o) b bits ->
  (n < trues bits)%nat -> v_skip inflate o DecodeInt n v = Ok v' -> v_Next inflate o DecodeInt v' = Panic -> NextBatch inflate o c (repeat blank (length bits)) = Panic.
Proof.
  induction bits as [|x bits IH]; intros n c b v v' Hk Hp Hd Hy Hn Hs Hv; [cbn in Hn; lia|]. inversion Hy as [|? ? b' ? En Hy']; subst. cbn [length repeat NextBatch]. unfold nextRow, nextPresent. rewrite Hp, En. cbn [rbind]. destruct x; cbn [negb].
  - destruct n as [|n].
    + assert (v' = v) as -> by (cbn in Hs; congruence). unfold nextValue. cbn [setPresent cr_kind cr_data]. destruct Hk as [E|[E|[E|E]]]; rewrite E; unfold nextRun; rewrite Hd, Hv; reflexivity.
    + cbn [v_skip] in Hs. apply rbind_inv in Hs. destruct Hs as ((y & v1) & E1 & Hs). cbn [filter length] in Hn. assert (Hn' : (n < trues bits)%nat) by lia.
      pose proof (IH n (setData (RRun v1) (setPresent b' c)) b' v1 v' Hk eq_refl eq_refl Hy' Hn' Hs Hv) as X.
      unfold nextValue. cbn [setPresent cr_kind cr_data]. destruct Hk as [E|[E|[E|E]]]; rewrite E; unfold nextRun; rewrite Hd, E1; cbn [rbind]; rewrite X; reflexivity.
  - cbn [filter] in Hn. cbn [rbind]. rewrite (IH n (setPresent b' c) b' v v' Hk eq_refl Hd Hy' Hn Hs Hv). reflexivity.
Qed.
(** [n] rows with values are behind. *)
Definition passed (pb : list Z) (n : nat) (b : boolReader) : Prop :=
  exists p ys rest done, pb = p ++ rest /\ ByteRuns p ys /\ flat_map DecodeBoolsFromByte ys = done ++ bl_vals b ++ flat_map DecodeBoolsFromByte (v_vals (bl_r b)) /\
    trues done = n /\ R (v_s (bl_r b)) rest.
Lemma trues_snoc l x : trues (l ++ [x]) = (trues l + (if x then 1 else 0))%nat.
Proof. rewrite filter_app, app_length. destruct x; reflexivity. Qed.
Lemma passed_next pb n b : bytes pb -> passed pb n b -> fine (fun xb : bool * boolReader => passed pb (n + (if fst xb then 1 else 0))%nat (snd xb)) (bool_Next inflate o b).
Proof.
  intros Hb (p & ys & rest & done & E & HB & F & T & HR). unfold bool_Next. destruct (bl_vals b) as [|x t] eqn:Eb.
  2: { cbn. exists p, ys, rest, (done ++ [x]). rewrite trues_snoc, T, F, <- app_assoc. auto. }
  cbn [app] in F. unfold v_Next. destruct (v_vals (bl_r b)) as [|y t] eqn:Ev.
  - assert (Hbr : bytes rest) by (subst pb; apply Forall_app in Hb; apply Hb). pose proof (sim inflate o Ho file start len Hlen DecodeByteRL _ _ HR) as S. destruct (run DecodeByteRL rest) as [[vs r]| |] eqn:Er.
    + destruct S as (s & -> & Rs). destruct (byte_run_inv p ys rest vs r Hbr HB Er) as (c & -> & HB' & N). cbn [rbind]. destruct vs as [|y vs]; [congruence|]. cbn [rbind].
      destruct (DecodeBoolsFromByte y) as [|x t] eqn:Ed; [pose proof (length_bitsof y) as L; rewrite Ed in L; discriminate L|]. cbn [fine fst snd]. exists (p ++ c), (ys ++ y :: vs), r, (done ++ [x]).
      split; [rewrite <- app_assoc; exact E|]. split; [exact HB'|]. split; [|split; [rewrite trues_snoc, T; reflexivity|exact Rs]].
      cbn [bl_vals bl_r v_vals]. rewrite flat_map_app, F. cbn [flat_map]. rewrite Ed, app_nil_r, <- app_assoc. reflexivity.
    + rewrite S. exact I.
    + exfalso. exact (byte_calm rest Hbr Er).
  - cbn [rbind]. destruct (DecodeBoolsFromByte y) as [|x u] eqn:Ed; [pose proof (length_bitsof y) as L; rewrite Ed in L; discriminate L|]. cbn [fine fst snd]. exists p, ys, rest, (done ++ [x]).
    split; [exact E|]. split; [exact HB|]. split; [|split; [rewrite trues_snoc, T; reflexivity|exact HR]]. cbn [bl_vals bl_r v_vals]. rewrite F. cbn [flat_map]. rewrite Ed, <- app_assoc. reflexivity.
Qed.
Variable start1 len1 : Z.
Hypothesis Hlen1 : 0 <= len1 < W64.
Lemma present_batch bs pb vec : bytes bs -> bytes pb -> ~ present_run bs pb -> forall n c b v, whole_int (cr_kind c) -> cr_present c = Some b -> cr_data c = Some (RRun v) ->
  passed pb n b -> gone inflate o file start1 len1 true bs n v -> NextBatch inflate o c vec <> Panic.
Proof.
  intros Hb Hpb Hn. induction vec as [|y vec IH]; intros n c b v Hk Hp Hd P G; cbn [NextBatch]; [discriminate|].
  unfold nextRow, nextPresent. rewrite Hp. pose proof (passed_next pb n b Hpb P) as F. destruct (bool_Next inflate o b) as [[x b']| |]; [|cbn [rbind]; discriminate|destruct F]. cbn [fine fst snd] in F. cbn [rbind]. destruct x; cbn [negb].
  - pose proof (gone_next inflate o Ho file start1 len1 true bs n v Hlen1 Hb G) as F1. cbn [dec] in F1. unfold nextValue, nextRun. cbn [setPresent cr_kind cr_data]. rewrite Hd. destruct (v_Next inflate o DecodeInt v) as [[z v']| |].
    + rewrite Nat.add_1_r in F. assert (X : NextBatch inflate o (setData (RRun v') (setPresent b' c)) vec <> Panic) by (apply (IH (S n) _ b' v'); [exact Hk|reflexivity|reflexivity|exact F|exact F1]).
      destruct Hk as [E|[E|[E|E]]]; rewrite E; cbn [rbind];
        match goal with |- context [NextBatch inflate o ?c1 vec] => change (NextBatch inflate o c1 vec <> Panic) in X; destruct (NextBatch inflate o c1 vec) as [[xs c2]| |]; cbn [rbind]; congruence end.
    + destruct Hk as [E|[E|[E|E]]]; rewrite E; cbn [rbind]; discriminate.
    + exfalso. apply Hn. destruct F1 as (_ & p & us & q & E & H & Hq & L). destruct F as (p2 & ys & q2 & done & E2 & HB & Fl & T & _). exists p, us, q, p2, ys, q2. repeat (split; [assumption|]).
      rewrite rows_same, Fl, filter_app, app_length. lia.
  - cbn [rbind]. rewrite Nat.add_0_r in F. pose proof (IH n (setPresent b' c) b' v Hk eq_refl Hd F G) as X. destruct (NextBatch inflate o (setPresent b' c) vec) as [[xs c2]| |]; cbn [rbind]; congruence.
Qed.
End At.
Hypothesis Hfile : zlen file < W64.
Lemma present_iff k h s pre enc post bs s2 pre2 enc2 post2 pb : whole_int k -> (k = KDate -> h = true) ->
  file = pre2 ++ enc2 ++ post2 -> framed (fun d => d <> []) inflate o enc2 pb -> bytes pb -> st_kind s2 = sPRESENT -> st_length s2 = zlen enc2 ->
  file = pre ++ enc ++ post -> framed (fun d => d <> []) inflate o enc bs -> bytes bs -> st_kind s = sDATA -> st_length s = zlen enc ->
  exists r, openColumn inflate o file (RCol (newColR k h)) [(s2, zlen pre2); (s, zlen pre)] = Ok r /\ (calm inflate o r <-> ~ present_run bs pb).
Proof.
  intros Hk Hh Hf2 Hfr2 Hb2 Hs2 Hl2 Hf Hfr Hb Hs Hl. destruct (framed_rep inflate o Ho file Hfile pre enc post bs Hf Hfr) as [Hlen HR]. destruct (framed_rep inflate o Ho file Hfile pre2 enc2 post2 pb Hf2 Hfr2) as [Hlen2 HR2].
  set (v := newVreader (newReader file (zlen pre) (zlen enc)) : vreader Z). set (b := newBoolReader (newReader file (zlen pre2) (zlen enc2))). set (c := setData (RRun v) (setPresent b (newColR k h))).
  exists (RCol c). split.
  - cbn [openColumn]. rewrite Hs2. cbn [Z.eqb Pos.eqb any_InitStream]. unfold InitStream at 1. rewrite Hs2, Hl2. cbn [Z.eqb Pos.eqb].
    unfold c, v, b. destruct Hk as [E|[E|[E|E]]]; [| | |rewrite (Hh E)]; subst k; cbn [newColR cr_kind cr_hasNulls rbind openColumn]; rewrite Hs; cbn [Z.eqb Pos.eqb any_InitStream]; unfold InitStream; rewrite Hs, Hl; reflexivity.
  - split.
    + intros H (p & us & q & p2 & ys & q2 & E & Hr & Ho' & E2 & HB & L). subst bs pb. destruct (reach inflate o Ho file (zlen pre) (zlen enc) Hlen true p us Hr v q eq_refl Hb HR) as (v' & E1 & Hv & R').
      assert (Hq : bytes q) by (apply Forall_app in Hb; apply Hb). pose proof (next_run inflate o Ho file (zlen pre) (zlen enc) Hlen true v' q Hv Hq R') as N. rewrite (proj2 (panic_all true q Hq) (conj eq_refl Ho')) in N.
      destruct (pass (zlen pre2) (zlen enc2) Hlen2 p2 ys HB (bl_r b) q2 eq_refl HR2) as (w & P & _ & _). apply passes_yields, yields_bits in P. rewrite rows_same in L.
      apply (H (repeat blank (length (flat_map DecodeBoolsFromByte ys)))); [apply typed_blank; exact Hk|]. exact (present_crash _ (length us) c b v v' Hk eq_refl eq_refl P L E1 N).
    + intros Hn vec _. apply (present_batch (zlen pre2) (zlen enc2) Hlen2 (zlen pre) (zlen enc) Hlen bs pb vec Hb Hb2 Hn O c b v); auto.
      * exists [], [], pb, []. split; [reflexivity|]. split; [constructor|]. split; [reflexivity|]. split; [reflexivity|exact HR2].
      * exists [], [], bs. split; [reflexivity|]. split; [constructor|]. split; [reflexivity|exact HR].
Qed.
End Present.
