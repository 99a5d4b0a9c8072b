(** Which contents of whole streams crash a column. *)
From Coq Require Import ZifyBool ZifyNat.
From Verif.Model Require Import Go Codec ByteBool IntRle Chunk Stream Schema Rows Time File Column Wire Nested Tree Assembled.
From Verif.Spec Require Import ChunkSpec StreamSpec OrcInt OrcColumn PatchSpec RowsSpec EndSpec ProjectSpec ProgressSpec CrashSpec CauseSpec.
From Verif.Proofs Require Import Base ChunkP StreamP ReadP OrcIntP PatchPanicP StripeNpP CrashP CauseP.

Lemma run_more {A} (p : prog A) : forall l a r t, run p l = Ok (a, r) -> run p (l ++ t) = Ok (a, r ++ t).
Proof.
  induction p as [a| | |k IH|n k IH]; intros l a0 r t H; try discriminate.
  - rewrite run_ret in *. congruence.
  - destruct l as [|b l]; [discriminate|]. rewrite run_byte in H. cbn [app]. rewrite run_byte. apply IH. exact H.
  - apply run_full_inv in H. destruct H as (x & l' & -> & Hx & H). rewrite <- app_assoc, run_full by exact Hx. apply IH. exact H.
Qed.
Lemma run_part {A} (p : prog A) : forall c r a, run p (c ++ r) = Ok (a, r) -> run p c = Ok (a, []).
Proof.
  induction p as [a| | |k IH|n k IH]; intros c r a0 H; try discriminate.
  - rewrite run_ret in *. assert (c = []) as ->; [|congruence]. assert (E : c ++ r = [] ++ r) by (cbn; congruence). apply app_inv_tail in E. exact E.
  - destruct c as [|b c].
    + cbn [app] in H. destruct r as [|b r]; [discriminate|]. rewrite run_byte in H. apply run_suffix in H. destruct H as (c & E). apply (f_equal (@length Z)) in E. rewrite app_length in E. cbn in E. lia.
    + cbn [app] in H. rewrite run_byte in *. eapply IH. exact H.
  - apply run_full_inv in H. destruct H as (x & l' & E & Hx & H). pose proof (run_suffix _ _ _ _ H) as (d & ->). rewrite app_assoc in E. apply app_inv_tail in E. subst c.
    rewrite run_full by exact Hx. eapply IH. exact H.
Qed.
Lemma runs_app_bytes signed p us : Runs signed p us -> forall q, bytes (p ++ q) -> bytes q.
Proof. intros _ q H. apply Forall_app in H. apply H. Qed.

(** A run has at most 512 values. *)
Lemma readDeltas_length signed base n : forall st w prev i vs r, run (readDeltas signed base st n w prev) i = Ok (vs, r) -> length vs = n.
Proof.
  induction n as [|n IH]; intros st w prev i vs r H; cbn [readDeltas] in H; [rewrite run_ret in H; injection H as <- <-; reflexivity|].
  rewrite run_bind in H. apply rbind_inv in H. destruct H as ([[d st'] i1] & _ & H). cbv zeta in H. rewrite run_bind in H. apply rbind_inv in H. destruct H as ([t i2] & Ht & H). rewrite run_ret in H. injection H as <- <-. cbn [length]. f_equal. eapply IH. exact Ht.
Qed.
Lemma decode_most i vs : bytes i -> run (decode false) i = Ok (vs, []) -> zlen vs <= 512 * zlen i.
Proof.
  intros Hb H. destruct i as [|h i]; [discriminate|]. inversion Hb as [|? ? Hh Hbi]; subst. assert (L : 512 <= 512 * zlen (h :: i)) by (unfold zlen; cbn [length]; lia). enough (zlen vs <= 512) by lia.
  unfold decode in H. rewrite run_byte in H. destruct (head_fields h Hh) as (E & _ & _ & _ & Hr). rewrite E in H.
  destruct (Z.eqb_spec (h / 64) 0).
  { unfold readShortRepeat in H. rewrite run_bind in H. apply rbind_inv in H. destruct H as ([v i1] & _ & H). rewrite run_ret in H.
    apply (f_equal (fun r => match r with Ok (l, _) => length l | _ => O end)) in H. cbv beta iota in H. rewrite repeat_length, land_7 in H. unfold zlen. unfold is_u8 in Hh. zlia. }
  destruct (Z.eqb_spec (h / 64) 1).
  { unfold readDirect in H. destruct i as [|h1 i]; [discriminate|]. rewrite run_byte in H. cbv zeta in H.
    rewrite run_bind in H. apply rbind_inv in H. destruct H as ([w i1] & _ & H). apply readBitsAll_length in H. rewrite land_511 in H. unfold zlen. zlia. }
  destruct (Z.eqb_spec (h / 64) 2); [discriminate|]. destruct (Z.eqb_spec (h / 64) 3); [|discriminate].
  unfold readDelta in H. destruct i as [|h1 i]; [discriminate|]. rewrite run_byte in H. inversion Hbi as [|? ? Hh1 _]; subst.
  rewrite run_bind in H. apply rbind_inv in H. destruct H as ([w i1] & _ & H). cbv zeta in H. destruct (length_field h h1 Hh Hh1) as [E1 E2]. rewrite E1 in H.
  rewrite run_bind in H. apply rbind_inv in H. destruct H as ([[u b] i2] & _ & H).
  rewrite run_bind in H. apply rbind_inv in H. destruct H as ([d i3] & _ & H).
  rewrite run_bind in H. apply rbind_inv in H. destruct H as ([rest i4] & Hrest & H). rewrite run_ret in H. injection H as <- _.
  assert (length rest = Z.to_nat (orc_length h h1 - 2)) as Hl.
  { destruct (w =? 0); [rewrite run_ret in Hrest; injection Hrest as <- _; apply repeat_length|]. eapply readDeltas_length. exact Hrest. }
  unfold zlen. cbn [length]. rewrite Hl. lia.
Qed.
Lemma runs_most p us : Runs false p us -> bytes p -> zlen us <= 512 * zlen p.
Proof.
  induction 1 as [|bs us p vs _ IH Hr]; intros Hb; [vm_compute; discriminate|]. apply Forall_app in Hb. destruct Hb as [Hb1 Hb2]. specialize (IH Hb1). pose proof (decode_most _ _ Hb2 Hr). rewrite !zlen_app. lia.
Qed.
Lemma countable_small bs : bytes bs -> zlen bs <= 2 ^ 55 -> countable bs.
Proof.
  intros Hb Hl p us q -> H. apply Forall_app in Hb. destruct Hb as [Hb _]. pose proof (runs_most p us H Hb). rewrite zlen_app in Hl. pose proof (zlen_nonneg q). lia.
Qed.

Section Whole.
Variable inflate : list Z -> res (list Z).
Variable o : opts.
Hypothesis Ho : supported o.
Variable file : list Z.
Definition dec (signed : bool) : prog (list Z) := if signed then DecodeInt else DecodeUInt.
Definition conv (signed : bool) (us : list Z) : list Z := if signed then map UnZigzag us else us.
Lemma conv_length signed us : length (conv signed us) = length us.
Proof. destruct signed; [apply map_length|reflexivity]. Qed.
Lemma dec_run signed i : run (dec signed) i = (let! (us, r) := run (decode signed) i in Ok (conv signed us, r)).
Proof.
  destruct signed; cbn [dec conv].
  - unfold DecodeInt. rewrite run_bind. destruct (run (decode true) i) as [[us r]| |]; reflexivity.
  - unfold DecodeUInt. destruct (run (decode false) i) as [[us r]| |]; reflexivity.
Qed.
Section At.
Variable start len : Z.
Hypothesis Hlen : 0 <= len < W64.
Notation R := (Rep inflate o file start len).
Lemma skip_app {A} (d : prog (list A)) n : forall m v, v_skip inflate o d (n + m) v = (let! v' := v_skip inflate o d n v in v_skip inflate o d m v').
Proof. induction n as [|n IH]; intros m v; [reflexivity|]. cbn [Nat.add v_skip]. destruct (v_Next inflate o d v) as [[x v']| |]; [apply IH|reflexivity|reflexivity]. Qed.
Lemma pops {A} (d : prog (list A)) t : forall s, v_skip inflate o d (length t) {| v_s := s; v_vals := t |} = Ok {| v_s := s; v_vals := [] |}.
Proof. induction t as [|x t IH]; intros s; [reflexivity|]. cbn [length v_skip v_Next v_vals v_s rbind]. apply IH. Qed.
(** The next run. *)
Lemma next_run signed v rest : v_vals v = [] -> bytes rest -> R (v_s v) rest ->
  match run (decode signed) rest with
  | Ok (us, t) => exists s x xs, R s t /\ conv signed us = x :: xs /\ v_Next inflate o (dec signed) v = Ok (x, {| v_s := s; v_vals := xs |})
  | Err => v_Next inflate o (dec signed) v = Err
  | Panic => v_Next inflate o (dec signed) v = Panic
  end.
Proof.
  intros Hv Hb Hr. unfold v_Next. rewrite Hv. pose proof (sim inflate o Ho file start len Hlen (dec signed) _ _ Hr) as S. rewrite dec_run in S.
  destruct (run (decode signed) rest) as [[us t]| |] eqn:E; cbn [rbind] in S; [|rewrite S; reflexivity|rewrite S; reflexivity].
  destruct S as (s & -> & Hs). pose proof (decode_nonempty _ _ _ _ Hb E) as N. cbn [rbind]. pose proof (conv_length signed us) as L. destruct (conv signed us) as [|x xs] eqn:Ec; [destruct us; [congruence|discriminate L]|].
  exists s, x, xs. auto.
Qed.
Lemma reach signed p us : Runs signed p us -> forall v rest, v_vals v = [] -> bytes (p ++ rest) -> R (v_s v) (p ++ rest) ->
  exists v', v_skip inflate o (dec signed) (length us) v = Ok v' /\ v_vals v' = [] /\ R (v_s v') rest.
Proof.
  induction 1 as [|bs us p vs _ IH Hr]; intros v rest Hv Hb HR; [exists v; auto|]. rewrite <- app_assoc in Hb, HR.
  destruct (IH v (p ++ rest) Hv Hb HR) as (v1 & E1 & Hv1 & R1). rewrite app_length, skip_app, E1. cbn [rbind].
  assert (Hb1 : bytes (p ++ rest)) by (apply Forall_app in Hb; apply Hb). pose proof (next_run signed v1 _ Hv1 Hb1 R1) as N. rewrite (run_more _ _ _ _ rest Hr) in N. cbn [app] in N.
  destruct N as (s & x & xs & Rs & Ec & En). rewrite <- (conv_length signed vs), Ec. cbn [length v_skip]. rewrite En. cbn [rbind]. rewrite pops. eexists. split; [reflexivity|]. split; [reflexivity|exact Rs].
Qed.

(** Integers. *)
Definition whole_int (k : ckind) : Prop := k = KShort \/ k = KInt \/ k = KLong \/ k = KDate.
Definition blank : value := {| Null := false; V := GNil |}.
Lemma batch_skip n : forall c v v', whole_int (cr_kind c) -> cr_present c = None -> cr_data c = Some (RRun v) ->
  v_skip inflate o DecodeInt n v = Ok v' -> v_Next inflate o DecodeInt v' = Panic -> NextBatch inflate o c (repeat blank (S n)) = Panic.
Proof.
  induction n as [|n IH]; intros c v v' Hk Hp Hd Hs Hn.
  - assert (v' = v) as -> by (cbn in Hs; congruence). cbn [repeat NextBatch]. unfold nextRow, nextPresent, nextValue. rewrite Hp. cbn [rbind blank Null].
    destruct Hk as [E|[E|[E|E]]]; rewrite E; unfold nextRun; rewrite Hd, Hn; reflexivity.
  - cbn [v_skip] in Hs. apply rbind_inv in Hs. destruct Hs as ((x & v1) & E1 & Hs). change (repeat blank (S (S n))) with (blank :: repeat blank (S n)). cbn [NextBatch].
    assert (exists g, nextRow inflate o c blank = Ok (g, setData (RRun v1) c)) as (g & ->).
    { unfold nextRow, nextPresent, nextValue. rewrite Hp. cbn [rbind blank Null]. destruct Hk as [E|[E|[E|E]]]; rewrite E; unfold nextRun; rewrite Hd, E1; cbn [rbind]; eexists; reflexivity. }
    cbn [rbind]. rewrite (IH (setData (RRun v1) c) v1 v'); try assumption; reflexivity.
Qed.
Lemma typed_blank k n : whole_int k -> Forall (typed k) (repeat blank n).
Proof. intros H. apply Forall_forall. intros v Hv. apply repeat_spec in Hv. subst v. destruct H as [E|[E|[E|E]]]; subst k; exact I. Qed.
Definition going (bs : list Z) (v : vreader Z) : Prop := exists p us rest, bs = p ++ rest /\ Runs true p us /\ R (v_s v) rest.
Lemma going_next bs v : bytes bs -> ~ stray_run bs -> going bs v -> fine (fun xv => going bs (snd xv)) (v_Next inflate o DecodeInt v).
Proof.
  intros Hb Hn (p & us & rest & E & H & HR). destruct (v_vals v) as [|x t] eqn:Ev.
  - assert (Hr : bytes rest) by (subst bs; apply Forall_app in Hb; apply Hb). pose proof (next_run true v rest Ev Hr HR) as N. cbn [dec] in N. destruct (run (decode true) rest) as [[vs t]| |] eqn:Er.
    + destruct N as (s & x & xs & Rs & _ & ->). cbn. destruct (run_suffix _ _ _ _ Er) as (c & ->). exists (p ++ c), (us ++ vs), t. split; [rewrite <- app_assoc; exact E|]. split; [|exact Rs]. constructor; [exact H|]. eapply run_part. exact Er.
    + rewrite N. exact I.
    + exfalso. apply Hn. exists p, us, rest. split; [exact E|]. split; [exact H|]. apply (panic_all true rest Hr) in Er. apply Er.
  - unfold v_Next. rewrite Ev. cbn. exists p, us, rest. auto.
Qed.
Lemma going_batch bs vec : bytes bs -> ~ stray_run bs -> forall c v, whole_int (cr_kind c) -> cr_present c = None -> cr_data c = Some (RRun v) -> going bs v -> NextBatch inflate o c vec <> Panic.
Proof.
  intros Hb Hn. induction vec as [|y vec IH]; intros c v Hk Hp Hd Hg; cbn [NextBatch]; [discriminate|].
  unfold nextRow, nextPresent. rewrite Hp. cbn [rbind]. destruct (Null y); cbn [rbind].
  - pose proof (IH c v Hk Hp Hd Hg) as X. destruct (NextBatch inflate o c vec) as [[xs c2]| |]; cbn [rbind]; congruence.
  - pose proof (going_next bs v Hb Hn Hg) as F. unfold nextValue, nextRun. rewrite Hd. destruct (v_Next inflate o DecodeInt v) as [[x v']| |] eqn:Ev; [|destruct Hk as [E|[E|[E|E]]]; rewrite E; cbn [rbind]; discriminate|destruct F].
    assert (X : NextBatch inflate o (setData (RRun v') c) vec <> Panic) by (apply (IH _ v'); [exact Hk|exact Hp|reflexivity|exact F]).
    destruct Hk as [E|[E|[E|E]]]; rewrite E; cbn [rbind]; (destruct (NextBatch inflate o (setData (RRun v') c) vec) as [[xs c2]| |]; cbn [rbind]; congruence).
Qed.
End At.
Hypothesis Hfile : zlen file < W64.
Lemma framed_rep pre enc post bs : file = pre ++ enc ++ post -> framed (fun d => d <> []) inflate o enc bs ->
  0 <= zlen enc < W64 /\ Rep inflate o file (zlen pre) (zlen enc) (newReader file (zlen pre) (zlen enc)) bs.
Proof.
  intros Hf Hfr. assert (Hl : 0 <= zlen enc < W64).
  { rewrite Hf, !zlen_app in Hfile. pose proof (zlen_nonneg pre). pose proof (zlen_nonneg post). pose proof (zlen_nonneg enc). lia. }
  split; [exact Hl|]. unfold Rep, newReader. cbn. repeat split; [lia|]. exists enc, post. rewrite Hf at 1. rewrite zdrop_app.
  split; [reflexivity|]. split; [lia|]. unfold framed in Hfr.
  destruct Ho as [[Hk|Hk] _]; rewrite Hk in *; [symmetry; exact Hfr|].
  destruct Hfr as (ds & Hc & Hq & <-). exists ds. repeat split; assumption.
Qed.
Lemma int_iff k h s pre enc post bs : whole_int k -> file = pre ++ enc ++ post -> framed (fun d => d <> []) inflate o enc bs -> bytes bs -> st_kind s = sDATA -> st_length s = zlen enc ->
  exists r, openColumn inflate o file (RCol (newColR k h)) [(s, zlen pre)] = Ok r /\ (calm inflate o r <-> ~ stray_run bs).
Proof.
  intros Hk Hf Hfr Hb Hs Hl. destruct (framed_rep pre enc post bs Hf Hfr) as [Hlen HR]. set (v := newVreader (newReader file (zlen pre) (zlen enc)) : vreader Z). set (c := setData (RRun v) (newColR k h)).
  exists (RCol c). split.
  - cbn [openColumn]. rewrite Hs. cbn [Z.eqb Pos.eqb any_InitStream]. unfold InitStream. rewrite Hs, Hl. cbn [Z.eqb Pos.eqb].
    unfold c, v. destruct Hk as [E|[E|[E|E]]]; subst k; reflexivity.
  - split.
    + intros H (p & us & q & E & Hr & Ho'). subst bs. destruct (reach (zlen pre) (zlen enc) Hlen true p us Hr v q eq_refl Hb HR) as (v' & E1 & Hv & R').
      assert (Hq : bytes q) by (apply Forall_app in Hb; apply Hb). pose proof (next_run (zlen pre) (zlen enc) Hlen true v' q Hv Hq R') as N. rewrite (proj2 (panic_all true q Hq) (conj eq_refl Ho')) in N.
      apply (H (repeat blank (S (length us)))); [apply typed_blank; exact Hk|]. apply (batch_skip _ c v v'); auto.
    + intros Hn vec _. apply (going_batch (zlen pre) (zlen enc) Hlen bs vec Hb Hn c v); auto. exists [], [], bs. split; [reflexivity|]. split; [constructor|exact HR].
Qed.

(** Strings. *)
Definition total (a : list Z) : Z := fold_right (fun n t => i64 n + t) 0 a.
Lemma total_snoc a x : total (a ++ [x]) = total a + i64 x.
Proof. induction a as [|y a IH]; cbn [app total fold_right] in *; [lia|]. unfold total in *. lia. Qed.
Lemma total_pos a : Forall (fun n => 0 <= i64 n) a -> 0 <= total a.
Proof. induction 1 as [|x a Hx _ IH]; cbn [total fold_right]; [lia|]. unfold total in IH. lia. Qed.
Fixpoint gives (xs : list Z) (v v' : vreader Z) : Prop :=
  match xs with [] => v = v' | x :: t => exists w, v_Next inflate o DecodeUInt v = Ok (x, w) /\ gives t w v' end.
Lemma gives_app xs : forall ys v w u, gives xs v w -> gives ys w u -> gives (xs ++ ys) v u.
Proof. induction xs as [|x xs IH]; intros ys v w u H1 H2; cbn [app gives] in *; [subst w; exact H2|]. destruct H1 as (z & E & H1). exists z. split; [exact E|]. eapply IH; eassumption. Qed.
Lemma gives_pops t : forall s, gives t {| v_s := s; v_vals := t |} {| v_s := s; v_vals := [] |}.
Proof. induction t as [|x t IH]; intros s; [reflexivity|]. cbn [gives]. exists {| v_s := s; v_vals := t |}. split; [reflexivity|apply IH]. Qed.
Lemma reach_gives start len p us : 0 <= len < W64 -> Runs false p us -> forall v rest, v_vals v = [] -> bytes (p ++ rest) -> Rep inflate o file start len (v_s v) (p ++ rest) ->
  exists v', gives us v v' /\ v_vals v' = [] /\ Rep inflate o file start len (v_s v') rest.
Proof.
  intros Hlen. induction 1 as [|bs us p vs _ IH Hr]; intros v rest Hv Hb HR; [exists v; split; [reflexivity|]; auto|]. rewrite <- app_assoc in Hb, HR.
  destruct (IH v (p ++ rest) Hv Hb HR) as (v1 & E1 & Hv1 & R1).
  assert (Hb1 : bytes (p ++ rest)) by (apply Forall_app in Hb; apply Hb). pose proof (next_run start len Hlen false v1 _ Hv1 Hb1 R1) as N. rewrite (run_more _ _ _ _ rest Hr) in N. cbn [app dec conv] in N.
  destruct N as (s & x & xs & Rs & -> & En). eexists. split; [eapply gives_app; [exact E1|]; cbn [gives]; eexists; split; [exact En|apply gives_pops]|]. split; [reflexivity|exact Rs].
Qed.
Definition whole_text (k : ckind) : Prop := k = KString \/ k = KBinary.
Section Text.
Variable start len : Z.
Hypothesis Hlen : 0 <= len < W64.
Notation R := (Rep inflate o file start len).
Lemma take_bytes n d data : 0 <= n -> R d data ->
  if n <=? zlen data then exists d', r_run inflate o (DecodeBytes n) d = Ok (ztake n data, d') /\ R d' (zdrop n data) else r_run inflate o (DecodeBytes n) d = Err.
Proof.
  intros Hn HR. pose proof (sim inflate o Ho file start len Hlen (DecodeBytes n) d data HR) as S. unfold DecodeBytes in *. destruct (Z.ltb_spec n 0); [lia|]. unfold run in S. cbn [runS] in S. unfold lrf in S. unfold ztake, zdrop, zlen.
  destruct (Z.leb_spec n (Z.of_nat (length data))); destruct (Nat.ltb_spec (length data) (Z.to_nat n)); try lia; cbn [rbind] in S; exact S.
Qed.
Lemma text_crash a : forall c d v v' data l z, whole_text (cr_kind c) -> cr_present c = None -> cr_data c = Some (RRaw d) -> cr_second c = Some v -> R d data -> gives (a ++ l :: z) v v' ->
  i64 l < 0 -> Forall (fun n => 0 <= i64 n) a -> total a <= zlen data -> NextBatch inflate o c (repeat blank (S (length a))) = Panic.
Proof.
  induction a as [|x a IH]; intros c d v v' data l z Hk Hp Hd Hs HR Hg Hneg Hpos Ht; cbn [app gives] in Hg; destruct Hg as (w & En & Hg).
  - cbn [length repeat NextBatch]. unfold nextRow, nextPresent, nextValue. rewrite Hp. cbn [rbind blank Null]. destruct Hk as [E|E]; rewrite E; unfold nextSecond; rewrite Hs, En; cbn [rbind]; unfold nextRaw; rewrite Hd; unfold DecodeBytes; destruct (Z.ltb_spec (i64 l) 0); try lia; reflexivity.
  - inversion Hpos as [|? ? Hx Hpos']; subst. pose proof (total_pos a Hpos') as Ha. cbn [total fold_right] in Ht. fold (total a) in Ht. pose proof (take_bytes (i64 x) d data Hx HR) as T. destruct (Z.leb_spec (i64 x) (zlen data)) as [Hle|Hle]; [|lia]. destruct T as (d' & T & R').
    change (repeat blank (S (length (x :: a)))) with (blank :: repeat blank (S (length a))). cbn [NextBatch].
    assert (exists g, nextRow inflate o c blank = Ok (g, setData (RRaw d') (setSecond w c))) as (g & ->).
    { unfold nextRow, nextPresent, nextValue. rewrite Hp. cbn [rbind blank Null]. destruct Hk as [E|E]; rewrite E; unfold nextSecond; rewrite Hs, En; cbn [rbind]; unfold nextRaw; rewrite Hd, T; cbn [rbind]; eexists; reflexivity. }
    cbn [rbind]. rewrite (IH (setData (RRaw d') (setSecond w c)) d' w v' (zdrop (i64 x) data) l z); auto. unfold zdrop, zlen in *. rewrite skipn_length. lia.
Qed.
Variable start2 len2 : Z.
Hypothesis Hlen2 : 0 <= len2 < W64.
Definition text_at (bs data : list Z) (c : colR) : Prop :=
  exists d v p us rest a da dr, cr_data c = Some (RRaw d) /\ cr_second c = Some v /\ bs = p ++ rest /\ Runs false p us /\ us = a ++ v_vals v /\ Rep inflate o file start2 len2 (v_s v) rest /\
    Forall (fun n => 0 <= i64 n) a /\ data = da ++ dr /\ zlen da = total a /\ R d dr.
Lemma text_next bs data c old : bytes bs -> ~ reached_length bs data -> whole_text (cr_kind c) -> text_at bs data c ->
  fine (fun gc => text_at bs data (snd gc) /\ cr_kind (snd gc) = cr_kind c /\ cr_present (snd gc) = cr_present c) (nextValue inflate o c old).
Proof.
  intros Hb Hn Hk (d & v & p & us & rest & a & da & dr & Hd & Hs & E & Hr & Eu & HR & Hpos & Ed & Hz & HD).
  assert (N : fine (fun xv => exists p' us' rest', bs = p' ++ rest' /\ Runs false p' us' /\ us' = a ++ fst xv :: v_vals (snd xv) /\ Rep inflate o file start2 len2 (v_s (snd xv)) rest') (v_Next inflate o DecodeUInt v)).
  { destruct (v_vals v) as [|x t] eqn:Ev.
    - assert (Hbr : bytes rest) by (subst bs; apply Forall_app in Hb; apply Hb). pose proof (next_run start2 len2 Hlen2 false v rest Ev Hbr HR) as N. cbn [dec conv] in N. destruct (run (decode false) rest) as [[vs t]| |] eqn:Er.
      + destruct N as (s & x & xs & Rs & -> & ->). cbn. destruct (run_suffix _ _ _ _ Er) as (c0 & ->). exists (p ++ c0), (us ++ x :: xs), t. split; [rewrite <- app_assoc; exact E|]. split; [constructor; [exact Hr|]; eapply run_part; exact Er|]. split; [|exact Rs]. rewrite Eu, app_nil_r. reflexivity.
      + rewrite N. exact I.
      + exfalso. apply (panic_all false rest Hbr) in Er. destruct Er as [Er _]. discriminate Er.
    - unfold v_Next. rewrite Ev. cbn. exists p, us, rest. auto. }
  destruct (v_Next inflate o DecodeUInt v) as [[x w]| |] eqn:En; [|unfold nextValue, nextSecond; rewrite Hs, En; destruct Hk as [Ek|Ek]; rewrite Ek; exact I|destruct N].
  cbn [fine fst snd] in N. destruct N as (p' & us' & rest' & E' & Hr' & Eu' & HR'). pose proof (total_pos a Hpos) as Ha.
  assert (Hx : 0 <= i64 x).
  { destruct (Z.ltb_spec (i64 x) 0); [|lia]. exfalso. apply Hn. exists p', us', rest', a, x, (v_vals w). split; [exact E'|]. split; [exact Hr'|]. split; [exact Eu'|]. split; [assumption|]. split; [exact Hpos|]. fold (total a). rewrite <- Hz, Ed, zlen_app. pose proof (zlen_nonneg dr). lia. }
  pose proof (take_bytes (i64 x) d dr Hx HD) as T. unfold nextValue, nextSecond. rewrite Hs, En. destruct (Z.leb_spec (i64 x) (zlen dr)) as [Hle|Hle].
  - destruct T as (d' & T & R').
    assert (X : text_at bs data (setData (RRaw d') (setSecond w c))).
    { exists d', w, p', us', rest', (a ++ [x]), (da ++ ztake (i64 x) dr), (zdrop (i64 x) dr). split; [reflexivity|]. split; [reflexivity|]. split; [exact E'|]. split; [exact Hr'|]. split; [rewrite <- app_assoc; exact Eu'|]. split; [exact HR'|].
      split; [apply Forall_app; split; [exact Hpos|repeat constructor; exact Hx]|]. split; [rewrite <- app_assoc; unfold ztake, zdrop; rewrite firstn_skipn; exact Ed|]. split; [|exact R'].
      rewrite total_snoc, zlen_app, Hz. unfold ztake, zlen in *. rewrite firstn_length. lia. }
    destruct Hk as [Ek|Ek]; rewrite Ek; cbn [rbind]; unfold nextRaw; rewrite Hd, T; cbn [rbind fine snd]; (split; [exact X|]; split; [exact Ek|reflexivity]).
  - destruct Hk as [Ek|Ek]; rewrite Ek; cbn [rbind]; unfold nextRaw; rewrite Hd, T; exact I.
Qed.
Lemma text_batch bs data vec : bytes bs -> ~ reached_length bs data -> forall c, whole_text (cr_kind c) -> cr_present c = None -> text_at bs data c -> NextBatch inflate o c vec <> Panic.
Proof.
  intros Hb Hn. induction vec as [|y vec IH]; intros c Hk Hp Hg; cbn [NextBatch]; [discriminate|].
  unfold nextRow, nextPresent. rewrite Hp. cbn [rbind]. destruct (Null y); cbn [rbind].
  - pose proof (IH c Hk Hp Hg) as X. destruct (NextBatch inflate o c vec) as [[xs c2]| |]; cbn [rbind]; congruence.
  - pose proof (text_next bs data c (V y) Hb Hn Hk Hg) as F. destruct (nextValue inflate o c (V y)) as [[g c1]| |]; [|discriminate|destruct F]. cbn [fine snd rbind] in *. destruct F as (F & K & P).
    assert (X : NextBatch inflate o c1 vec <> Panic) by (apply IH; [rewrite K; exact Hk|rewrite P; exact Hp|exact F]).
    destruct (NextBatch inflate o c1 vec) as [[xs c2]| |]; cbn [rbind]; congruence.
Qed.
End Text.
Lemma text_iff k h s pre enc post data s2 pre2 enc2 post2 bs : whole_text k -> file = pre ++ enc ++ post -> framed (fun d => d <> []) inflate o enc data -> st_kind s = sDATA -> st_length s = zlen enc ->
  file = pre2 ++ enc2 ++ post2 -> framed (fun d => d <> []) inflate o enc2 bs -> bytes bs -> st_kind s2 = sLENGTH -> st_length s2 = zlen enc2 ->
  exists r, openColumn inflate o file (RCol (newColR k h)) [(s, zlen pre); (s2, zlen pre2)] = Ok r /\ (calm inflate o r <-> ~ reached_length bs data).
Proof.
  intros Hk Hf Hfr Hs Hl Hf2 Hfr2 Hb Hs2 Hl2. destruct (framed_rep pre enc post data Hf Hfr) as [Hlen HR]. destruct (framed_rep pre2 enc2 post2 bs Hf2 Hfr2) as [Hlen2 HR2].
  set (d := newReader file (zlen pre) (zlen enc)) in *. set (v := newVreader (newReader file (zlen pre2) (zlen enc2)) : vreader Z). set (c := setSecond v (setData (RRaw d) (newColR k h))).
  exists (RCol c). split.
  - cbn [openColumn]. rewrite Hs. cbn [Z.eqb Pos.eqb any_InitStream]. unfold InitStream. rewrite Hs, Hl, Hs2, Hl2. cbn [Z.eqb Pos.eqb].
    unfold c, v, d. destruct Hk as [E|E]; subst k; cbn [newColR cr_kind dataReader rbind any_InitStream]; unfold InitStream; rewrite Hs2, Hl2; reflexivity.
  - split.
    + intros H (p & us & q & a & l & z & E & Hr & Eu & Hneg & Hpos & Ht). subst bs us. destruct (reach_gives (zlen pre2) (zlen enc2) p _ Hlen2 Hr v q eq_refl Hb HR2) as (v' & E1 & _).
      apply (H (repeat blank (S (length a)))); [apply Forall_forall; intros y Hy; apply repeat_spec in Hy; subst y; destruct Hk as [E|E]; subst k; exact I|].
      apply (text_crash (zlen pre) (zlen enc) Hlen a c d v v' data l z); auto.
    + intros Hn vec _. apply (text_batch (zlen pre) (zlen enc) Hlen (zlen pre2) (zlen enc2) Hlen2 bs data vec Hb Hn c); auto.
      exists d, v, [], [], bs, [], [], data. repeat match goal with |- _ /\ _ => split end; auto; try reflexivity; constructor.
Qed.

(** Timestamps. *)
Definition epoch : value := {| Null := false; V := GTimestamp {| ts_loc := 0; ts_seconds := 0; ts_nanos := 0 |} |}.
Lemma stamp_crash n : forall c v v' v2 w ys, cr_kind c = KTimestamp -> cr_present c = None -> cr_data c = Some (RRun v) -> cr_second c = Some v2 ->
  v_skip inflate o DecodeInt n v = Ok v' -> v_Next inflate o DecodeInt v' = Panic -> gives ys v2 w -> (n <= length ys)%nat -> NextBatch inflate o c (repeat epoch (S n)) = Panic.
Proof.
  induction n as [|n IH]; intros c v v' v2 w ys Hk Hp Hd Hs Hv Hn Hg Hl.
  - assert (v' = v) as -> by (cbn in Hv; congruence). cbn [repeat NextBatch]. unfold nextRow, nextPresent, nextValue. rewrite Hp. cbn [rbind epoch Null]. rewrite Hk. unfold nextRun. rewrite Hd, Hn. reflexivity.
  - cbn [v_skip] in Hv. apply rbind_inv in Hv. destruct Hv as ((x & v1) & E1 & Hv). destruct ys as [|y ys]; [cbn in Hl; lia|]. cbn [gives] in Hg. destruct Hg as (w1 & E2 & Hg).
    change (repeat epoch (S (S n))) with (epoch :: repeat epoch (S n)). cbn [NextBatch].
    assert (exists g, nextRow inflate o c epoch = Ok (g, setSecond w1 (setData (RRun v1) c))) as (g & ->).
    { unfold nextRow, nextPresent, nextValue. rewrite Hp. cbn [rbind epoch Null V]. rewrite Hk. unfold nextRun, nextSecond. rewrite Hd, E1. cbn [rbind]. rewrite Hs, E2. cbn [rbind]. eexists. reflexivity. }
    cbn [rbind]. rewrite (IH (setSecond w1 (setData (RRun v1) c)) v1 v' w1 w ys); auto. cbn [length] in Hl. lia.
Qed.
Section Stamp.
Variable start len start2 len2 : Z.
Hypothesis Hlen : 0 <= len < W64.
Hypothesis Hlen2 : 0 <= len2 < W64.
(** [n] values were taken. *)
Definition gone (st ln : Z) (signed : bool) (bs : list Z) (n : nat) (v : vreader Z) : Prop :=
  exists p us rest, bs = p ++ rest /\ Runs signed p us /\ length us = (n + length (v_vals v))%nat /\ Rep inflate o file st ln (v_s v) rest.
Lemma gone_next st ln signed bs n v : 0 <= ln < W64 -> bytes bs -> gone st ln signed bs n v ->
  match v_Next inflate o (dec signed) v with
  | Ok (_, v') => gone st ln signed bs (S n) v'
  | Err => True
  | Panic => signed = true /\ exists p us q, bs = p ++ q /\ Runs true p us /\ patch_outside q /\ length us = n
  end.
Proof.
  intros Hl Hb (p & us & rest & E & H & L & HR). destruct (v_vals v) as [|x t] eqn:Ev.
  - assert (Hr : bytes rest) by (subst bs; apply Forall_app in Hb; apply Hb). pose proof (next_run st ln Hl signed v rest Ev Hr HR) as N. destruct (run (decode signed) rest) as [[vs t]| |] eqn:Er.
    + destruct N as (s & x & xs & Rs & Ec & ->). destruct (run_suffix _ _ _ _ Er) as (c & ->). exists (p ++ c), (us ++ vs), t. split; [rewrite <- app_assoc; exact E|]. split; [constructor; [exact H|]; eapply run_part; exact Er|]. split; [|exact Rs].
      pose proof (conv_length signed vs) as Lc. rewrite Ec in Lc. rewrite app_length. cbn [v_vals length] in *. lia.
    + rewrite N. exact I.
    + rewrite N. apply (panic_all signed rest Hr) in Er. destruct Er as [-> Er]. split; [reflexivity|]. exists p, us, rest. cbn [length] in L. rewrite Nat.add_0_r in L. auto.
  - unfold v_Next. rewrite Ev. exists p, us, rest. cbn [v_vals v_s length] in *. split; [exact E|]. split; [exact H|]. split; [lia|exact HR].
Qed.
Lemma stamp_batch bs nanos vec : bytes bs -> bytes nanos -> ~ reached_patch bs nanos -> Forall (typed KTimestamp) vec ->
  forall n c v v2, cr_kind c = KTimestamp -> cr_present c = None -> cr_data c = Some (RRun v) -> cr_second c = Some v2 -> gone start len true bs n v -> gone start2 len2 false nanos n v2 ->
  NextBatch inflate o c vec <> Panic.
Proof.
  intros Hb Hb2 Hn Hty. induction Hty as [|y vec Hy _ IH]; intros n c v v2 Hk Hp Hd Hs G1 G2; cbn [NextBatch]; [discriminate|].
  unfold nextRow, nextPresent. rewrite Hp. cbn [rbind]. destruct (Null y); cbn [rbind].
  - pose proof (IH n c v v2 Hk Hp Hd Hs G1 G2) as X. destruct (NextBatch inflate o c vec) as [[xs c2]| |]; cbn [rbind]; congruence.
  - unfold nextValue. rewrite Hk. unfold nextRun. rewrite Hd. pose proof (gone_next start len true bs n v Hlen Hb G1) as F1. cbn [dec] in F1. destruct (v_Next inflate o DecodeInt v) as [[x v']| |]; cbn [rbind]; [|discriminate|].
    + unfold nextSecond. rewrite Hs. pose proof (gone_next start2 len2 false nanos n v2 Hlen2 Hb2 G2) as F2. cbn [dec] in F2. destruct (v_Next inflate o DecodeUInt v2) as [[x2 v2']| |]; cbn [rbind]; [|discriminate|destruct F2 as [F2 _]; discriminate F2].
      unfold typed in Hy. destruct (V y) eqn:Ey; try destruct Hy. cbn [rbind].
      match goal with |- context [NextBatch inflate o ?c1 vec] => assert (X : NextBatch inflate o c1 vec <> Panic) by (apply (IH (S n) c1 v' v2'); auto); destruct (NextBatch inflate o c1 vec) as [[xs c2]| |]; cbn [rbind]; congruence end.
    + exfalso. apply Hn. destruct F1 as (_ & p & us & q & E & H & Hq & L). destruct G2 as (p2 & us2 & q2 & E2 & H2 & L2 & _). exists p, us, q, p2, us2, q2. unfold zlen. repeat (split; [assumption|]). lia.
Qed.
End Stamp.
Lemma stamp_iff h s pre enc post bs s2 pre2 enc2 post2 nanos : file = pre ++ enc ++ post -> framed (fun d => d <> []) inflate o enc bs -> bytes bs -> st_kind s = sDATA -> st_length s = zlen enc ->
  file = pre2 ++ enc2 ++ post2 -> framed (fun d => d <> []) inflate o enc2 nanos -> bytes nanos -> st_kind s2 = sSECONDARY -> st_length s2 = zlen enc2 ->
  exists r, openColumn inflate o file (RCol (newColR KTimestamp h)) [(s, zlen pre); (s2, zlen pre2)] = Ok r /\ (calm inflate o r <-> ~ reached_patch bs nanos).
Proof.
  intros Hf Hfr Hb Hs Hl Hf2 Hfr2 Hb2 Hs2 Hl2. destruct (framed_rep pre enc post bs Hf Hfr) as [Hlen HR]. destruct (framed_rep pre2 enc2 post2 nanos Hf2 Hfr2) as [Hlen2 HR2].
  set (v := newVreader (newReader file (zlen pre) (zlen enc)) : vreader Z). set (v2 := newVreader (newReader file (zlen pre2) (zlen enc2)) : vreader Z). set (c := setSecond v2 (setData (RRun v) (newColR KTimestamp h))).
  exists (RCol c). split.
  - cbn [openColumn]. rewrite Hs. cbn [Z.eqb Pos.eqb any_InitStream]. unfold InitStream. rewrite Hs, Hl, Hs2, Hl2. cbn [Z.eqb Pos.eqb].
    unfold c, v, v2. cbn [newColR cr_kind dataReader rbind any_InitStream]. unfold InitStream. rewrite Hs2, Hl2. reflexivity.
  - split.
    + intros H (p & us & q & p2 & us2 & q2 & E & Hr & Ho' & E2 & Hr2 & Hle). subst bs nanos. destruct (reach (zlen pre) (zlen enc) Hlen true p us Hr v q eq_refl Hb HR) as (v' & E1 & Hv & R').
      assert (Hq : bytes q) by (apply Forall_app in Hb; apply Hb). pose proof (next_run (zlen pre) (zlen enc) Hlen true v' q Hv Hq R') as N. rewrite (proj2 (panic_all true q Hq) (conj eq_refl Ho')) in N.
      destruct (reach_gives (zlen pre2) (zlen enc2) p2 us2 Hlen2 Hr2 v2 q2 eq_refl Hb2 HR2) as (w & Hg & _).
      apply (H (repeat epoch (S (length us)))); [apply Forall_forall; intros y Hy; apply repeat_spec in Hy; subst y; exact I|]. apply (stamp_crash _ c v v' v2 w us2); auto. unfold zlen in Hle. lia.
    + intros Hn vec Hv. apply (stamp_batch (zlen pre) (zlen enc) (zlen pre2) (zlen enc2) Hlen Hlen2 bs nanos vec Hb Hb2 Hn Hv O c v v2); auto; [exists [], [], bs|exists [], [], nanos]; (split; [reflexivity|]; split; [constructor|]; split; [reflexivity|assumption]).
Qed.

(** Decimals. *)
Definition naught : value := {| Null := false; V := GDecimal 0 0 |}.
Section Decimal.
Variable start len start2 len2 : Z.
Hypothesis Hlen : 0 <= len < W64.
Hypothesis Hlen2 : 0 <= len2 < W64.
Notation R := (Rep inflate o file start len).
Lemma decimal_crash n : forall c d data v v', cr_kind c = KDecimal -> cr_present c = None -> cr_data c = Some (RRaw d) -> cr_second c = Some v -> R d data -> Varints (S n) data ->
  v_skip inflate o DecodeInt n v = Ok v' -> v_Next inflate o DecodeInt v' = Panic -> NextBatch inflate o c (repeat naught (S n)) = Panic.
Proof.
  induction n as [|n IH]; intros c d data v v' Hk Hp Hd Hs HR Hv Hsk Hn; inversion Hv as [|m l0 x t Hx Ht]; subst;
    pose proof (sim inflate o Ho file start len Hlen DecodeVarInt64 d data HR) as S; rewrite Hx in S; destruct S as (d' & Ed & R').
  - assert (v' = v) as -> by (cbn in Hsk; congruence). cbn [repeat NextBatch]. unfold nextRow, nextPresent, nextValue. rewrite Hp. cbn [rbind naught Null]. rewrite Hk. unfold nextRaw. rewrite Hd, Ed. cbn [rbind]. unfold nextSecond. rewrite Hs, Hn. reflexivity.
  - cbn [v_skip] in Hsk. apply rbind_inv in Hsk. destruct Hsk as ((y & v1) & E1 & Hsk).
    change (repeat naught (S (S n))) with (naught :: repeat naught (S n)). cbn [NextBatch].
    assert (exists g, nextRow inflate o c naught = Ok (g, setSecond v1 (setData (RRaw d') c))) as (g & ->).
    { unfold nextRow, nextPresent, nextValue. rewrite Hp. cbn [rbind naught Null V]. rewrite Hk. unfold nextRaw. rewrite Hd, Ed. cbn [rbind]. unfold nextSecond. rewrite Hs, E1. cbn [rbind]. eexists. reflexivity. }
    cbn [rbind]. rewrite (IH (setSecond v1 (setData (RRaw d') c)) d' t v1 v'); auto.
Qed.
Lemma decimal_batch bs digits vec : bytes bs -> ~ reached_scale bs digits -> Forall (typed KDecimal) vec ->
  forall n c d dr v, cr_kind c = KDecimal -> cr_present c = None -> cr_data c = Some (RRaw d) -> cr_second c = Some v -> R d dr -> (forall m, Varints m dr -> Varints (n + m) digits) -> gone start2 len2 true bs n v ->
  NextBatch inflate o c vec <> Panic.
Proof.
  intros Hb Hn Hty. induction Hty as [|y vec Hy _ IH]; intros n c d dr v Hk Hp Hd Hs HR HV G; cbn [NextBatch]; [discriminate|].
  unfold nextRow, nextPresent. rewrite Hp. cbn [rbind]. destruct (Null y); cbn [rbind].
  - pose proof (IH n c d dr v Hk Hp Hd Hs HR HV G) as X. destruct (NextBatch inflate o c vec) as [[xs c2]| |]; cbn [rbind]; congruence.
  - unfold nextValue. rewrite Hk. unfold nextRaw. rewrite Hd. pose proof (sim inflate o Ho file start len Hlen DecodeVarInt64 d dr HR) as S. destruct (run DecodeVarInt64 dr) as [[x t]| |] eqn:Er; [|rewrite S; discriminate|exfalso; exact (NoCrash_run DecodeVarInt64 NC_varint dr Er)].
    destruct S as (d' & -> & R'). cbn [rbind]. unfold nextSecond. rewrite Hs. pose proof (gone_next start2 len2 true bs n v Hlen2 Hb G) as F. cbn [dec] in F. destruct (v_Next inflate o DecodeInt v) as [[z v']| |]; cbn [rbind]; [|discriminate|].
    + unfold typed in Hy. destruct (V y) eqn:Ey; try destruct Hy. cbn [rbind].
      match goal with |- context [NextBatch inflate o ?c1 vec] => assert (X : NextBatch inflate o c1 vec <> Panic) by (apply (IH (S n) c1 d' t v'); auto; intros m Hm; replace (S n + m)%nat with (n + S m)%nat by lia; apply HV; econstructor; eassumption); destruct (NextBatch inflate o c1 vec) as [[xs c2]| |]; cbn [rbind]; congruence end.
    + exfalso. apply Hn. destruct F as (_ & p & us & q & E & H & Hq & L). exists p, us, q. repeat (split; [assumption|]). rewrite L. replace (S n) with (n + 1)%nat by lia. apply HV. econstructor; [exact Er|constructor].
Qed.
End Decimal.
Lemma decimal_iff h s pre enc post digits s2 pre2 enc2 post2 bs : file = pre ++ enc ++ post -> framed (fun d => d <> []) inflate o enc digits -> st_kind s = sDATA -> st_length s = zlen enc ->
  file = pre2 ++ enc2 ++ post2 -> framed (fun d => d <> []) inflate o enc2 bs -> bytes bs -> st_kind s2 = sSECONDARY -> st_length s2 = zlen enc2 ->
  exists r, openColumn inflate o file (RCol (newColR KDecimal h)) [(s, zlen pre); (s2, zlen pre2)] = Ok r /\ (calm inflate o r <-> ~ reached_scale bs digits).
Proof.
  intros Hf Hfr Hs Hl Hf2 Hfr2 Hb Hs2 Hl2. destruct (framed_rep pre enc post digits Hf Hfr) as [Hlen HR]. destruct (framed_rep pre2 enc2 post2 bs Hf2 Hfr2) as [Hlen2 HR2].
  set (d := newReader file (zlen pre) (zlen enc)) in *. set (v := newVreader (newReader file (zlen pre2) (zlen enc2)) : vreader Z). set (c := setSecond v (setData (RRaw d) (newColR KDecimal h))).
  exists (RCol c). split.
  - cbn [openColumn]. rewrite Hs. cbn [Z.eqb Pos.eqb any_InitStream]. unfold InitStream. rewrite Hs, Hl, Hs2, Hl2. cbn [Z.eqb Pos.eqb].
    unfold c, v, d. cbn [newColR cr_kind dataReader rbind any_InitStream]. unfold InitStream. rewrite Hs2, Hl2. reflexivity.
  - split.
    + intros H (p & us & q & E & Hr & Ho' & HV). subst bs. destruct (reach (zlen pre2) (zlen enc2) Hlen2 true p us Hr v q eq_refl Hb HR2) as (v' & E1 & Hv & R').
      assert (Hq : bytes q) by (apply Forall_app in Hb; apply Hb). pose proof (next_run (zlen pre2) (zlen enc2) Hlen2 true v' q Hv Hq R') as N. rewrite (proj2 (panic_all true q Hq) (conj eq_refl Ho')) in N.
      apply (H (repeat naught (S (length us)))); [apply Forall_forall; intros y Hy; apply repeat_spec in Hy; subst y; exact I|]. apply (decimal_crash (zlen pre) (zlen enc) Hlen _ c d digits v v'); auto.
    + intros Hn vec Hv. apply (decimal_batch (zlen pre) (zlen enc) (zlen pre2) (zlen enc2) Hlen Hlen2 bs digits vec Hb Hn Hv O c d digits v); auto. exists [], [], bs. split; [reflexivity|]. split; [constructor|]. split; [reflexivity|assumption].
Qed.

(** Dictionaries. *)
Lemma next_unfinished v x w : v_Next inflate o DecodeUInt v = Ok (x, w) -> v_Finished v = false.
Proof.
  intros H. destruct (v_Finished v) eqn:E; [|reflexivity]. exfalso. unfold v_Finished, r_finished in E. apply andb_prop in E. destruct E as [E E3]. apply andb_prop in E. destruct E as [E1 E2].
  unfold v_Next in H. destruct (v_vals v); [|discriminate E3]. unfold r_run, DecodeUInt, decode in H. cbn [runS] in H. unfold r_ReadByte in H. destruct (r_buf (v_s v)); [|discriminate E2]. rewrite E1 in H. discriminate H.
Qed.
Section Dictionary.
Variable start len start2 len2 start3 len3 : Z.
Hypothesis Hlen : 0 <= len < W64.
Hypothesis Hlen2 : 0 <= len2 < W64.
Hypothesis Hlen3 : 0 <= len3 < W64.
(** DICT at [start], LENGTH at [start2], DATA at [start3]. *)
Notation R := (Rep inflate o file start len).
Notation R2 := (Rep inflate o file start2 len2).
Notation R3 := (Rep inflate o file start3 len3).
(** Ahead: the lengths [a], with their bytes, and then [z]. *)
Definition ahead (a z : list Z) (w : vreader Z) (x : vreader Z * option reader * list (list Z)) : Prop :=
  exists d data, snd (fst x) = Some d /\ R d data /\ gives (a ++ z) (fst (fst x)) w /\ Forall (fun n => 0 <= i64 n) a /\ total a <= zlen data.
Lemma load_step y a z w x : ahead (y :: a) z w x -> exists x', loadOne inflate o x = Ok x' /\ ahead a z w x' /\ v_Finished (fst (fst x)) = false /\ length (snd x') = S (length (snd x)).
Proof.
  destruct x as [[v d0] acc]. intros (d & data & E & HR & Hg & Hpos & Ht). cbn [fst snd] in *. subst d0. cbn [app gives] in Hg. destruct Hg as (v1 & En & Hg). inversion Hpos as [|? ? Hy Hpos']; subst. pose proof (total_pos a Hpos') as Ha. cbn [total fold_right] in Ht. fold (total a) in Ht.
  pose proof (take_bytes start len Hlen (i64 y) d data Hy HR) as T. destruct (Z.leb_spec (i64 y) (zlen data)) as [Hle|Hle]; [|lia]. destruct T as (d' & T & R').
  exists (v1, Some d', acc ++ [ztake (i64 y) data]). unfold loadOne. rewrite En. cbn [rbind]. rewrite T. cbn [rbind]. split; [reflexivity|]. split; [|split; [eapply next_unfinished; exact En|cbn [snd]; rewrite app_length; cbn; lia]].
  exists d', (zdrop (i64 y) data). cbn [fst snd]. split; [reflexivity|]. split; [exact R'|]. split; [exact Hg|]. split; [exact Hpos'|]. unfold zdrop, zlen in *. rewrite skipn_length. lia.
Qed.
Lemma pow_S n : 2 ^ Z.of_nat (S n) = 2 ^ Z.of_nat n + 2 ^ Z.of_nat n.
Proof. rewrite Nat2Z.inj_succ, Z.pow_succ_r by lia. lia. Qed.
Lemma load_crash l z w n : i64 l < 0 -> forall a x, ahead a (l :: z) w x ->
  (zlen a < 2 ^ Z.of_nat n -> loadMany inflate o n x = Panic) /\
  (2 ^ Z.of_nat n <= zlen a -> exists a' x', loadMany inflate o n x = Ok x' /\ ahead a' (l :: z) w x' /\ zlen a' = zlen a - 2 ^ Z.of_nat n).
Proof.
  intros Hneg. induction n as [|n IH]; intros a x H.
  - change (2 ^ Z.of_nat 0) with 1. cbn [loadMany]. destruct a as [|y a].
    + split; [intros _|intros X; cbn in X; lia]. destruct x as [[v d0] acc]. destruct H as (d & data & E & HR & Hg & _). cbn [fst snd] in *. subst d0. cbn [app gives] in Hg. destruct Hg as (v1 & En & _). rewrite (next_unfinished _ _ _ En). unfold loadOne. rewrite En. cbn [rbind]. unfold DecodeBytes. destruct (Z.ltb_spec (i64 l) 0); [reflexivity|lia].
    + split; [intros X; unfold zlen in X; cbn [length] in X; lia|intros _]. destruct (load_step _ _ _ _ _ H) as (x' & E & H' & -> & _). exists a, x'. split; [exact E|]. split; [exact H'|]. unfold zlen. cbn [length]. lia.
  - rewrite pow_S. assert (Hp : 0 < 2 ^ Z.of_nat n) by (apply Z.pow_pos_nonneg; lia). destruct (IH a x H) as [I1 I2]. cbn [loadMany].
    assert (F : v_Finished (fst (fst x)) = false).
    { destruct H as (d & data & _ & _ & Hg & _). destruct a as [|y a]; cbn [app gives] in Hg; destruct Hg as (v1 & En & _); eapply next_unfinished; exact En. }
    rewrite F. split; intros Hz.
    + destruct (Z_lt_ge_dec (zlen a) (2 ^ Z.of_nat n)) as [Hs|Hs]; [rewrite (I1 Hs); reflexivity|]. destruct I2 as (a' & x' & -> & H' & L); [lia|]. cbn [rbind]. apply (IH a' x' H'). lia.
    + destruct I2 as (a' & x' & -> & H' & L); [lia|]. cbn [rbind]. destruct (proj2 (IH a' x' H')) as (a2 & x2 & E2 & H2 & L2); [lia|]. exists a2, x2. split; [exact E2|]. split; [exact H2|]. lia.
Qed.
Lemma load_all w n : v_Finished w = true -> forall a x, ahead a [] w x ->
  exists a' x', loadMany inflate o n x = Ok x' /\ ahead a' [] w x' /\ zlen a' = Z.max 0 (zlen a - 2 ^ Z.of_nat n) /\ zlen (snd x') + zlen a' = zlen (snd x) + zlen a.
Proof.
  intros Hw. induction n as [|n IH]; intros a x H; cbn [loadMany].
  - change (2 ^ Z.of_nat 0) with 1. destruct a as [|y a].
    + assert (fst (fst x) = w) as E by (destruct H as (d & data & _ & _ & Hg & _); exact Hg). rewrite E, Hw. exists [], x. split; [reflexivity|]. split; [exact H|]. cbn. lia.
    + destruct (load_step _ _ _ _ _ H) as (x' & E & H' & -> & L). exists a, x'. split; [exact E|]. split; [exact H'|]. unfold zlen. cbn [length]. lia.
  - rewrite pow_S. assert (Hp : 0 < 2 ^ Z.of_nat n) by (apply Z.pow_pos_nonneg; lia). destruct a as [|y a].
    + assert (fst (fst x) = w) as E by (destruct H as (d & data & _ & _ & Hg & _); exact Hg). rewrite E, Hw. exists [], x. split; [reflexivity|]. split; [exact H|]. cbn [zlen length]. unfold zlen. cbn [length]. lia.
    + destruct (load_step _ _ _ _ _ H) as (_ & _ & _ & -> & _). destruct (IH _ _ H) as (a1 & x1 & -> & H1 & L1 & C1). cbn [rbind]. destruct (IH _ _ H1) as (a2 & x2 & -> & H2 & L2 & C2). exists a2, x2. split; [reflexivity|]. split; [exact H2|]. lia.
Qed.
Lemma rows_crash ss w is : forall v, gives is v w -> Exists (fun i => nth_error ss (Z.to_nat i) = None) is -> dictRows inflate o ss None (Some v) (repeat blank (length is)) = Panic.
Proof.
  induction is as [|i is IH]; intros v Hg Hx; [inversion Hx|]. cbn [gives] in Hg. destruct Hg as (v1 & En & Hg). cbn [length repeat dictRows rbind blank Null nextSecond]. fold blank. rewrite En. cbn [rbind].
  destruct (if i <? zlen ss then nth_error ss (Z.to_nat i) else None) as [s|] eqn:Es; [|reflexivity].
  inversion Hx as [? ? Hi|? ? Hi]; subst; [rewrite Hi in Es; destruct (i <? zlen ss); discriminate Es|]. rewrite (IH v1 Hg Hi). reflexivity.
Qed.

(** No crash. *)
Definition loading_at (bs data : list Z) (x : vreader Z * option reader * list (list Z)) : Prop :=
  exists d p us rest a da dr, snd (fst x) = Some d /\ bs = p ++ rest /\ Runs false p us /\ us = a ++ v_vals (fst (fst x)) /\ R2 (v_s (fst (fst x))) rest /\
    Forall (fun n => 0 <= i64 n) a /\ data = da ++ dr /\ zlen da = total a /\ R d dr /\ length (snd x) = length a.
Lemma next_word st ln bs a v : 0 <= ln < W64 -> bytes bs -> (exists p us rest, bs = p ++ rest /\ Runs false p us /\ us = a ++ v_vals v /\ Rep inflate o file st ln (v_s v) rest) ->
  fine (fun xv => exists p us rest, bs = p ++ rest /\ Runs false p us /\ us = (a ++ [fst xv]) ++ v_vals (snd xv) /\ Rep inflate o file st ln (v_s (snd xv)) rest) (v_Next inflate o DecodeUInt v).
Proof.
  intros Hl Hb (p & us & rest & E & Hr & Eu & HR). destruct (v_vals v) as [|x t] eqn:Ev.
  - assert (Hbr : bytes rest) by (subst bs; apply Forall_app in Hb; apply Hb). pose proof (next_run st ln Hl false v rest Ev Hbr HR) as N. cbn [dec conv] in N. destruct (run (decode false) rest) as [[vs t]| |] eqn:Er.
    + destruct N as (s & x & xs & Rs & -> & ->). cbn [fine fst snd v_vals v_s]. destruct (run_suffix _ _ _ _ Er) as (c0 & ->). exists (p ++ c0), (us ++ x :: xs), t. split; [rewrite <- app_assoc; exact E|]. split; [constructor; [exact Hr|]; eapply run_part; exact Er|]. split; [|exact Rs]. rewrite Eu, app_nil_r, <- app_assoc. reflexivity.
    + rewrite N. exact I.
    + exfalso. apply (panic_all false rest Hbr) in Er. destruct Er as [Er _]. discriminate Er.
  - unfold v_Next. rewrite Ev. cbn [fine fst snd v_vals v_s]. exists p, us, rest. split; [exact E|]. split; [exact Hr|]. split; [rewrite <- app_assoc; exact Eu|exact HR].
Qed.
Lemma word_loads bs data x : bytes bs -> ~ reached_length bs data -> loading_at bs data x -> fine (loading_at bs data) (loadOne inflate o x).
Proof.
  destruct x as [[v d0] acc]. intros Hb Hn (d & p & us & rest & a & da & dr & E0 & E & Hr & Eu & HR & Hpos & Ed & Hz & HD & Hacc). cbn [fst snd] in *. subst d0. unfold loadOne.
  eapply fine_bind; [apply (next_word start2 len2 bs a v Hlen2 Hb); exists p, us, rest; auto|]. intros [y v'] (p' & us' & rest' & E' & Hr' & Eu' & HR'). cbn [fst snd] in *. pose proof (total_pos a Hpos) as Ha.
  assert (Hx : 0 <= i64 y).
  { destruct (Z.ltb_spec (i64 y) 0); [|lia]. exfalso. apply Hn. exists p', us', rest', a, y, (v_vals v'). split; [exact E'|]. split; [exact Hr'|]. split; [rewrite <- app_assoc in Eu'; exact Eu'|]. split; [assumption|]. split; [exact Hpos|]. fold (total a). rewrite <- Hz, Ed, zlen_app. pose proof (zlen_nonneg dr). lia. }
  pose proof (take_bytes start len Hlen (i64 y) d dr Hx HD) as T. destruct (Z.leb_spec (i64 y) (zlen dr)) as [Hle|Hle]; [|rewrite T; exact I]. destruct T as (d' & -> & R'). cbn [rbind fine].
  exists d', p', us', rest', (a ++ [y]), (da ++ ztake (i64 y) dr), (zdrop (i64 y) dr). cbn [fst snd]. split; [reflexivity|]. split; [exact E'|]. split; [exact Hr'|]. split; [exact Eu'|]. split; [exact HR'|].
  split; [apply Forall_app; split; [exact Hpos|repeat constructor; exact Hx]|]. split; [rewrite <- app_assoc; unfold ztake, zdrop; rewrite firstn_skipn; exact Ed|]. split; [|split; [exact R'|rewrite !app_length; cbn [length]; lia]].
  rewrite total_snoc, zlen_app, Hz. unfold ztake, zlen in *. rewrite firstn_length. lia.
Qed.
Lemma words_load bs data n : bytes bs -> ~ reached_length bs data -> forall x, loading_at bs data x -> fine (loading_at bs data) (loadMany inflate o n x).
Proof.
  intros Hb Hn. induction n as [|n IH]; intros x H; cbn [loadMany]; (destruct (v_Finished _); [exact H|]); [apply word_loads; assumption|]. eapply fine_bind; [apply IH; exact H|]. intros y Hy. apply IH. exact Hy.
Qed.
Lemma rows_safe nums (us : list Z) ss vec : bytes nums -> length ss = length us -> (forall p is q, nums = p ++ q -> Runs false p is -> ~ Exists (fun i => nth_error us (Z.to_nat i) = None) is) ->
  forall v a, (exists p is rest, nums = p ++ rest /\ Runs false p is /\ is = a ++ v_vals v /\ R3 (v_s v) rest) -> dictRows inflate o ss None (Some v) vec <> Panic.
Proof.
  intros Hb Hl Hn. induction vec as [|y vec IH]; intros v a H; cbn [dictRows rbind]; [discriminate|]. destruct (Null y).
  - pose proof (IH v a H) as X. destruct (dictRows inflate o ss None (Some v) vec) as [[[xs p2] d2]| |]; cbn [rbind]; congruence.
  - cbn [nextSecond]. pose proof (next_word start3 len3 nums a v Hlen3 Hb H) as F. destruct (v_Next inflate o DecodeUInt v) as [[i v']| |]; [|discriminate|destruct F]. cbn [fine fst snd rbind] in *. pose proof F as F'. destruct F as (p & is & rest & E & Hr & Ei & HR).
    assert (Hi : nth_error us (Z.to_nat i) <> None).
    { intros X. apply (Hn p is rest E Hr). apply Exists_exists. exists i. split; [rewrite Ei; apply in_app_iff; left; apply in_app_iff; right; left; reflexivity|exact X]. }
    apply nth_error_Some in Hi. rewrite <- Hl in Hi. destruct (Z.ltb_spec i (zlen ss)); [|unfold zlen in *; lia]. destruct (nth_error ss (Z.to_nat i)) as [s|] eqn:Es; [|apply nth_error_None in Es; lia].
    pose proof (IH v' (a ++ [i]) F') as X. destruct (dictRows inflate o ss None (Some v') vec) as [[[xs p2] d2]| |]; cbn [rbind]; congruence.
Qed.
End Dictionary.
Lemma dict_iff h s pre enc post nums s2 pre2 enc2 post2 bs s3 pre3 enc3 post3 data :
  file = pre ++ enc ++ post -> framed (fun d => d <> []) inflate o enc nums -> bytes nums -> st_kind s = sDATA -> st_length s = zlen enc ->
  file = pre2 ++ enc2 ++ post2 -> framed (fun d => d <> []) inflate o enc2 bs -> bytes bs -> st_kind s2 = sLENGTH -> st_length s2 = zlen enc2 ->
  file = pre3 ++ enc3 ++ post3 -> framed (fun d => d <> []) inflate o enc3 data -> st_kind s3 = sDICT -> st_length s3 = zlen enc3 -> countable bs ->
  exists r, openColumn inflate o file (RDict (newDictR h)) [(s, zlen pre); (s2, zlen pre2); (s3, zlen pre3)] = Ok r /\ (calm inflate o r <-> ~ reached_length bs data /\ ~ lost_word bs data nums).
Proof.
  intros Hf Hfr Hbn Hs Hl Hf2 Hfr2 Hb Hs2 Hl2 Hf3 Hfr3 Hs3 Hl3 Hcnt. destruct (framed_rep pre enc post nums Hf Hfr) as [Hlen HR]. destruct (framed_rep pre2 enc2 post2 bs Hf2 Hfr2) as [Hlen2 HR2]. destruct (framed_rep pre3 enc3 post3 data Hf3 Hfr3) as [Hlen3 HR3].
  set (vn := newVreader (newReader file (zlen pre) (zlen enc)) : vreader Z). set (v := newVreader (newReader file (zlen pre2) (zlen enc2)) : vreader Z). set (d := newReader file (zlen pre3) (zlen enc3)) in *.
  set (c := dict_words (Some d) (Some v) (dict_at None (Some vn) (newDictR h))).
  exists (RDict c). split.
  - cbn [openColumn]. rewrite Hs, Hs2, Hs3. cbn [Z.eqb Pos.eqb any_InitStream]. unfold dict_InitStream at 1. rewrite Hs, Hl. cbn [Z.eqb Pos.eqb rbind any_InitStream]. unfold dict_InitStream at 1. rewrite Hs2, Hl2. cbn [Z.eqb Pos.eqb rbind any_InitStream]. unfold dict_InitStream at 1. rewrite Hs3, Hl3. reflexivity.
  - split.
    + intros H. split.
      * intros (p & us & q & a & l & z & E & Hr & Eu & Hneg & Hpos & Ht). pose proof (Hcnt p us q E Hr) as Hz. subst bs us. destruct (reach_gives (zlen pre2) (zlen enc2) p _ Hlen2 Hr v q eq_refl Hb HR2) as (w & Hg & _).
        apply (H []). unfold dict_NextBatch, loadDict. cbn [c dict_words dict_at newDictR dr_loaded dr_length dr_dict dr_strings].
        rewrite (proj1 (load_crash (zlen pre3) (zlen enc3) Hlen3 l z w 64 Hneg a (v, Some d, []) (ex_intro _ d (ex_intro _ data (conj eq_refl (conj HR3 (conj Hg (conj Hpos Ht)))))))); [reflexivity|].
        change (Z.of_nat 64) with 64. unfold zlen in *. rewrite app_length in Hz. cbn [length] in Hz. lia.
      * intros (us & p & is & q & Hr & Hpos & Ht & E & Hri & Hx). pose proof (Hcnt bs us [] (eq_sym (app_nil_r bs)) Hr) as Hz.
        assert (HR2' : Rep inflate o file (zlen pre2) (zlen enc2) (v_s v) (bs ++ [])) by (rewrite app_nil_r; exact HR2). assert (Hb' : bytes (bs ++ [])) by (rewrite app_nil_r; exact Hb).
        destruct (reach_gives (zlen pre2) (zlen enc2) bs us Hlen2 Hr v [] eq_refl Hb' HR2') as (w & Hg & Hwv & Rw).
        assert (Fw : v_Finished w = true) by (unfold v_Finished; rewrite Hwv, (proj2 (Rep_finished inflate o Ho file (zlen pre2) (zlen enc2) Hlen2 (v_s w) [] Rw) eq_refl); reflexivity).
        rewrite <- (app_nil_r us) in Hg. destruct (load_all (zlen pre3) (zlen enc3) Hlen3 w 64 Fw us (v, Some d, []) (ex_intro _ d (ex_intro _ data (conj eq_refl (conj HR3 (conj Hg (conj Hpos Ht))))))) as (a' & [[v' d'] ss] & El & Ha & La & Lc).
        change (Z.of_nat 64) with 64 in La. assert (a' = []) as ->. { destruct a'; [reflexivity|]. unfold zlen in *. cbn [length] in La. lia. }
        destruct Ha as (d2 & dat2 & E2 & _ & Hg2 & _). cbn [fst snd app gives] in *. subst d' v'.
        subst nums. destruct (reach_gives (zlen pre) (zlen enc) p is Hlen Hri vn q eq_refl Hbn HR) as (w2 & Hg3 & _).
        apply (H (repeat blank (length is))). unfold dict_NextBatch, loadDict. cbn [c dict_words dict_at newDictR dr_loaded dr_length dr_dict dr_strings]. rewrite El. cbn [rbind]. rewrite Fw. cbn [rbind dict_loaded dict_words dict_at dr_strings dr_present dr_data newDictR c].
        rewrite (rows_crash ss w2 is vn Hg3); [reflexivity|]. eapply Exists_impl; [|exact Hx]. intros i Hi. apply nth_error_None in Hi. apply nth_error_None. unfold zlen in Lc. cbn [length] in Lc. lia.
    + intros [Hn1 Hn2] vec. unfold dict_NextBatch, loadDict. cbn [c dict_words dict_at newDictR dr_loaded dr_length dr_dict dr_strings].
      pose proof (words_load (zlen pre3) (zlen enc3) (zlen pre2) (zlen enc2) Hlen3 Hlen2 bs data 64 Hb Hn1 (v, Some d, [])) as F.
      destruct (loadMany inflate o 64 (v, Some d, [])) as [[[v' d'] ss]| |]; [|discriminate|].
      * cbn [rbind]. destruct (v_Finished v') eqn:Ef; [|discriminate]. cbn [rbind dict_loaded dict_words dict_at dr_strings dr_present dr_data newDictR c].
        destruct F as (d2 & p & us & rest & a & da & dr & E0 & E & Hr & Eu & HRv & Hpos & Ed & Hz & _ & Hacc).
        { exists d, [], [], bs, [], [], data. cbn [fst snd]. repeat match goal with |- _ /\ _ => split end; auto; try reflexivity; constructor. }
        cbn [fst snd] in *. unfold v_Finished in Ef. apply andb_prop in Ef. destruct Ef as [Ef1 Ef2]. apply (Rep_finished inflate o Ho file (zlen pre2) (zlen enc2) Hlen2 (v_s v') rest HRv) in Ef1. destruct (v_vals v'); [|discriminate Ef2]. subst rest. rewrite app_nil_r in E, Eu. subst p us.
        assert (X : dictRows inflate o ss None (Some vn) vec <> Panic).
        { apply (rows_safe (zlen pre) (zlen enc) Hlen nums a ss vec Hbn Hacc) with (a := []).
          - intros p is q En Hri Hx. apply Hn2. exists a, p, is, q. split; [exact Hr|]. split; [exact Hpos|]. split; [fold (total a); rewrite <- Hz, Ed, zlen_app; pose proof (zlen_nonneg dr); lia|]. auto.
          - exists [], [], nums. split; [reflexivity|]. split; [constructor|]. split; [reflexivity|exact HR]. }
        destruct (dictRows inflate o ss None (Some vn) vec) as [[[xs p2] d3]| |]; cbn [rbind]; congruence.
      * exfalso. apply F. exists d, [], [], bs, [], [], data. cbn [fst snd]. repeat match goal with |- _ /\ _ => split end; auto; try reflexivity; constructor.
Qed.
End Whole.
