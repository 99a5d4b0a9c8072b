(** Counterexamples in integer streams, and the statements of Properties/IntRuns.v
    that need a line or two of glue. *)
From Verif.Model Require Import Codec IntRle.
From Verif.Spec Require Import Bits Session IntSpec OrcInt.
From Verif.Proofs Require Import Base CodecP SessionP BitsP IntRunsP IntDeltaP IntPatchP IntStreamP IntClaimsP OrcIntP.

Lemma direct_run signed values rest : Forall is_u64 values -> 1 <= zlen values <= 512 ->
  ~ Forall (fun v => v = 0) values ->
  exists o, writeDirect values true = Ok o /\ bytes o /\ run (decode signed) (o ++ rest) = Ok (values, rest).
Proof.
  intros H1 H2 H3. destruct (writeDirect_spec signed values H1 H2 H3) as (o & Ho & Hb & _ & Hr).
  exists o. split; [exact Ho|]. split; [exact Hb|]. apply run_closed. exact Hr.
Qed.

Lemma direct_signed values rest : Forall is_i64 values -> 1 <= zlen values <= 512 ->
  ~ Forall (fun v => v = 0) values ->
  exists o, writeDirect (map Zigzag values) true = Ok o /\ run DecodeInt (o ++ rest) = Ok (values, rest).
Proof.
  intros H1 H2 H3.
  destruct (direct_run true (map Zigzag values) rest) as (o & Ho & _ & Hr).
  - apply Forall_map. eapply Forall_impl; [|exact H1]. intros. apply Zigzag_range. assumption.
  - unfold zlen in *. rewrite map_length. exact H2.
  - intros Hf. apply H3. clear - H1 Hf. induction values as [|v t IH]; [constructor|].
    inversion H1; subst. inversion Hf; subst. constructor; [|auto].
    rewrite <- (UnZigzag_Zigzag v) by assumption. replace (Zigzag v) with 0 by congruence. reflexivity.
  - exists o. split; [exact Ho|]. unfold DecodeInt. rewrite run_bind, Hr. cbn [rbind]. rewrite run_ret.
    do 2 f_equal. rewrite map_map. rewrite <- (map_id values) at 2. apply map_ext_in. intros v Hv.
    rewrite Forall_forall in H1. apply UnZigzag_Zigzag. apply H1. exact Hv.
Qed.

Lemma short_run signed r x rest : 3 <= r <= 10 -> is_u64 x -> dense x ->
  run (decode signed) (writeShortRepeat (r - 3) x ++ rest) = Ok (repeat x (Z.to_nat r), rest).
Proof. intros Hr Hx Hd. apply run_closed. apply shortRepeat_iff; assumption. Qed.

Definition roundTrip (signed : bool) (vs : list Z) : res (list Z) :=
  let! (e, o) := segment int_Encode int_Flush (NewIntRLV2 signed true) vs in
  decode_all (DecodeFor signed) o.

(** 1, 2, 1, 2, ... *)
Fixpoint alternate (n : nat) : list Z := match n with O => [] | S m => 1 :: 2 :: alternate m end.

Lemma is_int_small signed vs : forallb (fun v => (0 <=? v) && (v <? W63)) vs = true -> Forall (is_int signed) vs.
Proof.
  intros H. rewrite forallb_forall in H. apply Forall_forall. intros v Hv. apply H in Hv.
  unfold is_int, is_i64, is_u64. destruct signed; lia.
Qed.

Lemma faults_zero : roundTrip true [0] = Err.
Proof. vm_compute. reflexivity. Qed.

(** The stream is written and does not decode to [vs]. *)
Definition corrupts (signed : bool) (vs : list Z) : bool :=
  match segment int_Encode int_Flush (NewIntRLV2 signed true) vs with
  | Ok (e, o) =>
      match decode_all (DecodeFor signed) o with
      | Ok ws => negb ((length ws =? length vs)%nat && forallb (fun p => fst p =? snd p) (combine ws vs))
      | _ => true
      end
  | _ => false
  end.
Lemma corrupts_spec signed vs : corrupts signed vs = true ->
  exists e o, segment int_Encode int_Flush (NewIntRLV2 signed true) vs = Ok (e, o) /\
    decode_all (DecodeFor signed) o <> Ok vs.
Proof.
  unfold corrupts. destruct (segment _ _ _ vs) as [[e o]| |]; try discriminate. intros H.
  exists e, o. split; [reflexivity|]. intros E. rewrite E in H. rewrite Nat.eqb_refl in H. cbn [andb] in H.
  apply negb_true_iff in H. assert (T : forallb (fun p => fst p =? snd p) (combine vs vs) = true).
  { clear. induction vs as [|v t IH]; [reflexivity|]. cbn [combine forallb fst snd]. rewrite Z.eqb_refl. exact IH. }
  congruence.
Qed.
Lemma alternate_corrupts : corrupts false (alternate 300) = true.
Proof. vm_compute. reflexivity. Qed.
Lemma alternate_aborts : feed int_Encode (NewIntRLV2 true true) (alternate 256) = Panic.
Proof. vm_compute. reflexivity. Qed.
Lemma zero_corrupts signed : corrupts signed [0] = true.
Proof. destruct signed; vm_compute; reflexivity. Qed.

Lemma stream_faults :
  (forall signed, exists e o, segment int_Encode int_Flush (NewIntRLV2 signed true) [0] = Ok (e, o) /\
     decode_all (DecodeFor signed) o <> Ok [0]) /\
  (exists vs e o, length vs = 600%nat /\ Forall is_u64 vs /\
     segment int_Encode int_Flush (NewIntRLV2 false true) vs = Ok (e, o) /\
     decode_all (DecodeFor false) o <> Ok vs) /\
  (exists vs, length vs = 512%nat /\ Forall is_i64 vs /\
     feed int_Encode (NewIntRLV2 true true) vs = Panic).
Proof.
  split; [|split].
  - intros signed. apply corrupts_spec, zero_corrupts.
  - destruct (corrupts_spec false _ alternate_corrupts) as (e & o & H1 & H2).
    exists (alternate 300), e, o. split; [reflexivity|].
    split; [apply (is_int_small false); vm_compute; reflexivity|]. split; assumption.
  - exists (alternate 256). split; [reflexivity|].
    split; [apply (is_int_small true); vm_compute; reflexivity|]. exact alternate_aborts.
Qed.

Lemma decode_total_iff signed i : bytes i -> (signed = true -> hd 0 i / 64 <> 2) ->
  run (decode signed) i = Err \/ exists vs r, vs <> [] /\ run (decode signed) i = Ok (vs, r).
Proof.
  intros Hb Hs. pose proof (decode_no_crash signed i Hb Hs) as Hn.
  destruct (run (decode signed) i) as [[vs r]| |] eqn:E; [right|left; reflexivity|congruence].
  exists vs, r. split; [|reflexivity]. eapply decode_nonempty; eassumption.
Qed.
