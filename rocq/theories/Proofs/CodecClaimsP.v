(** User-level statements about the scalar, byte and boolean codecs. *)
From Verif.Model Require Import Codec ByteBool.
From Verif.Spec Require Import Session BoolSpec.
From Verif.Proofs Require Import Base CodecP SessionP ByteBoolP.

(** ** Zigzag *)

Lemma zigzag_bijection :
  (forall x, is_i64 x -> is_u64 (Zigzag x) /\ UnZigzag (Zigzag x) = x) /\
  (forall u, is_u64 u -> is_i64 (UnZigzag u) /\ Zigzag (UnZigzag u) = u).
Proof.
  split.
  - intros x H. split; [apply Zigzag_range; exact H|apply UnZigzag_Zigzag; exact H].
  - intros u H. split; [apply UnZigzag_range; exact H|apply Zigzag_UnZigzag; exact H].
Qed.
Lemma zigzag_magnitude x : is_i64 x -> 2 * Z.abs x - 1 <= Zigzag x <= 2 * Z.abs x.
Proof. intros H. rewrite Zigzag_spec by exact H. destruct (Z.ltb_spec x 0); lia. Qed.

(** ** Varints *)

Lemma uvarint_total v : is_u64 v -> exists o, PutUvarint 10 v = Ok o /\ bytes o /\ (1 <= length o <= 10)%nat.
Proof.
  intros H. destruct (PutUvarint_room 10 v ltac:(apply H)) as [_ Hr].
  destruct Hr as (o & Ho).
  - split; [lia|]. unfold is_u64 in H. change (2 ^ (7 * Z.of_nat 10)) with 1180591620717411303424. lia.
  - exists o. split; [exact Ho|]. split; [eapply PutUvarint_bytes; [apply H|exact Ho]|].
    eapply PutUvarint_length; [apply H|exact Ho].
Qed.

Lemma ReadVUint_put : forall room x acc s o rest,
  0 <= x -> 0 <= s -> 0 <= acc < 2 ^ s -> x * 2 ^ s + acc < W64 ->
  PutUvarint room x = Ok o ->
  ReadVUint_loop (o ++ rest) acc s = Ok (acc + x * 2 ^ s, rest).
Proof.
  induction room as [|r IH]; intros x acc s o rest Hx Hs Hacc Hb H; [discriminate|].
  pose proof (pow2_pos s Hs) as Hp. cbn [PutUvarint] in H.
  destruct (Z.ltb_spec x 128).
  - injection H as <-. rewrite u8_id by (unfold is_u8; lia). cbn [app ReadVUint_loop].
    destruct (Z.ltb_spec x 128); [|lia].
    rewrite Z.land_comm, land_127, Z.mod_small by lia. rewrite shiftl_mul by exact Hs.
    rewrite u64_id by (unfold is_u64; nia). rewrite Z.lor_comm, lor_add by lia.
    do 2 f_equal. lia.
  - apply rbind_inv in H. destruct H as (t & Ht & H). injection H as <-.
    rewrite lor_128 by apply u8_range. cbn [app ReadVUint_loop].
    destruct (Z.ltb_spec (128 + u8 x mod 128) 128) as [E|_].
    { pose proof (Z.mod_pos_bound (u8 x) 128). lia. }
    assert (Hu : (128 + u8 x mod 128) mod 128 = x mod 128) by (unfold u8; zlia).
    rewrite Z.land_comm, land_127, Hu, shiftl_mul by exact Hs.
    assert (Hxm : x = 128 * (x / 128) + x mod 128) by zlia.
    pose proof (Z.mod_pos_bound x 128 ltac:(lia)) as Hm.
    assert (Hd : 0 <= x / 128) by (apply Z.div_pos; lia).
    rewrite u64_id by (unfold is_u64; nia).
    rewrite Z.lor_comm, lor_add by lia.
    rewrite shiftr_div in Ht by lia. change (2 ^ 7) with 128 in Ht.
    assert (H27 : 2 ^ (s + 7) = 2 ^ s * 128) by (rewrite Z.pow_add_r by lia; reflexivity).
    rewrite (IH (x / 128) (x mod 128 * 2 ^ s + acc) (s + 7) t rest).
    + do 2 f_equal. rewrite H27. nia.
    + exact Hd.
    + lia.
    + rewrite H27. nia.
    + rewrite H27. nia.
    + exact Ht.
Qed.
Lemma ReadVUint_Put room x o rest : is_u64 x -> PutUvarint room x = Ok o ->
  ReadVUint (o ++ rest) = Ok (x, rest).
Proof.
  unfold is_u64. intros Hx H. unfold ReadVUint.
  rewrite (ReadVUint_put room x 0 0 o rest) by (try exact H; cbn; lia).
  do 2 f_equal. change (2 ^ 0) with 1. lia.
Qed.

(** Unsigned and signed values: read back exactly with any continuation, and every
    proper prefix is an error. *)
Lemma uvarint_lossless v : is_u64 v ->
  exists o, PutUvarint 10 v = Ok o /\ (1 <= length o <= 10)%nat /\
    (forall rest, run ReadUvarint (o ++ rest) = Ok (v, rest)) /\
    (forall rest, ReadVUint (o ++ rest) = Ok (v, rest)) /\
    (forall p q, o = p ++ q -> q <> [] -> run ReadUvarint p = Err).
Proof.
  intros H. destruct (uvarint_total v H) as (o & Ho & _ & Hl). exists o.
  split; [exact Ho|]. split; [exact Hl|]. split; [intros; eapply ReadUvarint_Put; eassumption|].
  split; [intros; eapply ReadVUint_Put; eassumption|].
  intros p q E Hq. eapply read_uvarint_trunc; [apply H|exact Ho|exact E|exact Hq].
Qed.
Lemma varint_lossless v : is_i64 v ->
  exists o, varint64_Encode v = Ok o /\ bytes o /\ (1 <= length o <= 10)%nat /\
    (forall rest, run DecodeVarInt64 (o ++ rest) = Ok (v, rest)) /\
    (forall p q, o = p ++ q -> q <> [] -> run DecodeVarInt64 p = Err).
Proof.
  intros H. destruct (varint64_total v H) as (o & Ho & Hb). exists o. split; [exact Ho|].
  split; [exact Hb|].
  unfold varint64_Encode in Ho. pose proof (Zigzag_range v H) as Hz. split.
  { rewrite PutVarint_Zigzag in Ho by exact H. eapply PutUvarint_length; [apply Hz|exact Ho]. }
  split; [intros; eapply ReadVarint_Put; eassumption|].
  intros p q E Hq. unfold DecodeVarInt64, ReadVarint, ReadUvarint. rewrite run_bind.
  rewrite PutVarint_Zigzag in Ho by exact H.
  rewrite (read_uvarint_trunc 10 10 (Zigzag v) 0 0 o p q); [reflexivity|apply Hz|exact Ho|exact E|exact Hq].
Qed.

(** A decoder of single values, called until the input is used up. *)
Definition one {A} (p : prog A) : prog (list A) := do! v := p in Ret [v].

Lemma stateless_stream {V} (enc : V -> res (list Z)) (dec : prog V) (ok : V -> Prop) :
  (forall v, ok v -> exists o, enc v = Ok o /\ o <> [] /\ forall t, run dec (o ++ t) = Ok (v, t)) ->
  forall vs, Forall ok vs ->
  exists o, feed (fun (_ : unit) v => let! o := enc v in Ok (tt, o)) tt vs = Ok (tt, o) /\
    Runs (one dec) o vs.
Proof.
  intros H vs. induction vs as [|v t IH]; intros Hvs.
  - exists []. split; [reflexivity|constructor].
  - inversion Hvs as [|? ? Hv Ht]; subst. destruct (H v Hv) as (o1 & H1 & Hne & Hr).
    destruct (IH Ht) as (o2 & H2 & Hr2). cbn [feed]. rewrite H1. cbn [rbind]. rewrite H2.
    cbn [rbind]. exists (o1 ++ o2). split; [reflexivity|].
    change (v :: t) with ([v] ++ t). apply RunsCons; [exact Hne| |exact Hr2].
    intros r. unfold one. rewrite run_bind, Hr. reflexivity.
Qed.

Lemma varint_stream vs : Forall is_i64 vs ->
  exists o, feed (fun (_ : unit) v => let! o := varint64_Encode v in Ok (tt, o)) tt vs = Ok (tt, o) /\
    decode_all (do! v := DecodeVarInt64 in Ret [v]) o = Ok vs.
Proof.
  intros H. destruct (stateless_stream varint64_Encode DecodeVarInt64 is_i64) with (vs := vs)
    as (o & Ho & Hr); [|exact H|].
  - intros v Hv. destruct (varint_lossless v Hv) as (o & Ho & _ & Hl & Hr & _). exists o.
    split; [exact Ho|]. split; [intros ->; cbn in Hl; lia|exact Hr].
  - exists o. split; [exact Ho|]. apply decode_all_Runs. exact Hr.
Qed.

Lemma float_stream vs : Forall is_u32 vs ->
  decode_all (do! v := DecodeFloat in Ret [v]) (flat_map float_Encode vs) = Ok vs.
Proof.
  intros H. apply decode_all_Runs. induction vs as [|v t IH]; [constructor|].
  inversion H as [|? ? Hv Ht]; subst. cbn [flat_map]. change (v :: t) with ([v] ++ t).
  apply RunsCons; [discriminate| |apply IH; exact Ht].
  intros r. rewrite run_bind, DecodeFloat_Encode by exact Hv. reflexivity.
Qed.
Lemma double_stream vs : Forall is_u64 vs ->
  decode_all (do! v := DecodeDouble in Ret [v]) (flat_map double_Encode vs) = Ok vs.
Proof.
  intros H. apply decode_all_Runs. induction vs as [|v t IH]; [constructor|].
  inversion H as [|? ? Hv Ht]; subst. cbn [flat_map]. change (v :: t) with ([v] ++ t).
  apply RunsCons; [discriminate| |apply IH; exact Ht].
  intros r. rewrite run_bind, DecodeDouble_Encode by exact Hv. reflexivity.
Qed.

(** ** Byte runs *)

Lemma Forall2_map_res {A B} (P : A -> B -> Prop) (Q : A -> B -> Prop) l m :
  (forall a b, P a b -> Q a b) -> Forall2 P l m -> Forall2 Q l m.
Proof. intros H. induction 1; constructor; auto. Qed.

Lemma byte_lossless p vss : Forall bytes vss ->
  exists os, segments byte_Encode byte_Flush (NewByteEncoder p) vss = Ok os /\
    Forall2 (fun o vs => decode_all DecodeByteRL o = Ok vs) os vss.
Proof.
  intros H. destruct (byte_segments_spec vss _ (byte_New_inv p) eq_refl H) as (os & Ho & Hr).
  exists os. split; [exact Ho|]. eapply Forall2_map_res; [|exact Hr].
  intros o vs [_ Hrun]. apply decode_all_Runs. exact Hrun.
Qed.

(** From any state reached by feeding values, flushing completes the stream. *)
Lemma byte_segment_gen vs e : byte_inv e -> bytes vs ->
  exists e' o, segment byte_Encode byte_Flush e vs = Ok (e', o) /\ bytes o /\ byte_inv e' /\
    b_values e' = [] /\ Runs DecodeByteRL o (b_values e ++ vs).
Proof.
  intros He Hb. unfold segment.
  destruct (byte_feed_spec vs e He Hb) as (e1 & o1 & H1 & Hi1 & Hb1 & (d & Hd & Hr) & _).
  rewrite H1. cbn [rbind].
  destruct (byte_Flush_spec e1 Hi1) as (o2 & H2 & Hb2 & Hr2). rewrite H2. cbn [rbind].
  eexists. exists (o1 ++ o2). split; [reflexivity|]. split; [apply bytes_app; auto|].
  split; [split; cbn; [constructor|lia]|]. split; [reflexivity|].
  rewrite Hd. apply Runs_app; assumption.
Qed.

Lemma byte_position pre post : bytes pre -> bytes post ->
  exists e1 o1 e2 o2 pos ws,
    feed byte_Encode (NewByteEncoder true) pre = Ok (e1, o1) /\
    segment byte_Encode byte_Flush e1 post = Ok (e2, o2) /\
    segment byte_Encode byte_Flush (NewByteEncoder true) (pre ++ post) = Ok (e2, o1 ++ o2) /\
    byte_GetPosition e1 = [pos] /\ 0 <= pos < 128 /\
    decode_all DecodeByteRL o2 = Ok ws /\ pos <= zlen ws /\ zdrop pos ws = post.
Proof.
  intros Hp Hq.
  destruct (byte_feed_spec pre _ (byte_New_inv true) Hp) as (e1 & o1 & H1 & Hi1 & Hb1 & _ & Hpos & _).
  destruct (byte_segment_gen post e1 Hi1 Hq) as (e2 & o2 & H2 & Hb2 & Hi2 & Hv2 & Hr2).
  assert (Hp1 : b_position e1 = zlen (b_values e1)).
  { destruct pre as [|v t].
    - cbn in H1. injection H1 as <- <-. reflexivity.
    - apply Hpos; [discriminate|cbn; lia]. }
  destruct Hi1 as [_ Hl1].
  exists e1, o1, e2, o2, (zlen (b_values e1)), (b_values e1 ++ post).
  split; [exact H1|]. split; [exact H2|]. split.
  { unfold segment in *. rewrite feed_app, H1. cbn [rbind].
    destruct (feed byte_Encode e1 post) as [[e1' o1']| |]; cbn [rbind] in *; try discriminate.
    destruct (byte_Flush e1') as [[e2' o2']| |]; cbn [rbind] in *; try discriminate.
    injection H2 as <- <-. rewrite app_assoc. reflexivity. }
  split. { unfold byte_GetPosition. rewrite Hp1, u64_id; [reflexivity|]. unfold is_u64, zlen. lia. }
  split; [unfold zlen; lia|]. split; [apply decode_all_Runs; exact Hr2|].
  split; [unfold zlen; rewrite app_length; lia|].
  unfold zdrop, zlen. rewrite Nat2Z.id. apply skipn_app_exact.
Qed.

(** ** Boolean runs *)

Lemma bool_lossless p vs : exists e o,
  segment bool_Encode bool_Flush (NewBoolEncoder p) vs = Ok (e, o) /\
  exists pad, decode_all DecodeBools o = Ok (vs ++ repeat false pad) /\ (pad < 8)%nat.
Proof.
  destruct (bool_segment_spec vs _ _ (bool_New_inv p) eq_refl) as (e & o & H & _ & _ & _ & Hr).
  exists e, o. split; [exact H|].
  exists (Nat.modulo (8 - Nat.modulo (length vs) 8) 8). split.
  - apply decode_all_Runs in Hr. rewrite Hr. unfold stored. rewrite or_onto_nil. reflexivity.
  - apply Nat.mod_upper_bound. lia.
Qed.

(** What is stored when the same encoder writes several streams. *)
Lemma bool_reuse_exact p segs :
  exists os, segments bool_Encode bool_Flush (NewBoolEncoder p) segs = Ok os /\
    Forall2 (fun o r => decode_all DecodeBools o = Ok r) os (stored_all [] segs).
Proof.
  destruct (bool_segments_spec segs _ _ (bool_New_inv p) eq_refl) as (os & H & Hr).
  exists os. split; [exact H|]. eapply Forall2_map_res; [|exact Hr].
  intros o r [_ Hrun]. apply decode_all_Runs. exact Hrun.
Qed.

(** The second stream is intact exactly when the bits left over from the incomplete
    last byte of the first one are also set in it. *)
Lemma or_onto_iff l : forall s, or_onto l s = l <->
  forall i, nth i s false = true -> (i < length l)%nat -> nth i l false = true.
Proof.
  induction l as [|x l IH]; intros s.
  - destruct s; cbn; split; auto; intros; lia.
  - destruct s as [|y s].
    + cbn [or_onto]. split; [|reflexivity]. intros _ i Hi. destruct i; discriminate.
    + cbn [or_onto]. split.
      * intros H. injection H as H1 H2. intros i Hi Hl. destruct i as [|i].
        -- cbn in Hi |- *. subst y. rewrite <- H1. apply orb_true_r.
        -- cbn [nth length] in *. apply (proj1 (IH s) H2 i Hi). lia.
      * intros H. f_equal.
        -- destruct y; [|apply orb_false_r]. specialize (H O eq_refl ltac:(cbn; lia)).
           cbn in H. rewrite H. reflexivity.
        -- apply IH. intros i Hi Hl. apply (H (S i) Hi). cbn [length]. lia.
Qed.

(** The bits of the incomplete last byte of a fresh stream. *)
Definition lastBits (l : list bool) : list bool := skipn (8 * Nat.div (length l) 8) l.

Lemma skipn_pad8 a : Nat.modulo (length a) 8 <> O ->
  skipn (length (pad8 a) - 8) (pad8 a) = lastBits a ++ repeat false (8 - Nat.modulo (length a) 8).
Proof.
  intros H. unfold pad8, lastBits.
  pose proof (Nat.mod_upper_bound (length a) 8 ltac:(lia)) as Hm.
  rewrite (Nat.mod_small (8 - _)) by lia.
  rewrite app_length, repeat_length.
  pose proof (Nat.div_mod (length a) 8 ltac:(lia)) as Hd.
  replace (length a + (8 - length a mod 8) - 8)%nat with (8 * (length a / 8))%nat by lia.
  rewrite skipn_app. replace (8 * (length a / 8) - length a)%nat with O by lia. reflexivity.
Qed.

Lemma lastBits_nth a i : nth i (lastBits a) false = nth (8 * Nat.div (length a) 8 + i) a false.
Proof.
  unfold lastBits. generalize (8 * (length a / 8))%nat as n. intros n. revert a.
  induction n as [|n IH]; intros a; [reflexivity|].
  destruct a as [|x a]; [cbn; destruct i; reflexivity|]. cbn [skipn Nat.add nth]. apply IH.
Qed.

Lemma bool_reuse_iff p a b : exists e1 o1 e2 o2,
  segment bool_Encode bool_Flush (NewBoolEncoder p) a = Ok (e1, o1) /\
  segment bool_Encode bool_Flush e1 b = Ok (e2, o2) /\
  ((exists pad, decode_all DecodeBools o2 = Ok (b ++ repeat false pad) /\ (pad < 8)%nat) <->
   forall i, nth (8 * Nat.div (length a) 8 + i) a false = true ->
     (i < length b \/ b <> [] /\ i < 8)%nat -> nth i b false = true).
Proof.
  destruct (bool_segment_spec a _ _ (bool_New_inv p) eq_refl) as (e1 & o1 & H1 & Hi1 & Hv1 & _ & _).
  destruct (bool_segment_spec b e1 _ Hi1 Hv1) as (e2 & o2 & H2 & _ & _ & _ & Hr).
  exists e1, o1, e2, o2. split; [exact H1|]. split; [exact H2|].
  apply decode_all_Runs in Hr. rewrite Hr. clear Hr.
  assert (Hst : forall i, nth i (next_stale [] a) false = nth (8 * Nat.div (length a) 8 + i) a false).
  { intros i. unfold next_stale. rewrite <- lastBits_nth.
    destruct (Nat.eqb_spec (length a mod 8) 0) as [H0|H0].
    - assert (El : lastBits a = []).
      { unfold lastBits. apply skipn_all2. pose proof (Nat.div_mod (length a) 8 ltac:(lia)). lia. }
      rewrite El. destruct a; reflexivity.
    - unfold stored. rewrite or_onto_nil, skipn_pad8 by exact H0.
      assert (Hll : length (lastBits a) = Nat.modulo (length a) 8).
      { unfold lastBits. rewrite skipn_length. pose proof (Nat.div_mod (length a) 8 ltac:(lia)). lia. }
      destruct (Nat.lt_ge_cases i (length (lastBits a))) as [Hi|Hi].
      + apply app_nth1. exact Hi.
      + rewrite app_nth2 by exact Hi. rewrite nth_repeat. symmetry. apply nth_overflow. exact Hi. }
  assert (Hpl : forall i, (i < length (pad8 b))%nat -> nth i (pad8 b) false = nth i b false).
  { intros i Hi. unfold pad8. destruct (Nat.lt_ge_cases i (length b)) as [H|H].
    - apply app_nth1. exact H.
    - rewrite app_nth2, nth_repeat by exact H. symmetry. apply nth_overflow. exact H. }
  assert (Hlen8 : (length (pad8 b) = length b + (8 - length b mod 8) mod 8)%nat)
    by (unfold pad8; rewrite app_length, repeat_length; reflexivity).
  pose proof (Nat.mod_upper_bound (length b) 8 ltac:(lia)) as Hmb.
  pose proof (Nat.div_mod (length b) 8 ltac:(lia)) as Hdb.
  unfold stored. split.
  - intros (pad & He & Hpad).
    assert (E : or_onto (pad8 b) (next_stale [] a) = b ++ repeat false pad) by congruence.
    assert (Hpadeq : pad = Nat.modulo (8 - Nat.modulo (length b) 8) 8).
    { apply (f_equal (@length bool)) in E. rewrite or_onto_length, app_length, repeat_length, Hlen8 in E. lia. }
    assert (E2 : or_onto (pad8 b) (next_stale [] a) = pad8 b) by (rewrite E; unfold pad8; rewrite Hpadeq; reflexivity).
    rewrite or_onto_iff in E2. intros i Hi Hl. rewrite <- Hst in Hi.
    assert (Hil : (i < length (pad8 b))%nat).
    { rewrite Hlen8. destruct Hl as [Hl|[Hne Hl]]; [lia|].
      assert ((1 <= length b)%nat) by (destruct b; [congruence|cbn; lia]).
      destruct (Nat.eq_dec (length b mod 8) 0) as [E0|E0].
      - lia.
      - rewrite (Nat.mod_small (8 - _)) by lia. lia. }
    rewrite <- Hpl by exact Hil. apply E2; assumption.
  - intros H. exists (Nat.modulo (8 - Nat.modulo (length b) 8) 8).
    split; [|apply Nat.mod_upper_bound; lia].
    f_equal. change (or_onto (pad8 b) (next_stale [] a) = pad8 b). apply or_onto_iff.
    intros i Hi Hl. rewrite Hpl by exact Hl. apply H; [rewrite <- Hst; exact Hi|].
    destruct (Nat.lt_ge_cases i (length b)); [left; assumption|]. right.
    assert (Hi8 : (i < 8)%nat).
    { destruct (Nat.lt_ge_cases i 8) as [|Hge]; [assumption|].
      exfalso. rewrite Hst in Hi.
      rewrite nth_overflow in Hi; [discriminate|].
      pose proof (Nat.div_mod (length a) 8 ltac:(lia)).
      pose proof (Nat.mod_upper_bound (length a) 8 ltac:(lia)). lia. }
    split; [|exact Hi8]. intros ->. cbn in Hl. lia.
Qed.

(** From any state, writing [seg] and flushing. *)
Lemma bool_segment_gen seg e st p : bool_inv e st p ->
  exists e' o bs, segment bool_Encode bool_Flush e seg = Ok (e', o) /\
    Runs DecodeByteRL o (b_values (o_brl e) ++ bs) /\
    flat_map DecodeBoolsFromByte bs = or_onto (pad8 (p ++ seg)) st.
Proof.
  intros He. unfold segment.
  destruct (bool_feed_spec seg e st p He)
    as (e1 & o1 & nb & st1 & p1 & H1 & Hi1 & Hb1 & Hf1 & Hx & Hs & Hl & _).
  rewrite H1. cbn [rbind].
  destruct Hi1 as (Hbi1 & Hu1 & Hst1 & Hp1 & Hidx & Hbits).
  destruct He as (Hbi & _ & Hst & _ & _ & _).
  destruct (byte_feed_spec nb (o_brl e) Hbi Hb1)
    as (b1 & o1' & Hf1' & _ & Hbo1 & (d1 & Hd1 & Hr1) & _).
  rewrite Hf1 in Hf1'. injection Hf1' as <- <-.
  assert (Hmod : (length (p ++ seg) mod 8 = length p1)%nat).
  { rewrite app_length, Hl, Nat.mul_comm, Nat.add_comm, Nat.mod_add by lia. apply Nat.mod_small. lia. }
  unfold bool_Flush.
  destruct (Z.eqb_spec (o_index e1) (-1)) as [Hz|Hz]; cbn [negb].
  - assert (Hp0 : p1 = []) by (destruct p1; [reflexivity|cbn [length] in Hidx; lia]). subst p1.
    cbn [rbind].
    destruct (byte_Flush_spec (o_brl e1) Hbi1) as (o2 & H2 & Hbo2 & Hr2). rewrite H2. cbn [rbind].
    eexists. exists (o1 ++ [] ++ o2), nb. split; [reflexivity|]. split.
    { rewrite Hd1. apply Runs_app; assumption. }
    unfold pad8. rewrite Hmod. cbn [length]. change ((8 - 0) mod 8)%nat with O.
    cbn [repeat]. rewrite <- app_assoc, Hx. cbn [or_onto app]. rewrite app_nil_r. reflexivity.
  - assert (Hp0 : (1 <= length p1)%nat) by lia.
    destruct (byte_Encode_spec (o_brl e1) (o_value e1) Hbi1 Hu1)
      as (b2 & o2 & H2 & Hbi2 & Hbo2 & (d2 & Hd2 & Hr2) & _).
    rewrite H2. cbn [rbind].
    destruct (byte_Flush_spec b2 Hbi2) as (o3 & H3 & Hbo3 & Hr3). rewrite H3. cbn [rbind].
    eexists. exists (o1 ++ o2 ++ o3), (nb ++ [o_value e1]). split; [reflexivity|]. split.
    { assert (Hall : b_values (o_brl e) ++ nb ++ [o_value e1] = d1 ++ d2 ++ b_values b2).
      { rewrite app_assoc, Hd1, <- app_assoc, Hd2. reflexivity. }
      rewrite Hall. apply Runs_app; [exact Hr1|]. apply Runs_app; assumption. }
    rewrite flat_map_app. cbn [flat_map]. rewrite app_nil_r.
    unfold pad8. rewrite Hmod, (Nat.mod_small (8 - length p1)) by lia.
    rewrite <- app_assoc, Hx, Hbits. reflexivity.
Qed.

Lemma skipn_cat {A} (a b : list A) n : length a = n -> skipn n (a ++ b) = b.
Proof. intros <-. apply skipn_app_exact. Qed.

(** Position of a boolean stream: after seeking to the byte offset, skip [bytesPos]
    bytes and [bitsPos] bits (stream/bool.go 35-47). *)
Lemma bool_position pre post :
  exists e1 o1 e2 o2 bytesPos bitsPos ws pad,
    feed bool_Encode (NewBoolEncoder true) pre = Ok (e1, o1) /\
    segment bool_Encode bool_Flush e1 post = Ok (e2, o2) /\
    segment bool_Encode bool_Flush (NewBoolEncoder true) (pre ++ post) = Ok (e2, o1 ++ o2) /\
    bool_GetPosition e1 = [bytesPos; bitsPos] /\ 0 <= bytesPos < 128 /\ 0 <= bitsPos < 8 /\
    decode_all DecodeByteRL o2 = Ok ws /\ bytesPos <= zlen ws /\
    bitsPos <= zlen (flat_map DecodeBoolsFromByte (zdrop bytesPos ws)) /\
    zdrop bitsPos (flat_map DecodeBoolsFromByte (zdrop bytesPos ws)) = post ++ repeat false pad /\
    (pad < 8)%nat.
Proof.
  destruct (bool_feed_spec pre _ _ _ (bool_New_inv true))
    as (e1 & o1 & nb & st1 & p1 & H1 & Hi1 & Hb1 & Hf1 & Hx & Hs & Hl & Hpos).
  destruct (bool_segment_gen post e1 st1 p1 Hi1) as (e2 & o2 & bs & H2 & Hr2 & Hbs).
  assert (Est : st1 = []) by (rewrite Hs; destruct nb; reflexivity). rewrite Est, or_onto_nil in Hbs.
  destruct (byte_feed_spec nb _ (byte_New_inv true) Hb1)
    as (b1 & o1' & Hf1' & Hbi & _ & _ & Hpos1 & _).
  change (o_brl (NewBoolEncoder true)) with (NewByteEncoder true) in Hf1.
  rewrite Hf1 in Hf1'. injection Hf1' as <- <-.
  assert (Hp1 : b_position (o_brl e1) = zlen (b_values (o_brl e1))).
  { destruct nb as [|v t].
    - cbn [feed] in Hf1. injection Hf1 as E _. rewrite <- E. reflexivity.
    - apply Hpos1; [discriminate|cbn; lia]. }
  assert (Hp2 : o_position e1 = Z.of_nat (length p1)).
  { destruct pre as [|v t].
    - cbn in H1. injection H1 as <- <-. cbn [length] in Hl |- *.
      destruct p1; [reflexivity|cbn [length] in Hl; lia].
    - apply Hpos; [discriminate|cbn; lia]. }
  destruct Hi1 as (_ & _ & _ & Hp17 & _). destruct Hbi as [_ Hbl].
  exists e1, o1, e2, o2, (zlen (b_values (o_brl e1))), (zlen p1), (b_values (o_brl e1) ++ bs).
  exists (Nat.modulo (8 - Nat.modulo (length (p1 ++ post)) 8) 8).
  split; [exact H1|]. split; [exact H2|]. split.
  { unfold segment in *. rewrite feed_app, H1. cbn [rbind].
    destruct (feed bool_Encode e1 post) as [[e1' o1']| |]; cbn [rbind] in *; try discriminate.
    destruct (bool_Flush e1') as [[e2' o2']| |]; cbn [rbind] in *; try discriminate.
    injection H2 as <- <-. rewrite app_assoc. reflexivity. }
  split.
  { unfold bool_GetPosition. rewrite Hp1, Hp2. rewrite !u64_id; [reflexivity| |];
      unfold is_u64, zlen; lia. }
  split; [unfold zlen; lia|]. split; [unfold zlen; lia|].
  split; [apply decode_all_Runs; exact Hr2|]. split; [unfold zlen; rewrite app_length; lia|].
  unfold zdrop, zlen. rewrite !Nat2Z.id, skipn_app_exact, Hbs. unfold pad8.
  split; [rewrite !app_length; lia|]. split; [|apply Nat.mod_upper_bound; lia].
  rewrite <- app_assoc. apply skipn_app_exact.
Qed.

(** ** Widths *)

(** Every width the writer can choose for a value list, over the 5-bit code. *)
Lemma width_code_roundtrip vs : Forall is_u64 vs -> ~ Forall (fun v => v = 0) vs ->
  let w := fold_left Z.max (map getAlignedWidth vs) 0 in
  exists e, widthEncoding w = Ok e /\ 0 <= e < 32 /\ widthDecoding e false = Ok w /\
    Forall (fun v => 0 <= v < 2 ^ w) vs.
Proof.
  intros Hu Hnz.
  assert (G : forall l a, Forall is_u64 l -> aligned a = true ->
     aligned (fold_left Z.max (map getAlignedWidth l) a) = true /\
     a <= fold_left Z.max (map getAlignedWidth l) a /\
     Forall (fun v => getAlignedWidth v <= fold_left Z.max (map getAlignedWidth l) a) l).
  { induction l as [|x t IH]; intros a Hl Ha; cbn [map fold_left].
    - split; [exact Ha|]. split; [lia|constructor].
    - inversion Hl as [|? ? Hx Ht]; subst.
      destruct (getAlignedWidth_spec x Hx) as (_ & Hxa).
      assert (Hm : aligned (Z.max a (getAlignedWidth x)) = true).
      { destruct (Z.max_spec a (getAlignedWidth x)) as [[_ ->]|[_ ->]]; assumption. }
      destruct (IH _ Ht Hm) as (H1 & H2 & H3). split; [exact H1|]. split; [lia|].
      constructor; [lia|exact H3]. }
  intros w. destruct (G vs 0 Hu eq_refl) as (Ha & Hge & Hall). fold w in Ha, Hge, Hall.
  assert (Hfit : Forall (fun v => 0 <= v < 2 ^ w) vs).
  { rewrite Forall_forall in *. intros v Hv. specialize (Hall v Hv). specialize (Hu v Hv).
    destruct (getAlignedWidth_spec v Hu) as (H2 & _).
    split; [apply Hu|]. destruct (getBitsWidth_spec v Hu) as (H1' & H2' & _).
    apply getBitsWidth_le; [exact Hu| |]; lia. }
  assert (Hw1 : 1 <= w).
  { destruct (Z.eq_dec w 0) as [E|]; [|lia]. exfalso. apply Hnz.
    eapply Forall_impl; [|exact Hfit]. cbv beta. intros v Hv. rewrite E in Hv. cbn in Hv. lia. }
  destruct (aligned_encodes w Ha) as (e & He). exists e. split; [exact He|].
  destruct (widthEncoding_range w e He) as [Hr _]. split; [exact Hr|].
  split; [apply width_roundtrip; assumption|exact Hfit].
Qed.

(** ** Timestamp nanoseconds (the copies in orc/api) *)
Lemma nano_copies n : 0 <= n < 2 ^ 61 ->
  DecodingNano (EncodingNano n) = n /\ DecodingTimestampNanos (EncodingTimestampNanos n) = n /\
  is_u64 (EncodingNano n) /\ is_u64 (EncodingTimestampNanos n).
Proof.
  intros H. change DecodingTimestampNanos with DecodingNano.
  change EncodingTimestampNanos with EncodingNano.
  repeat apply conj; try (apply nano_roundtrip; exact H); apply nano_fits; lia.
Qed.

Lemma float_decode bits rest : is_u32 bits -> run DecodeFloat (float_Encode bits ++ rest) = Ok (bits, rest).
Proof. intros H. apply DecodeFloat_Encode. exact H. Qed.

(** After a flush the recorded position still counts the values of the previous
    stream (byte.go 41-46 does not reset it). *)
Lemma byte_position_stale : exists vs e o,
  bytes vs /\ segment byte_Encode byte_Flush (NewByteEncoder true) vs = Ok (e, o) /\
  b_values e = [] /\ byte_GetPosition e <> [0].
Proof.
  exists [7; 8]. eexists. eexists.
  split; [repeat constructor; unfold is_u8; lia|]. split; [vm_compute; reflexivity|].
  split; [reflexivity|]. vm_compute. discriminate.
Qed.

Lemma bool_reuse_refuted : exists a b e1 o1 e2 o2 r,
  segment bool_Encode bool_Flush (NewBoolEncoder true) a = Ok (e1, o1) /\
  segment bool_Encode bool_Flush e1 b = Ok (e2, o2) /\
  decode_all DecodeBools o2 = Ok r /\ firstn (length b) r <> b.
Proof.
  exists [true], [false]. do 5 eexists. split; [vm_compute; reflexivity|].
  split; [vm_compute; reflexivity|]. split; [vm_compute; reflexivity|]. vm_compute. discriminate.
Qed.

Lemma zero_width_refuted : exists w e,
  w = fold_left Z.max (map getAlignedWidth [0; 0; 0]) 0 /\
  widthEncoding w = Ok e /\ widthDecoding e false <> Ok w.
Proof. exists 0, 0. split; [reflexivity|]. split; [reflexivity|]. discriminate. Qed.
