(** Lemmas about Model/ByteBool.v. *)
From Verif.Model Require Import Codec ByteBool.
From Verif.Spec Require Import Session.
From Verif.Proofs Require Import Base CodecP SessionP.

(** ** Byte runs *)

Lemma findRepeats_le l m : (findRepeats l m <= length l)%nat.
Proof. induction l as [|v t IH]; cbn; [lia|]. destruct (repeats_from v 1 m t); lia. Qed.

Lemma findRepeats_zero v t : findRepeats (v :: t) MinRepeats = O -> exists t', t = v :: v :: t'.
Proof.
  cbn [findRepeats]. intros H. destruct (repeats_from v 1 MinRepeats t) eqn:E; [clear H|lia].
  destruct t as [|x [|y t]]; cbn in E; try discriminate.
  - destruct (x =? v); discriminate.
  - destruct (Z.eqb_spec x v) as [->|]; [|discriminate].
    destruct (Z.eqb_spec y v) as [->|]; [|discriminate]. eauto.
Qed.

Lemma leading_split v l : l = repeat v (leading v l) ++ skipn (leading v l) l.
Proof.
  induction l as [|x t IH]; [reflexivity|]. cbn [leading].
  destruct (Z.eqb_spec x v) as [->|]; [|reflexivity].
  cbn [repeat app skipn]. f_equal. exact IH.
Qed.
Lemma leading_le v l : (leading v l <= length l)%nat.
Proof. induction l as [|x t IH]; cbn; [lia|]. destruct (x =? v); lia. Qed.

Lemma run_read_n n : forall l t, length l = n -> run (read_n n) (l ++ t) = Ok (l, t).
Proof.
  induction n as [|n IH]; intros l t H; destruct l as [|b l]; cbn [length] in H; try lia.
  - reflexivity.
  - cbn [read_n app]. rewrite run_byte, run_bind, IH by lia. reflexivity.
Qed.

(** One group: the bytes written decode to exactly the values removed. *)
Lemma encodeGroup_spec values :
  values <> [] -> (length values <= 128)%nat -> bytes values ->
  exists o pre rest, encodeGroup values = Ok (o, rest) /\ values = pre ++ rest /\ pre <> [] /\
    bytes o /\ o <> [] /\ forall t, run DecodeByteRL (o ++ t) = Ok (pre, t).
Proof.
  intros Hne Hl Hb. destruct values as [|v0 t0]; [congruence|]. unfold encodeGroup.
  pose proof (findRepeats_le (v0 :: t0) MinRepeats) as Hle.
  destruct (Nat.eqb_spec (findRepeats (v0 :: t0) MinRepeats) 0) as [H0|H0].
  - apply findRepeats_zero in H0. destruct H0 as (t' & ->).
    change (skipn MinRepeats (v0 :: v0 :: v0 :: t')) with t'.
    set (n := leading v0 t'). pose proof (leading_le v0 t') as Hn. fold n in Hn.
    change (length (v0 :: v0 :: v0 :: t')) with (3 + length t')%nat in Hl.
    exists [u8 (Z.of_nat (MinRepeats + n) - Z.of_nat MinRepeats); v0],
      (repeat v0 (3 + n)), (skipn n t').
    assert (Hu : u8 (Z.of_nat (MinRepeats + n) - Z.of_nat MinRepeats) = Z.of_nat n).
    { rewrite u8_id; unfold is_u8, MinRepeats; lia. }
    rewrite Hu. repeat split.
    + cbn [repeat app Nat.add]. do 3 f_equal. apply leading_split.
    + discriminate.
    + constructor; [unfold is_u8; lia|constructor; [inversion Hb; assumption|constructor]].
    + discriminate.
    + intros t. unfold DecodeByteRL. cbn [app]. rewrite run_byte.
      destruct (Z.ltb_spec (Z.of_nat n) 128); [|lia].
      rewrite run_byte, run_ret. do 3 f_equal. unfold MinRepeats. lia.
  - set (n := findRepeats (v0 :: t0) MinRepeats) in *. clearbody n.
    set (values := v0 :: t0) in *.
    exists (u8 (- Z.of_nat n) :: firstn n values), (firstn n values), (skipn n values).
    assert (Hln : length (firstn n values) = n) by (apply firstn_length_le; exact Hle).
    repeat split.
    + symmetry. apply firstn_skipn.
    + intros E. rewrite E in Hln. cbn in Hln. lia.
    + constructor; [apply u8_range|]. apply Forall_firstn'. exact Hb.
    + discriminate.
    + intros t. unfold DecodeByteRL. cbn [app]. rewrite run_byte.
      assert (Hu : u8 (- Z.of_nat n) = 256 - Z.of_nat n) by (unfold u8; zlia).
      rewrite Hu. destruct (Z.ltb_spec (256 - Z.of_nat n) 128); [lia|].
      apply run_read_n. rewrite Hln. lia.
Qed.

Lemma encodeToEnd_spec fuel : forall values,
  (length values <= fuel)%nat -> (length values <= 128)%nat -> bytes values ->
  exists o, encodeToEnd fuel values = Ok o /\ bytes o /\ Runs DecodeByteRL o values.
Proof.
  induction fuel as [|f IH]; intros values Hf Hl Hb.
  - destruct values; [|cbn in Hf; lia]. exists []. repeat constructor.
  - destruct values as [|v0 t0]; [exists []; repeat constructor|].
    cbn [encodeToEnd].
    destruct (encodeGroup_spec (v0 :: t0)) as (o & pre & rest & Hg & Hs & Hp & Hbo & Ho & Hr);
      [discriminate|exact Hl|exact Hb|].
    rewrite Hg. cbn [rbind].
    assert (Hlen : (length rest < length (v0 :: t0))%nat).
    { rewrite Hs, app_length. destruct pre; [congruence|cbn; lia]. }
    assert (Hbr : bytes rest) by (rewrite Hs in Hb; apply Forall_app in Hb; tauto).
    destruct (IH rest) as (o' & He & Hbo' & Hr'); [lia|lia|exact Hbr|].
    rewrite He. cbn [rbind]. exists (o ++ o'). split; [reflexivity|]. split.
    + apply bytes_app; split; assumption.
    + rewrite Hs. apply RunsCons; assumption.
Qed.

(** Invariant of the encoder between calls. *)
Definition byte_inv (e : byteEnc) : Prop := bytes (b_values e) /\ (length (b_values e) < 128)%nat.

Lemma byte_Encode_spec e v : byte_inv e -> is_u8 v ->
  exists e' o, byte_Encode e v = Ok (e', o) /\ byte_inv e' /\ bytes o /\
    (exists done, b_values e ++ [v] = done ++ b_values e' /\ Runs DecodeByteRL o done) /\
    (b_position e <> -1 -> b_position e' = zlen (b_values e')) /\
    (b_position e = -1 -> b_position e' = -1).
Proof.
  intros [Hb Hl] Hv. unfold byte_Encode.
  assert (Hb' : bytes (b_values e ++ [v])) by (apply bytes_app; split; [exact Hb|repeat constructor; apply Hv]).
  assert (Hl' : length (b_values e ++ [v]) = S (length (b_values e)))
    by (rewrite app_length; cbn; lia).
  destruct (Nat.leb_spec MaxByteRunLength (length (b_values e ++ [v]))) as [Hm|Hm].
  - destruct (encodeGroup_spec (b_values e ++ [v])) as (o & pre & rest & Hg & Hs & Hp & Hbo & Ho & Hr);
      [destruct (b_values e); discriminate|lia|exact Hb'|].
    rewrite Hg. cbn [rbind]. eexists. exists o. split; [reflexivity|]. split.
    { split; cbn [b_values].
      - rewrite Hs in Hb'. apply Forall_app in Hb'. tauto.
      - rewrite Hs, app_length in Hl'. destruct pre; [congruence|cbn [length] in Hl'; lia]. }
    split; [exact Hbo|]. split.
    { exists pre. split; [exact Hs|]. apply Runs_one; assumption. }
    cbn [b_position b_values]. destruct (Z.eqb_spec (b_position e) (-1)); tauto.
  - cbn [rbind]. eexists. exists []. split; [reflexivity|]. split.
    { split; cbn [b_values]; [exact Hb'|]. unfold MaxByteRunLength in Hm. exact Hm. }
    split; [constructor|]. split.
    { exists []. split; [reflexivity|constructor]. }
    cbn [b_position b_values]. destruct (Z.eqb_spec (b_position e) (-1)); tauto.
Qed.

Lemma byte_Flush_spec e : byte_inv e ->
  exists o, byte_Flush e = Ok ({| b_values := []; b_position := b_position e |}, o) /\
    bytes o /\ Runs DecodeByteRL o (b_values e).
Proof.
  intros [Hb Hl]. unfold byte_Flush.
  destruct (encodeToEnd_spec (length (b_values e)) (b_values e)) as (o & He & Hbo & Hr);
    [lia|lia|exact Hb|].
  rewrite He. cbn [rbind]. eauto.
Qed.

Lemma byte_feed_spec vs : forall e, byte_inv e -> bytes vs ->
  exists e' o, feed byte_Encode e vs = Ok (e', o) /\ byte_inv e' /\ bytes o /\
    (exists done, b_values e ++ vs = done ++ b_values e' /\ Runs DecodeByteRL o done) /\
    (vs <> [] -> b_position e <> -1 -> b_position e' = zlen (b_values e')) /\
    (b_position e = -1 -> b_position e' = -1).
Proof.
  induction vs as [|v t IH]; intros e He Hb.
  - exists e, []. split; [reflexivity|]. split; [exact He|]. split; [constructor|]. split.
    { exists []. split; [apply app_nil_r|constructor]. } split; [congruence|auto].
  - cbn [feed]. inversion Hb as [|? ? Hv Ht]; subst.
    destruct (byte_Encode_spec e v He Hv) as (e1 & o1 & H1 & Hi1 & Hb1 & (d1 & Hd1 & Hr1) & Hp1 & Hn1).
    rewrite H1. cbn [rbind].
    destruct (IH e1 Hi1 Ht) as (e2 & o2 & H2 & Hi2 & Hb2 & (d2 & Hd2 & Hr2) & Hp2 & Hn2).
    rewrite H2. cbn [rbind]. exists e2, (o1 ++ o2). split; [reflexivity|]. split; [exact Hi2|].
    split; [apply bytes_app; auto|]. split.
    { exists (d1 ++ d2). split; [|apply Runs_app; assumption].
      rewrite <- app_assoc, <- Hd2, app_assoc, <- Hd1, <- app_assoc. reflexivity. }
    split; [|auto].
    intros _ Hpos. destruct t as [|t1 t'].
    + cbn [feed] in H2. injection H2 as <- <-. auto.
    + apply Hp2; [discriminate|]. rewrite Hp1 by exact Hpos. pose proof (zlen_nonneg (b_values e1)). lia.
Qed.

Lemma byte_segment_spec vs e : byte_inv e -> b_values e = [] -> bytes vs ->
  exists e' o, segment byte_Encode byte_Flush e vs = Ok (e', o) /\ byte_inv e' /\ b_values e' = [] /\
    bytes o /\ Runs DecodeByteRL o vs.
Proof.
  intros He Hv Hb. unfold segment.
  destruct (byte_feed_spec vs e He Hb) as (e1 & o1 & H1 & Hi1 & Hb1 & (d & Hd & Hr) & _).
  rewrite H1. cbn [rbind].
  destruct (byte_Flush_spec e1 Hi1) as (o2 & H2 & Hb2 & Hr2). rewrite H2. cbn [rbind].
  eexists. exists (o1 ++ o2). split; [reflexivity|]. split.
  { split; cbn; [constructor|lia]. }
  split; [reflexivity|]. split; [apply bytes_app; auto|].
  rewrite Hv in Hd. cbn [app] in Hd. rewrite Hd. apply Runs_app; assumption.
Qed.

Lemma byte_segments_spec vss : forall e, byte_inv e -> b_values e = [] -> Forall bytes vss ->
  exists os, segments byte_Encode byte_Flush e vss = Ok os /\
    Forall2 (fun o vs => bytes o /\ Runs DecodeByteRL o vs) os vss.
Proof.
  induction vss as [|vs t IH]; intros e He Hv Hb; [exists []; split; [reflexivity|constructor]|].
  inversion Hb as [|? ? Hvs Ht]; subst. cbn [segments].
  destruct (byte_segment_spec vs e He Hv Hvs) as (e1 & o & H1 & Hi & Hv1 & Hbo & Hr).
  rewrite H1. cbn [rbind]. destruct (IH e1 Hi Hv1 Ht) as (os & H2 & H3). rewrite H2. cbn [rbind].
  exists (o :: os). split; [reflexivity|]. constructor; auto.
Qed.

Lemma byte_New_inv p : byte_inv (NewByteEncoder p).
Proof. split; cbn; [constructor|lia]. Qed.

(** ** Boolean runs *)
From Verif.Spec Require Import BoolSpec.

Notation bitsof := DecodeBoolsFromByte.

Lemma length_bitsof b : length (bitsof b) = 8%nat.
Proof. reflexivity. Qed.

Lemma or_onto_nil l : or_onto l [] = l.
Proof. destruct l; reflexivity. Qed.
Lemma or_onto_length l : forall s, length (or_onto l s) = length l.
Proof. induction l as [|x l IH]; intros [|y s]; cbn; auto. Qed.
Lemma or_onto_app l : forall m s, (length s <= length l)%nat -> or_onto (l ++ m) s = or_onto l s ++ m.
Proof.
  induction l as [|x l IH]; intros m [|y s] H; cbn [length] in H; cbn [app or_onto];
    try lia; rewrite ?or_onto_nil; try reflexivity.
  f_equal. apply IH. lia.
Qed.
Lemma or_onto_false s : forall n, length s = n -> or_onto (repeat false n) s = s.
Proof. induction s as [|y s IH]; intros [|n] H; cbn [length] in H; try lia; cbn; [reflexivity|].
  f_equal. apply IH. lia. Qed.

(** Setting one bit of a byte. *)
Definition set_true (k : nat) (l : list bool) : list bool := firstn k l ++ true :: skipn (S k) l.
Lemma bit_set a k : is_u8 a -> (k < 8)%nat ->
  is_u8 (Z.lor a (u8 (Z.shiftl 1 (7 - Z.of_nat k)))) /\
  bitsof (Z.lor a (u8 (Z.shiftl 1 (7 - Z.of_nat k)))) = set_true k (bitsof a).
Proof.
  intros Ha Hk.
  pose (f := fun k a => let b := Z.lor a (u8 (Z.shiftl 1 (7 - Z.of_nat k))) in
     ((0 <=? b) && (b <? 256) && forallb (fun p => Bool.eqb (fst p) (snd p))
                                    (combine (bitsof b) (set_true k (bitsof a))))%bool).
  assert (H : f k a = true).
  { apply (sweep 256 (f k)); [|exact Ha].
    do 8 (destruct k as [|k]; [vm_compute; reflexivity|]). lia. }
  unfold f in H. cbv zeta in H. apply andb_prop in H. destruct H as [H1 H2].
  apply andb_prop in H1. destruct H1 as [H0 H1]. split; [unfold is_u8; lia|].
  assert (Hl : length (bitsof (Z.lor a (u8 (Z.shiftl 1 (7 - Z.of_nat k))))) =
               length (set_true k (bitsof a))).
  { unfold set_true. rewrite app_length. cbn [length]. rewrite firstn_length, skipn_length.
    rewrite !length_bitsof. lia. }
  revert H2 Hl. generalize (set_true k (bitsof a)).
  generalize (bitsof (Z.lor a (u8 (Z.shiftl 1 (7 - Z.of_nat k))))).
  induction l as [|x l IH]; intros [|y m] H2 Hl; cbn [length] in Hl; try lia; [reflexivity|].
  cbn [combine forallb fst snd] in H2. apply andb_prop in H2. destruct H2 as [E H2].
  apply Bool.eqb_prop in E. subst. f_equal. apply IH; [exact H2|lia].
Qed.

Lemma set_true_or k : forall p n s, length p = k ->
  set_true k (or_onto (p ++ repeat false (S n)) s) = or_onto ((p ++ [true]) ++ repeat false n) s.
Proof.
  unfold set_true. induction k as [|k IH]; intros p n s Hp; destruct p as [|x p]; cbn [length] in Hp; try lia.
  - cbn [app repeat firstn skipn]. destruct s as [|y s]; cbn; reflexivity.
  - cbn [app]. destruct s as [|y s].
    + rewrite !or_onto_nil. cbn [firstn skipn app]. f_equal.
      specialize (IH p n [] ltac:(lia)). rewrite !or_onto_nil in IH. exact IH.
    + cbn [or_onto firstn skipn app]. f_equal. apply IH. lia.
Qed.

(** State of the encoder: stale bits [st], bits [p] written into the current byte. *)
Definition bool_inv (e : boolEnc) (st p : list bool) : Prop :=
  byte_inv (o_brl e) /\ is_u8 (o_value e) /\ (length st <= 8)%nat /\ (length p <= 7)%nat /\
  o_index e = Z.of_nat (length p) - 1 /\
  bitsof (o_value e) = or_onto (p ++ repeat false (8 - length p)) st.

Lemma bool_Encode_spec e st p v : bool_inv e st p ->
  exists e' o nb st' p', bool_Encode e v = Ok (e', o) /\ bool_inv e' st' p' /\
    bytes nb /\ feed byte_Encode (o_brl e) nb = Ok (o_brl e', o) /\
    (forall X, or_onto (p ++ v :: X) st = flat_map bitsof nb ++ or_onto (p' ++ X) st') /\
    st' = match nb with [] => st | _ => [] end /\
    (length p + 1 = 8 * length nb + length p')%nat /\
    (o_position e <> -1 -> o_position e' = Z.of_nat (length p')) /\
    (o_position e = -1 -> o_position e' = -1).
Proof.
  intros (Hbi & Hu & Hst & Hp & Hi & Hbits). unfold bool_Encode. rewrite Hi.
  replace (Z.of_nat (length p) - 1 + 1) with (Z.of_nat (length p)) by lia.
  set (value := if v then _ else _).
  assert (Hval : is_u8 value /\
     bitsof value = or_onto ((p ++ [v]) ++ repeat false (7 - length p)) st).
  { unfold value. destruct v.
    - destruct (bit_set (o_value e) (length p) Hu ltac:(lia)) as [H1 H2]. split; [exact H1|].
      rewrite H2, Hbits. replace (8 - length p)%nat with (S (7 - length p)) by lia.
      apply set_true_or. reflexivity.
    - split; [exact Hu|]. rewrite Hbits.
      replace (8 - length p)%nat with (S (7 - length p)) by lia.
      cbn [repeat]. rewrite <- app_assoc. reflexivity. }
  destruct Hval as [Hvu Hvb].
  destruct (Z.leb_spec 7 (Z.of_nat (length p))) as [Hf|Hf].
  - assert (Hp7 : length p = 7%nat) by lia.
    destruct (byte_Encode_spec (o_brl e) value Hbi Hvu) as (b' & o & He & Hbi' & _).
    rewrite He. cbn [rbind].
    eexists. exists o, [value], [], []. split; [reflexivity|]. split.
    { repeat split; cbn [o_brl o_value o_index length]; try lia; try apply Hbi'. }
    split; [repeat constructor; apply Hvu|]. split.
    { cbn [feed o_brl]. rewrite He. cbn [rbind]. rewrite app_nil_r. reflexivity. }
    split.
    { intros X. cbn [flat_map app]. rewrite or_onto_nil, app_nil_r, Hvb.
      rewrite Hp7. change (7 - 7)%nat with O. cbn [repeat]. rewrite app_nil_r.
      change (v :: X) with ([v] ++ X). rewrite app_assoc. apply or_onto_app.
      rewrite app_length. cbn [length]. lia. }
    split; [reflexivity|]. split; [cbn [length]; lia|].
    cbn [o_position length]. destruct (Z.eqb_spec (o_position e) (-1)); split; intros; try lia.
  - cbn [rbind]. eexists. exists [], [], st, (p ++ [v]). split; [reflexivity|].
    assert (Hlen : length (p ++ [v]) = S (length p)) by (rewrite app_length; cbn; lia).
    split.
    { unfold bool_inv. cbn [o_brl o_value o_index]. rewrite Hlen.
      split; [exact Hbi|]. split; [exact Hvu|]. split; [exact Hst|]. split; [lia|].
      split; [lia|]. rewrite Hvb. reflexivity. }
    split; [constructor|]. split; [reflexivity|]. split.
    { intros X. cbn [flat_map app]. rewrite <- app_assoc. reflexivity. }
    split; [reflexivity|]. split; [cbn [length]; lia|].
    cbn [o_position]. destruct (Z.eqb_spec (o_position e) (-1)); split; intros; try lia.
Qed.

Lemma bool_feed_spec vs : forall e st p, bool_inv e st p ->
  exists e' o nb st' p', feed bool_Encode e vs = Ok (e', o) /\ bool_inv e' st' p' /\
    bytes nb /\ feed byte_Encode (o_brl e) nb = Ok (o_brl e', o) /\
    (forall X, or_onto (p ++ vs ++ X) st = flat_map bitsof nb ++ or_onto (p' ++ X) st') /\
    st' = match nb with [] => st | _ => [] end /\
    (length p + length vs = 8 * length nb + length p')%nat /\
    (vs <> [] -> o_position e <> -1 -> o_position e' = Z.of_nat (length p')).
Proof.
  induction vs as [|v t IH]; intros e st p He.
  - exists e, [], [], st, p. split; [reflexivity|]. split; [exact He|].
    split; [constructor|]. split; [reflexivity|]. split; [reflexivity|].
    split; [reflexivity|]. split; [cbn; lia|congruence].
  - destruct (bool_Encode_spec e st p v He)
      as (e1 & o1 & nb1 & st1 & p1 & H1 & Hi1 & Hb1 & Hf1 & Hx1 & Hs1 & Hl1 & Hp1 & Hm1).
    destruct (IH e1 st1 p1 Hi1)
      as (e2 & o2 & nb2 & st2 & p2 & H2 & Hi2 & Hb2 & Hf2 & Hx2 & Hs2 & Hl2 & Hp2).
    exists e2, (o1 ++ o2), (nb1 ++ nb2), st2, p2. split.
    { cbn [feed]. rewrite H1. cbn [rbind]. rewrite H2. reflexivity. }
    split; [exact Hi2|]. split; [apply bytes_app; auto|]. split.
    { rewrite feed_app, Hf1. cbn [rbind]. rewrite Hf2. reflexivity. }
    split.
    { intros X. cbn [app]. rewrite Hx1, Hx2, flat_map_app, <- app_assoc. reflexivity. }
    split.
    { destruct nb1; [exact Hs2 || (subst st1; exact Hs2)|]. subst. cbn [app]. destruct nb2; reflexivity. }
    split; [rewrite app_length; cbn [length]; lia|].
    intros _ Hpos. destruct t as [|t0 t'].
    + cbn [feed] in H2. injection H2 as <- <-.
      assert (length p1 = length p2) as <-; [|auto].
      cbn [length] in Hl2. destruct Hi2 as (_ & _ & _ & Hp2' & Hi2' & _).
      destruct Hi1 as (_ & _ & _ & Hp1' & Hi1' & _). lia.
    + apply Hp2; [discriminate|]. rewrite Hp1 by exact Hpos. lia.
Qed.

Lemma length_flat_bits nb : length (flat_map bitsof nb) = (8 * length nb)%nat.
Proof. induction nb as [|b t IH]; [reflexivity|]. cbn [flat_map]. rewrite app_length, IH, length_bitsof. cbn [length]. lia. Qed.

Lemma flat_map_app_fun {A B} (f : A -> list B) (a b : list A) :
  flat_map f (a ++ b) = flat_map f a ++ flat_map f b.
Proof. apply flat_map_app. Qed.

Lemma Runs_bools o bs : Runs DecodeByteRL o bs -> Runs DecodeBools o (flat_map bitsof bs).
Proof. intros H. unfold DecodeBools. apply Runs_map; [intros; apply flat_map_app|exact H]. Qed.

Lemma bool_segment_spec seg e st : bool_inv e st [] -> b_values (o_brl e) = [] ->
  exists e' o, segment bool_Encode bool_Flush e seg = Ok (e', o) /\
    bool_inv e' (next_stale st seg) [] /\ b_values (o_brl e') = [] /\ bytes o /\
    Runs DecodeBools o (stored st seg).
Proof.
  intros He Hv. unfold segment.
  destruct (bool_feed_spec seg e st [] He)
    as (e1 & o1 & nb & st1 & p1 & H1 & Hi1 & Hb1 & Hf1 & Hx & Hs & Hl & _).
  rewrite H1. cbn [rbind app length Nat.add] in *.
  destruct Hi1 as (Hbi1 & Hu1 & Hst1 & Hp1 & Hidx & Hbits).
  destruct He as (Hbi & _ & Hst & _ & _ & Hbits0).
  destruct (byte_feed_spec nb (o_brl e) Hbi Hb1)
    as (b1 & o1' & Hf1' & _ & Hbo1 & (d1 & Hd1 & Hr1) & _).
  rewrite Hf1 in Hf1'. injection Hf1' as <- <-. rewrite Hv in Hd1. cbn [app] in Hd1.
  assert (Hmod : (length seg mod 8 = length p1)%nat).
  { rewrite Hl, Nat.mul_comm, Nat.add_comm, Nat.mod_add by lia. apply Nat.mod_small. lia. }
  unfold bool_Flush.
  destruct (Z.eqb_spec (o_index e1) (-1)) as [Hz|Hz]; cbn [negb].
  - assert (Hp0 : p1 = []) by (destruct p1; [reflexivity|cbn [length] in Hidx; lia]). subst p1.
    cbn [rbind].
    destruct (byte_Flush_spec (o_brl e1) Hbi1) as (o2 & H2 & Hbo2 & Hr2). rewrite H2. cbn [rbind].
    eexists. exists (o1 ++ [] ++ o2). split; [reflexivity|].
    assert (Hns : next_stale st seg = st1).
    { unfold next_stale. rewrite Hmod. cbn [length Nat.eqb]. rewrite Hs.
      cbn [length] in Hl. destruct nb; destruct seg; cbn [length] in Hl; try lia; reflexivity. }
    split.
    { rewrite Hns. unfold bool_inv. cbn [o_brl o_value o_index length].
      split; [split; cbn [b_values]; [constructor|cbn; lia]|]. auto 10. }
    split; [reflexivity|]. cbn [app]. split; [apply bytes_app; auto|].
    assert (Hd : stored st seg = flat_map bitsof nb).
    { unfold stored, pad8. rewrite Hmod. cbn [length]. change ((8 - 0) mod 8)%nat with O.
      cbn [repeat]. rewrite Hx. cbn [or_onto app]. apply app_nil_r. }
    rewrite Hd, Hd1. apply Runs_bools. apply Runs_app; assumption.
  - assert (Hp0 : (1 <= length p1)%nat) by lia.
    destruct (byte_Encode_spec (o_brl e1) (o_value e1) Hbi1 Hu1)
      as (b2 & o2 & H2 & Hbi2 & Hbo2 & (d2 & Hd2 & Hr2) & _).
    rewrite H2. cbn [rbind].
    destruct (byte_Flush_spec b2 Hbi2) as (o3 & H3 & Hbo3 & Hr3). rewrite H3. cbn [rbind].
    eexists. exists (o1 ++ o2 ++ o3). split; [reflexivity|].
    assert (Hd : stored st seg = flat_map bitsof nb ++ bitsof (o_value e1)).
    { unfold stored, pad8. rewrite Hmod, (Nat.mod_small (8 - length p1)) by lia.
      rewrite Hx, Hbits. reflexivity. }
    assert (Hns : next_stale st seg = bitsof (o_value e1)).
    { unfold next_stale. rewrite Hmod. destruct (Nat.eqb_spec (length p1) 0); [lia|].
      rewrite Hd, app_length, length_bitsof, Nat.add_sub. apply skipn_app_exact. }
    split.
    { rewrite Hns. unfold bool_inv. cbn [o_brl o_value o_index length app].
      split; [split; cbn [b_values]; [constructor|cbn; lia]|].
      split; [exact Hu1|]. split; [rewrite length_bitsof; lia|]. split; [lia|]. split; [lia|].
      symmetry. apply or_onto_false. reflexivity. }
    split; [reflexivity|]. split; [repeat (apply bytes_app; split); auto|].
    rewrite Hd.
    replace (flat_map bitsof nb ++ bitsof (o_value e1)) with (flat_map bitsof (nb ++ [o_value e1]))
      by (rewrite flat_map_app; cbn [flat_map]; rewrite app_nil_r; reflexivity).
    apply Runs_bools.
    assert (Hall : nb ++ [o_value e1] = d1 ++ d2 ++ b_values b2).
    { rewrite Hd1, <- app_assoc, Hd2. reflexivity. }
    rewrite Hall. apply Runs_app; [exact Hr1|]. apply Runs_app; assumption.
Qed.

Lemma bool_segments_spec segs : forall e st, bool_inv e st [] -> b_values (o_brl e) = [] ->
  exists os, segments bool_Encode bool_Flush e segs = Ok os /\
    Forall2 (fun o r => bytes o /\ Runs DecodeBools o r) os (stored_all st segs).
Proof.
  induction segs as [|s t IH]; intros e st He Hv; [exists []; split; [reflexivity|constructor]|].
  cbn [segments stored_all].
  destruct (bool_segment_spec s e st He Hv) as (e1 & o & H1 & Hi & Hv1 & Hbo & Hr).
  rewrite H1. cbn [rbind]. destruct (IH e1 _ Hi Hv1) as (os & H2 & H3). rewrite H2. cbn [rbind].
  exists (o :: os). split; [reflexivity|]. constructor; auto.
Qed.

Lemma bool_New_inv p : bool_inv (NewBoolEncoder p) [] [].
Proof.
  unfold bool_inv. cbn [NewBoolEncoder o_brl o_value o_index length app].
  split; [apply byte_New_inv|]. split; [unfold is_u8; lia|]. repeat split; cbn; lia.
Qed.
