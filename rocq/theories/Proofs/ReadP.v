(** Reading values one after the other from the stream readers. *)
From Verif.Model Require Import Go Codec ByteBool IntRle Chunk Stream.
From Verif.Spec Require Import Session StreamSpec ChunkSpec.
From Verif.Proofs Require Import Base CodecP SessionP ByteBoolP OrcIntP StreamP StreamClaimsP.

(** The source [s] yields [xs] first. *)
Inductive Yields {ST A} (next : ST -> res (A * ST)) : ST -> list A -> Prop :=
| YNil s : Yields next s []
| YCons s x s' xs : next s = Ok (x, s') -> Yields next s' xs -> Yields next s (x :: xs).

Lemma Yields_prefix {ST A} (next : ST -> res (A * ST)) xs : forall s ys,
  Yields next s (xs ++ ys) -> Yields next s xs.
Proof.
  induction xs as [|x t IH]; intros s ys H; [constructor|]. inversion H; subst. econstructor; eauto.
Qed.
Lemma Yields_map {ST A B} (next : ST -> res (A * ST)) (f : A -> B) xs : forall s, Yields next s xs ->
  Yields (fun s => let! (x, s') := next s in Ok (f x, s')) s (map f xs).
Proof.
  induction xs as [|x t IH]; intros s H; [constructor|]. inversion H as [|? ? ? ? Hn Ht]; subst.
  cbn [map]. econstructor; [rewrite Hn; reflexivity|auto].
Qed.

(** [decode_all] succeeds only on a sequence of complete runs. *)
Lemma decode_stuck {A} (dec : prog (list A)) i vs : i <> [] -> run dec i = Ok (vs, i) ->
  forall fuel, decode_fuel dec fuel i = Err.
Proof.
  intros Hi H fuel. induction fuel as [|f IH]; cbn [decode_fuel]; destruct i as [|b i]; try congruence.
  rewrite H. cbn [rbind]. rewrite IH. reflexivity.
Qed.
Lemma decode_fuel_inv {A} (dec : prog (list A)) fuel : forall i vs,
  decode_fuel dec fuel i = Ok vs -> Runs dec i vs.
Proof.
  induction fuel as [|f IH]; intros i vs H; destruct i as [|b i].
  1, 3: cbn in H; assert (vs = []) as -> by congruence; constructor.
  - discriminate.
  - cbn [decode_fuel] in H. destruct (run dec (b :: i)) as [[ws rest]| |] eqn:Hr; cbn [rbind] in H; try discriminate.
    destruct (decode_fuel dec f rest) as [us| |] eqn:Hf; cbn [rbind] in H; try discriminate.
    assert (vs = ws ++ us) as -> by congruence.
    destruct (run_local _ _ _ _ Hr) as (c & Hc & Hrun).
    destruct c as [|c0 c].
    + cbn [app] in Hc. subst rest. rewrite (decode_stuck dec (b :: i) ws) in Hf by (discriminate || assumption). discriminate.
    + rewrite Hc. apply RunsCons; [discriminate|assumption|]. apply IH. assumption.
Qed.
Lemma decode_all_inv {A} (dec : prog (list A)) i vs : decode_all dec i = Ok vs -> Runs dec i vs.
Proof. apply decode_fuel_inv. Qed.

Section Serve.
Variable inflate : list Z -> res (list Z).
Variable o : opts.
Notation serves := (serves inflate o).

Lemma r_run_bind {A B} (p : prog A) (q : A -> prog B) : forall r,
  r_run inflate o (pbind p q) r = (let! (a, r') := r_run inflate o p r in r_run inflate o (q a) r').
Proof.
  unfold r_run. induction p as [a| | |k IH|n k IH]; intros r; cbn [pbind runS rbind]; try reflexivity.
  - destruct (r_ReadByte inflate o r) as [[b r']| |]; cbn [rbind]; [apply IH|reflexivity|reflexivity].
  - destruct (r_ReadFull inflate o n r) as [[b r']| |]; cbn [rbind]; [apply IH|reflexivity|reflexivity].
Qed.

(** Reading goes on where the previous program stopped. *)
Lemma serves_step {A} (p : prog A) r bs a rest : serves r bs -> run p bs = Ok (a, rest) ->
  exists r', r_run inflate o p r = Ok (a, r') /\ serves r' rest.
Proof.
  intros H Hp. pose proof (H A p) as H0. rewrite Hp in H0. destruct H0 as (r' & Hr & _).
  exists r'. split; [exact Hr|]. intros B q. specialize (H B (pbind p (fun _ => q))).
  rewrite run_bind, Hp, r_run_bind, Hr in H. cbn [rbind] in H. exact H.
Qed.

Section Values.
Variable A : Type.
Variable dec : prog (list A).
Hypothesis Hne : forall i vs r, bytes i -> run dec i = Ok (vs, r) -> vs <> [].

Lemma yields_pre v xs ys : v_vals v = xs ->
  Yields (v_Next inflate o dec) {| v_s := v_s v; v_vals := [] |} ys ->
  Yields (v_Next inflate o dec) v (xs ++ ys).
Proof.
  destruct v as [s vals]. cbn [v_vals v_s]. intros ->. revert ys.
  induction xs as [|x t IH]; intros ys H; [exact H|]. cbn [app]. econstructor; [reflexivity|]. apply IH. exact H.
Qed.
Lemma yields_runs bs ws : Runs dec bs ws -> bytes bs -> forall r, serves r bs ->
  Yields (v_Next inflate o dec) (newVreader r) ws.
Proof.
  induction 1 as [|c vs i ws Hc Hr H IH]; intros Hb r Hs; [constructor|].
  apply bytes_app in Hb. destruct Hb as [Hbc Hbi].
  destruct (serves_step dec r (c ++ i) vs i Hs (Hr i)) as (r' & Hrun & Hs').
  pose proof (Hr []) as Hr0. apply Hne in Hr0; [|rewrite app_nil_r; exact Hbc].
  destruct vs as [|x t]; [congruence|]. cbn [app]. econstructor.
  - unfold v_Next. cbn [v_vals newVreader v_s]. rewrite Hrun. cbn [rbind]. reflexivity.
  - apply yields_pre; [reflexivity|]. apply IH; assumption.
Qed.
End Values.

(** Values without a run structure. *)
Lemma yields_raw {A} (p : prog A) (f : A -> list Z) xs :
  (forall x t, In x xs -> run p (f x ++ t) = Ok (x, t)) ->
  forall r, serves r (flat_map f xs) -> Yields (r_run inflate o p) r xs.
Proof.
  induction xs as [|x t IH]; intros Hp r Hs; [constructor|]. cbn [flat_map] in Hs.
  destruct (serves_step p r _ x (flat_map f t) Hs) as (r' & Hr & Hs'); [apply Hp; left; reflexivity|].
  econstructor; [exact Hr|]. apply IH; [|exact Hs']. intros; apply Hp; right; assumption.
Qed.

(** Bits. *)
Lemma yields_bits_pre b xs ys : bl_vals b = xs ->
  Yields (bool_Next inflate o) {| bl_r := bl_r b; bl_vals := [] |} ys ->
  Yields (bool_Next inflate o) b (xs ++ ys).
Proof.
  destruct b as [s vals]. cbn [bl_vals bl_r]. intros ->. revert ys.
  induction xs as [|x t IH]; intros ys H; [exact H|]. cbn [app]. econstructor; [reflexivity|]. apply IH. exact H.
Qed.
Lemma yields_bits v bs : Yields (v_Next inflate o DecodeByteRL) v bs ->
  Yields (bool_Next inflate o) {| bl_r := v; bl_vals := [] |} (flat_map DecodeBoolsFromByte bs).
Proof.
  revert v. induction bs as [|b t IH]; intros v H; [constructor|]. inversion H as [|? ? v' ? Hn Ht]; subst.
  cbn [flat_map]. destruct (DecodeBoolsFromByte b) as [|x l] eqn:E.
  { pose proof (length_bitsof b) as Hl. rewrite E in Hl. discriminate. }
  cbn [app]. econstructor.
  - unfold bool_Next. cbn [bl_vals bl_r]. rewrite Hn. cbn [rbind]. rewrite E. reflexivity.
  - apply yields_bits_pre; [reflexivity|]. apply IH. exact Ht.
Qed.
End Serve.

(** The decoders never return an empty run. *)
Lemma run_read_n_length n : forall i vs r, run (read_n n) i = Ok (vs, r) -> length vs = n.
Proof.
  induction n as [|n IH]; intros i vs r H; cbn [read_n] in H.
  - cbn in H. assert (vs = []) as -> by congruence. reflexivity.
  - destruct i as [|b i]; [discriminate|]. rewrite run_byte, run_bind in H.
    destruct (run (read_n n) i) as [[l r']| |] eqn:E; cbn [rbind] in H; try discriminate.
    cbn in H. assert (vs = b :: l) as -> by congruence. cbn [length]. f_equal. eapply IH; eauto.
Qed.
Lemma ByteRL_nonempty i vs r : bytes i -> run DecodeByteRL i = Ok (vs, r) -> vs <> [].
Proof.
  intros Hb H. destruct i as [|h i]; [discriminate|]. inversion Hb as [|? ? Hh Hbi]; subst.
  unfold DecodeByteRL in H. rewrite run_byte in H. destruct (Z.ltb_spec h 128).
  - destruct i as [|v i]; [discriminate|]. rewrite run_byte in H. cbn in H.
    match type of H with Ok (?x, _) = _ => assert (vs = x) as -> by congruence end.
    unfold MinRepeats. replace (Z.to_nat h + 3)%nat with (S (Z.to_nat h + 2)) by lia. discriminate.
  - apply run_read_n_length in H. intros ->. cbn in H. unfold is_u8 in Hh. lia.
Qed.
Lemma Int_nonempty i vs r : bytes i -> run DecodeInt i = Ok (vs, r) -> vs <> [].
Proof.
  intros Hb H. unfold DecodeInt in H. rewrite run_bind in H.
  destruct (run (decode true) i) as [[us r']| |] eqn:E; cbn [rbind] in H; try discriminate.
  apply decode_nonempty in E; [|exact Hb]. cbn in H. assert (vs = map UnZigzag us) as -> by congruence.
  destruct us; [congruence|discriminate].
Qed.
Lemma UInt_nonempty i vs r : bytes i -> run DecodeUInt i = Ok (vs, r) -> vs <> [].
Proof. apply decode_nonempty. Qed.
