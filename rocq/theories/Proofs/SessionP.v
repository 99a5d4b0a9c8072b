(** Lemmas about reading programs and Spec/Session.v. *)
From Verif.Spec Require Import Session.
From Verif.Proofs Require Import Base.

(** A program looks only at the bytes it consumes. *)
Lemma run_local {A} (p : prog A) : forall i a r,
  run p i = Ok (a, r) -> exists c, i = c ++ r /\ forall t, run p (c ++ t) = Ok (a, t).
Proof.
  induction p as [a'| | |k IH|n k IH]; intros i a r H; cbn in H; try discriminate.
  - injection H as <- <-. exists []. split; [reflexivity|]. reflexivity.
  - destruct i as [|b i]; [discriminate|]. cbn in H. apply IH in H. destruct H as (c & -> & Hc).
    exists (b :: c). split; [reflexivity|]. intros t. cbn. apply Hc.
  - unfold lrf in H. destruct (Nat.ltb_spec (length i) n) as [|Hn]; [discriminate|]. cbn in H.
    apply IH in H. destruct H as (c & Hi & Hc).
    exists (firstn n i ++ c). split.
    + rewrite <- app_assoc, <- Hi. symmetry. apply firstn_skipn.
    + intros t. cbn. unfold lrf.
      assert (Hl : length (firstn n i) = n) by (apply firstn_length_le; lia).
      rewrite <- app_assoc.
      destruct (Nat.ltb_spec (length (firstn n i ++ c ++ t)) n) as [Hb|_].
      { rewrite app_length in Hb. lia. }
      cbn [rbind]. rewrite <- Hl at 1 3.
      rewrite firstn_app_exact, skipn_app_exact. apply Hc.
Qed.

(** The input [i] is a sequence of complete runs of [dec] yielding [vs]. *)
Inductive Runs {A} (dec : prog (list A)) : list Z -> list A -> Prop :=
| RunsNil : Runs dec [] []
| RunsCons c vs i ws :
    c <> [] -> (forall t, run dec (c ++ t) = Ok (vs, t)) -> Runs dec i ws ->
    Runs dec (c ++ i) (vs ++ ws).

Lemma Runs_app {A} (dec : prog (list A)) i vs : Runs dec i vs ->
  forall j ws, Runs dec j ws -> Runs dec (i ++ j) (vs ++ ws).
Proof.
  induction 1 as [|c vs i ws Hc Hr H IH]; intros j us Hj; [exact Hj|].
  rewrite <- !app_assoc. apply RunsCons; auto.
Qed.
Lemma Runs_one {A} (dec : prog (list A)) c vs :
  c <> [] -> (forall t, run dec (c ++ t) = Ok (vs, t)) -> Runs dec c vs.
Proof.
  intros Hc H. rewrite <- (app_nil_r c), <- (app_nil_r vs). apply RunsCons; auto. constructor.
Qed.

Lemma decode_Runs {A} (dec : prog (list A)) i vs : Runs dec i vs ->
  forall fuel, (length i <= fuel)%nat -> decode_fuel dec fuel i = Ok vs.
Proof.
  induction 1 as [|c vs i ws Hc Hr H IH]; intros fuel Hf; [destruct fuel; reflexivity|].
  destruct c as [|b c]; [congruence|]. cbn [app length] in Hf.
  destruct fuel as [|f]; [lia|]. cbn [app decode_fuel].
  change (b :: c ++ i) with ((b :: c) ++ i). rewrite Hr. cbn [rbind].
  rewrite IH by (rewrite app_length in Hf; lia). reflexivity.
Qed.
Lemma decode_all_Runs {A} (dec : prog (list A)) i vs : Runs dec i vs -> decode_all dec i = Ok vs.
Proof. intros H. apply (decode_Runs dec i vs H). lia. Qed.

(** Mapping the decoded values. *)
Lemma Runs_map {A B} (dec : prog (list A)) (f : list A -> list B) i vs :
  (forall a b, f (a ++ b) = f a ++ f b) -> Runs dec i vs ->
  Runs (do! x := dec in Ret (f x)) i (f vs).
Proof.
  intros Hf H. induction H as [|c vs i ws Hc Hr H IH].
  - assert (f [] = []) as ->; [|constructor].
    specialize (Hf [] []). cbn [app] in Hf. apply (f_equal (@length B)) in Hf.
    rewrite app_length in Hf. destruct (f []); [reflexivity|cbn in Hf; lia].
  - rewrite Hf. apply RunsCons; [exact Hc| |exact IH].
    intros t. rewrite run_bind, Hr. reflexivity.
Qed.

(** Feeding a concatenation. *)
Lemma feed_app {E V} (enc : E -> V -> res (E * list Z)) vs : forall e ws,
  feed enc e (vs ++ ws) =
  (let! (e1, o1) := feed enc e vs in let! (e2, o2) := feed enc e1 ws in Ok (e2, o1 ++ o2)).
Proof.
  induction vs as [|v t IH]; intros e ws; cbn [app feed].
  - cbn [rbind]. destruct (feed enc e ws) as [[e2 o2]| |]; reflexivity.
  - destruct (enc e v) as [[e1 o1]| |]; cbn [rbind]; [|reflexivity|reflexivity].
    rewrite IH. destruct (feed enc e1 t) as [[e2 o2]| |]; cbn [rbind]; [|reflexivity|reflexivity].
    destruct (feed enc e2 ws) as [[e3 o3]| |]; cbn [rbind]; [|reflexivity|reflexivity].
    rewrite app_assoc. reflexivity.
Qed.
