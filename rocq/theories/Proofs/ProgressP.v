(** How far a client gets with Next, and whether it comes to an end. *)
From Coq Require Import ZifyBool ZifyNat.
From Verif.Model Require Import Go Codec ByteBool IntRle Chunk Stream Schema Rows Time File Column Wire Nested Tree Assembled.
From Verif.Spec Require Import RowsSpec EndSpec ProjectSpec ProgressSpec.
From Verif.Proofs Require Import Base OpenBatchP RowsP EndP OpenCloseP ProjectP.

(** ** The sizes *)
Lemma stripe_batches_step c n a : 0 < c -> 0 <= a -> a mod c = 0 -> a = 0 /\ 1 <= n \/ a + 1 < n ->
  let m := leave c n in let k := Z.min c (n - a) in
  repeat c (Z.to_nat ((m - a) / c)) ++ (if (m - a) mod c =? 0 then [] else [(m - a) mod c]) =
  k :: (repeat c (Z.to_nat ((m - (a + k)) / c)) ++ (if (m - (a + k)) mod c =? 0 then [] else [(m - (a + k)) mod c])) /\
  (n <= a + k + 1 -> a + k = m) /\ (a + k + 1 < n -> (a + k) mod c = 0).
Proof.
  intros Hc Ha Hm Hn m k.
  assert (Hk : n <= a + k + 1 -> a + k = m).
  { intros H. replace (a + k) with (Z.min (a + c) n) in * by lia. apply leave_reach; try assumption; lia. }
  assert (Hk' : a + k + 1 < n -> (a + k) mod c = 0).
  { intros H. assert (k = c) as -> by lia. rewrite <- Z.add_mod_idemp_r, Z.mod_same, Z.add_0_r by lia. exact Hm. }
  split; [|auto]. assert (Hmn : m = n \/ m = n - 1) by (unfold m, leave; destruct (loses c n); lia).
  destruct (Z_lt_le_dec (m - a) c) as [Hlt|Hge].
  - assert (Ek : k = m - a).
    { destruct (Z.le_gt_cases n (a + k + 1)) as [H|H]; [specialize (Hk H); lia|]. exfalso. assert (k = c) by lia. lia. }
    assert (0 < m - a) by lia. rewrite Z.div_small, Z.mod_small by lia. destruct (Z.eqb_spec (m - a) 0); [lia|].
    replace (m - (a + k)) with 0 by lia. rewrite Zdiv_0_l, Zmod_0_l. cbn [Z.to_nat repeat app Z.eqb]. rewrite Ek. reflexivity.
  - assert (Ek : k = c) by lia. rewrite Ek. replace (m - (a + c)) with ((m - a) + (-1) * c) by lia.
    rewrite Z.div_add, Z.mod_add by lia. assert (1 <= (m - a) / c) by (apply Z.div_le_lower_bound; lia).
    replace (Z.to_nat ((m - a) / c)) with (S (Z.to_nat ((m - a) / c + -1))) by lia. reflexivity.
Qed.
Definition from (c n a : Z) : list Z :=
  repeat c (Z.to_nat ((leave c n - a) / c)) ++ (if (leave c n - a) mod c =? 0 then [] else [(leave c n - a) mod c]).
Lemma from_0 c n : from c n 0 = stripe_batches c n.
Proof. unfold from, stripe_batches. rewrite Z.sub_0_r. reflexivity. Qed.
Lemma sum_app l m : sum (l ++ m) = sum l + sum m.
Proof. induction l as [|x l IH]; cbn [app sum fold_right]; [reflexivity|]. fold (sum (l ++ m)) (sum l). lia. Qed.
Lemma sum_repeat c n : sum (repeat c n) = c * Z.of_nat n.
Proof. induction n as [|n IH]; cbn [repeat sum fold_right]; [lia|]. fold (sum (repeat c n)). lia. Qed.
Lemma leave_range c n : 0 < c -> 0 <= n -> 0 <= leave c n <= n.
Proof. intros. unfold leave, loses. destruct ((2 <=? n) && _) eqn:E; lia. Qed.
Lemma sum_batches c n : 0 < c -> 0 <= n -> sum (stripe_batches c n) = leave c n /\ Forall (fun k => 1 <= k) (stripe_batches c n).
Proof.
  intros Hc Hn. rewrite <- from_0. unfold from. rewrite Z.sub_0_r. pose proof (leave_range c n Hc Hn) as Hl. set (m := leave c n) in *. clearbody m.
  pose proof (Z.div_mod m c ltac:(lia)) as E. pose proof (Z.mod_pos_bound m c Hc). pose proof (Z.div_pos m c ltac:(lia) Hc). split.
  - rewrite sum_app, sum_repeat. destruct (Z.eqb_spec (m mod c) 0); cbn [sum fold_right]; lia.
  - apply Forall_app. split; [apply Forall_forall; intros k Hk; apply repeat_spec in Hk; lia|]. destruct (Z.eqb_spec (m mod c) 0); constructor; [lia|constructor].
Qed.

(** ** The reader *)
Section Run.
Variable inflate : list Z -> res (list Z).
Variable o : opts.
Variable hs : list bool.
Variable bopt : batchOption.
Variable schema : td.
Variable c : Z.
Hypothesis Hc : 0 < c.
Notation twin := (twin bopt bopt hs schema c).
Notation twinS := (twinS bopt bopt schema).
Notation stripeNext := (stripeNext inflate o hs).
Notation readLoop := (readLoop inflate o hs).
Notation readNext := (readNext inflate o hs).

Definition good (s : stripeRd) : Prop := twinS s s /\ 0 <= sr_cursor s <= sr_rows s.
Lemma stripe_counts w s s' w' e : twin 0 w w -> good s -> stripeNext s w = Ok (s', w', e) ->
  let k := Z.min c (sr_rows s - sr_cursor s) in
  twin k w' w' /\ good s' /\ sr_rows s' = sr_rows s /\ sr_cursor s' = sr_cursor s + k /\ e = (sr_rows s <=? sr_cursor s + k + 1).
Proof.
  intros Hw (Hs & Hcur) H k. destruct (sim_stripe bopt bopt inflate o hs schema c 0 w w s s s' w' e Hw Hs (or_introl eq_refl) H)
    as (t' & v' & m & F & Tw & Ts & _ & Em & Er & Ec & Ee).
  assert (t' = s' /\ v' = w') as [-> ->] by (split; congruence). pose proof Hs as (_ & _ & Hr & _).
  cbv zeta in Em. rewrite Z.sub_0_r, i64_u64, i64_id in Em by (unfold is_i64; lia).
  assert (m = k) as -> by (unfold k; destruct (_ <? _) eqn:E in Em; lia). rewrite (u64_id (sr_cursor s + k)) in Ec, Ee by (unfold is_u64, k; lia). rewrite u64_id in Ee by (unfold is_u64, k; lia).
  split; [exact Tw|]. split; [split; [exact Ts|rewrite Er, Ec; unfold k; lia]|]. auto.
Qed.

(** The loop goes round once. *)
Lemma one_round w i : twin 0 w w -> forall f ss, (forall s, nth_error ss i = Some s -> good s) -> readLoop (S f) ss i w = readLoop 1 ss i w.
Proof.
  intros Hw f ss Hg. cbn [Assembled.readLoop]. destruct (nth_error ss i) as [s|] eqn:Es; [|reflexivity]. destruct (stripeNext s w) as [[[s' w'] e]| |] eqn:E; cbn [rbind]; try reflexivity.
  destruct e; [reflexivity|]. destruct (stripe_counts w s s' w' false Hw (Hg s eq_refl) E) as (Tw & Hs' & Er & Ec & Ee).
  destruct (twin_Len _ _ _ _ _ _ _ _ Tw) as (L & _ & C & _). rewrite L, C. destruct (Z.leb_spec c (Z.min c (sr_rows s - sr_cursor s))); [reflexivity|]. lia.
Qed.

Definition after (s : stripeRd) (post : list stripeRd) : list Z :=
  from c (sr_rows s) (sr_cursor s) ++ concat (map (fun s => stripe_batches c (sr_rows s)) post) ++
  (if loses c (last (map sr_rows (s :: post)) 0) then [1] else []).
Inductive Stand (x : batchRd) : list Z -> Prop :=
| StandNone : br_stripes x = [] -> Stand x []
| StandIn pre s post : br_stripes x = pre ++ s :: post -> br_index x = length pre -> Forall good (pre ++ s :: post) ->
    Forall (fun s => sr_cursor s = 0 /\ 1 <= sr_rows s) post -> sr_cursor s mod c = 0 ->
    sr_cursor s = 0 /\ 1 <= sr_rows s \/ sr_cursor s + 1 < sr_rows s -> Stand x (after s post)
| StandEnd pre s : br_stripes x = pre ++ [s] -> br_index x = length pre -> Forall good (pre ++ [s]) ->
    sr_rows s - 1 <= sr_cursor s -> Stand x (if sr_cursor s <? sr_rows s then [1] else []).

Lemma next_counts n x w x' w' e rest : Stand x rest -> twin n w w -> 0 <= br_cursor x -> br_cursor x + sum rest < 2 ^ 63 -> Forall (fun k => 0 <= k) rest ->
  0 <= br_total x < 2 ^ 63 -> readNext x w = Ok (x', w', e) ->
  (exists m, twin m w' w') /\ br_total x' = br_total x /\
  if ended (br_total x) (br_cursor x) then x' = x /\ Len w' = 0 /\ e = true
  else Stand x' (tl rest) /\ br_cursor x' = br_cursor x + hd 0 rest /\ Len w' = hd 0 rest /\ e = ended (br_total x) (br_cursor x + hd 0 rest).
Proof.
  change (2 ^ 63) with 9223372036854775808. intros Hst Hw Hcur Hsum Hpos Ht H. apply twin_Clear in Hw. pose proof (twin_Len _ _ _ _ _ _ _ _ Hw) as (L0 & _ & C0 & _).
  assert (Hend : forall cur, 0 <= cur < 9223372036854775808 -> (u64 (br_total x - 1) <=? cur) = ended (br_total x) cur).
  { intros cur Hq. unfold ended. destruct (Z.leb_spec 1 (br_total x)); cbn [andb]; [rewrite u64_id by (unfold is_u64; lia); reflexivity|].
    assert (br_total x = 0) as -> by lia. change (u64 (0 - 1)) with 18446744073709551615. lia. }
  unfold Assembled.readNext in H. rewrite Hend in H by (split; [lia|]; assert (0 <= sum rest); [|lia]; clear - Hpos; induction Hpos; cbn [sum fold_right]; [lia|fold (sum l); lia]).
  destruct (ended (br_total x) (br_cursor x)).
  { assert (x' = x /\ w' = Clear w /\ e = true) as (-> & -> & ->) by (repeat split; congruence). split; [eauto|]. auto. }
  apply rbind_inv in H. destruct H as ([[ss' j] w1] & E & H). cbv zeta in H.
  assert (Hu : forall k, 0 <= k <= sum rest -> u64 (br_cursor x + k) = br_cursor x + k /\ 0 <= br_cursor x + k < 9223372036854775808) by (intros k Hk; split; [apply u64_id; unfold is_u64|]; lia).
  assert (Hhd : 0 <= hd 0 rest <= sum rest).
  { destruct Hpos as [|k rest Hk Hpos]; [cbn; lia|]. cbn [hd sum fold_right]. fold (sum rest). assert (0 <= sum rest); [|lia]. clear - Hpos. induction Hpos; cbn [sum fold_right]; [lia|fold (sum l); lia]. }
  destruct (Hu _ Hhd) as [Hu1 Hu2].
  destruct Hst as [E0|pre s post E0 Ei Hg Hpost Hm Hs|pre s E0 Ei Hg Hs].
  - rewrite E0 in E. cbn [length Assembled.readLoop] in E. destruct (nth_error [] (br_index x)) eqn:En; [destruct (br_index x); discriminate|].
    destruct (_ <? _)%nat; [discriminate|]. assert (ss' = [] /\ w1 = Clear w) as [-> ->] by (split; congruence). rewrite L0 in H. cbn [hd] in Hu1, Hu2. rewrite Hu1, Hend in H by exact Hu2.
    match type of H with Ok (?a, ?b, ?d) = _ => assert (x' = a /\ w' = b /\ e = d) as (-> & -> & ->) by (repeat split; congruence) end. split; [eauto|]. split; [reflexivity|]. cbn [tl hd br_cursor].
    split; [apply StandNone; reflexivity|]. auto.
  - rewrite one_round in E; [|exact Hw|]. 2:{ intros s0 Hs0. rewrite Forall_forall in Hg. apply Hg. rewrite <- E0. eapply nth_error_In. exact Hs0. }
    cbn [Assembled.readLoop] in E. rewrite E0, Ei, nth_mid in E. apply rbind_inv in E. destruct E as ([[s' w2] e'] & En & E).
    assert (Hgs : good s) by (rewrite Forall_forall in Hg; apply Hg; apply in_app_iff; right; left; reflexivity).
    destruct (stripe_counts _ _ _ _ _ Hw Hgs En) as (Tw & Hg' & Er & Ec & Ee). rewrite set_nth_mid in E.
    destruct (stripe_batches_step c (sr_rows s) (sr_cursor s) Hc ltac:(apply Hgs) Hm Hs) as (F1 & F2 & F3).
    set (k := Z.min c (sr_rows s - sr_cursor s)) in *. destruct (twin_Len _ _ _ _ _ _ _ _ Tw) as (L & _ & C & _).
    assert (Hafter : after s post = k :: (from c (sr_rows s) (sr_cursor s + k) ++ concat (map (fun s => stripe_batches c (sr_rows s)) post) ++
        (if loses c (last (map sr_rows (s :: post)) 0) then [1] else []))) by (unfold after, from; rewrite F1; reflexivity).
    rewrite Hafter in *. cbn [hd tl] in *.
    assert (Hall : Forall good (pre ++ s' :: post)).
    { apply Forall_app in Hg. destruct Hg as [G1 G2]. inversion G2; subst. apply Forall_app. split; [exact G1|constructor; assumption]. }
    assert (Hlast : last (map sr_rows (s' :: post)) 0 = last (map sr_rows (s :: post)) 0) by (cbn [map]; rewrite Er; reflexivity).
    assert (w1 = w2 /\ ss' = pre ++ s' :: post /\ j = if e' then S (length pre) else length pre) as (-> & -> & ->).
    { destruct e'; [repeat split; congruence|]. rewrite L, C in E. assert (Ek : k = c) by (unfold k in *; lia). rewrite Ek, Z.leb_refl in E. repeat split; congruence. }
    rewrite L, Hu1, Hend in H by exact Hu2.
    match type of H with Ok (?a, ?b, ?d) = _ => assert (x' = a /\ w' = b /\ e = d) as (-> & -> & ->) by (repeat split; congruence) end. split; [eauto|]. split; [reflexivity|]. cbn [br_cursor].
    split; [|auto]. destruct e'; symmetry in Ee.
    + apply Z.leb_le in Ee. rewrite (F2 ltac:(lia)) in *. unfold from. rewrite Z.sub_diag, Zdiv_0_l, Zmod_0_l. cbn [Z.to_nat repeat app Z.eqb].
      destruct post as [|q post].
      * cbn [map concat app last]. replace (if loses c (sr_rows s) then [1] else []) with (if sr_cursor s' <? sr_rows s' then [1] else []).
        2:{ rewrite Ec, Er. unfold leave. destruct (loses c (sr_rows s)); [replace (sr_rows s - 1 <? sr_rows s) with true by lia|rewrite Z.ltb_irrefl]; reflexivity. }
        apply (StandEnd _ pre s'); cbn [br_stripes br_index]; [reflexivity| |exact Hall|rewrite Er, Ec; unfold leave; destruct (loses c (sr_rows s)); lia].
        rewrite app_length. cbn [length]. unfold stepBack. rewrite Nat.add_1_r, Nat.eqb_refl. reflexivity.
      * inversion Hpost as [|? ? [Q1 Q2] Hpost']; subst. cbn [map concat]. rewrite <- app_assoc.
        replace (last (sr_rows s :: sr_rows q :: map sr_rows post) 0) with (last (map sr_rows (q :: post)) 0) by reflexivity.
        replace (stripe_batches c (sr_rows q)) with (from c (sr_rows q) (sr_cursor q)) by (rewrite Q1; apply from_0).
        apply (StandIn _ (pre ++ [s']) q post); cbn [br_stripes br_index]; rewrite <- ?app_assoc; cbn [app]; auto.
        -- rewrite !app_length. cbn [length]. unfold stepBack. replace (S (length pre) =? length pre + S (S (length post)))%nat with false by (symmetry; apply Nat.eqb_neq; lia). lia.
        -- rewrite Q1. apply Zmod_0_l.
    + apply Z.leb_gt in Ee. rewrite <- Hlast, <- Ec, <- Er. apply (StandIn _ pre s' post); cbn [br_stripes br_index]; auto.
      * rewrite app_length. cbn [length]. unfold stepBack. replace (length pre =? length pre + S (length post))%nat with false by (symmetry; apply Nat.eqb_neq; lia). reflexivity.
      * rewrite Ec. apply F3. lia.
      * right. lia.
  - rewrite one_round in E; [|exact Hw|]. 2:{ intros s0 Hs0. rewrite Forall_forall in Hg. apply Hg. rewrite <- E0. eapply nth_error_In. exact Hs0. }
    cbn [Assembled.readLoop] in E. rewrite E0, Ei, nth_mid in E. apply rbind_inv in E. destruct E as ([[s' w2] e'] & En & E).
    assert (Hgs : good s) by (rewrite Forall_forall in Hg; apply Hg; apply in_app_iff; right; left; reflexivity).
    destruct (stripe_counts _ _ _ _ _ Hw Hgs En) as (Tw & Hg' & Er & Ec & Ee). rewrite set_nth_mid in E. destruct Hgs as [_ Hgs].
    set (k := Z.min c (sr_rows s - sr_cursor s)) in *. destruct (twin_Len _ _ _ _ _ _ _ _ Tw) as (L & _ & C & _).
    assert (Ek : k = hd 0 (if sr_cursor s <? sr_rows s then [1] else [])) by (unfold k; destruct (Z.ltb_spec (sr_cursor s) (sr_rows s)); cbn [hd]; lia).
    assert (e' = true) as -> by (subst e'; unfold k; lia).
    assert (w1 = w2 /\ ss' = pre ++ [s'] /\ j = S (length pre)) as (-> & -> & ->) by (repeat split; congruence).
    rewrite <- Ek in *. rewrite L, Hu1, Hend in H by exact Hu2.
    match type of H with Ok (?a, ?b, ?d) = _ => assert (x' = a /\ w' = b /\ e = d) as (-> & -> & ->) by (repeat split; congruence) end. split; [eauto|]. split; [reflexivity|]. cbn [br_cursor].
    split; [|auto]. replace (tl (if sr_cursor s <? sr_rows s then [1] else [])) with (if sr_cursor s' <? sr_rows s' then [1] else []).
    2:{ rewrite Ec, Er. replace (sr_cursor s + k <? sr_rows s) with false by lia. destruct (_ <? _); reflexivity. }
    apply (StandEnd _ pre s'); cbn [br_stripes br_index]; [reflexivity| | |lia].
    + rewrite app_length. cbn [length]. unfold stepBack. rewrite Nat.add_1_r, Nat.eqb_refl. reflexivity.
    + apply Forall_app in Hg. destruct Hg as [G1 _]. apply Forall_app. split; [exact G1|constructor; [exact Hg'|constructor]].
Qed.

(** Seek leaves everything where it was but the columns. *)
Definition alike (s t : stripeRd) : Prop := sr_rows t = sr_rows s /\ sr_cursor t = sr_cursor s /\ (good s -> good t).
Lemma seek_alike k row ss : Forall good ss -> forall before ss', seekStripes inflate o k row before ss = Ok ss' -> Forall2 alike ss ss'.
Proof.
  intros H. induction H as [|s ss Hs Hss IH]; intros before ss' E; cbn [seekStripes] in E; [discriminate|].
  assert (Hrefl : forall l, Forall2 alike l l) by (intros l; induction l; constructor; [split; [reflexivity|split; [reflexivity|auto]]|assumption]).
  destruct (row <? _); apply rbind_inv in E; destruct E as (y & E1 & E).
  - assert (ss' = y :: ss) as -> by congruence. constructor; [|apply Hrefl]. destruct Hs as [Hs Hcu].
    destruct (sim_stripeSeek bopt bopt inflate o schema _ _ _ _ _ Hs E1) as (t' & F & Ht). assert (t' = y) as -> by congruence.
    unfold stripeSeek in E1. apply rbind_inv in E1. destruct E1 as (off & _ & E1). destruct (sr_tree s); [|discriminate]. apply rbind_inv in E1. destruct E1 as (t1 & _ & E1).
    apply rbind_inv in E1. destruct E1 as (t2 & _ & E1). match type of E1 with Ok ?v = _ => assert (y = v) as Ey by congruence end.
    split; [subst y; reflexivity|]. split; [subst y; reflexivity|]. intros _. split; [exact Ht|subst y; exact Hcu].
  - assert (ss' = s :: y) as -> by congruence. constructor; [split; [reflexivity|split; [reflexivity|auto]]|]. eapply IH; exact E1.
Qed.
Lemma Forall2_good ss ss' : Forall2 alike ss ss' -> Forall good ss -> Forall good ss'.
Proof. intros H. induction H as [|s t ss ss' (_ & _ & Hg) H IH]; intros G; [constructor|]. inversion G; subst. constructor; auto. Qed.
Lemma Stand_good x rest : Stand x rest -> Forall good (br_stripes x).
Proof. intros [E|pre s post E _ H|pre s E _ H]; rewrite E; [constructor|exact H|exact H]. Qed.
Lemma Stand_seek x rest ss' : Stand x rest -> Forall2 alike (br_stripes x) ss' ->
  Stand {| br_stripes := ss'; br_index := br_index x; br_total := br_total x; br_cursor := br_cursor x |} rest.
Proof.
  intros Hst H. pose proof (Forall2_good _ _ H (Stand_good _ _ Hst)) as Hg'. destruct Hst as [E|pre s post E Ei Hg Hpost Hm Hs|pre s E Ei Hg Hs]; rewrite E in H.
  - inversion H; subst. apply StandNone. reflexivity.
  - apply Forall2_app_inv_l in H. destruct H as (pre' & l & H1 & H2 & ->). inversion H2 as [|? s' ? post' Hss Hpp]; subst. destruct Hss as (Q1 & Q2 & _).
    assert (Ep : map sr_rows post' = map sr_rows post /\ Forall (fun s => sr_cursor s = 0 /\ 1 <= sr_rows s) post').
    { clear - Hpp Hpost. induction Hpp as [|q q' post post' (P1 & P2 & _) Hpp IH]; [split; [reflexivity|constructor]|]. inversion Hpost as [|? ? [G1 G2] Hp]; subst.
      destruct (IH Hp) as [I1 I2]. split; [cbn [map]; rewrite P1, I1; reflexivity|]. constructor; [rewrite P1, P2; auto|exact I2]. }
    destruct Ep as [Ep Hpost']. replace (after s post) with (after s' post').
    2:{ unfold after. rewrite Q1, Q2. cbn [map]. rewrite Ep, Q1. rewrite <- (map_map sr_rows (stripe_batches c) post'), <- (map_map sr_rows (stripe_batches c) post), Ep. reflexivity. }
    apply (StandIn _ pre' s' post'); cbn [br_stripes br_index]; rewrite ?Q1, ?Q2; auto. rewrite Ei. apply (Forall2_len _ _ _ H1).
  - apply Forall2_app_inv_l in H. destruct H as (pre' & l & H1 & H2 & ->). inversion H2 as [|? s' ? post' Hss Hpp]; subst. destruct Hss as (Q1 & Q2 & _). inversion Hpp; subst.
    rewrite <- Q1, <- Q2. apply (StandEnd _ pre' s'); cbn [br_stripes br_index]; rewrite ?Q1, ?Q2; auto. rewrite Ei. apply (Forall2_len _ _ _ H1).
Qed.

(** *** A batch without room *)
Definition bare (n : Z) (w : bvec) : Prop := keepV bopt bopt schema w w /\ uni hs n c w /\ ~ leads hs w.
Lemma bare_Cap n w : bare n w -> Cap w = 0.
Proof. intros (_ & U & L). destruct (Z.eq_dec (Cap w) 0) as [E|E]; [exact E|]. exfalso. apply L. eapply uni_leads; eassumption. Qed.
Lemma bare_Len w : bare 0 w -> Len w = 0.
Proof. intros (_ & U & _). apply quiet_Len. eapply uni_quiet. exact U. Qed.
Lemma bare_Clear n w : bare n w -> bare 0 (Clear w).
Proof.
  intros (K & U & L). split; [apply keep_Clear; exact K|]. split; [eapply uni_Clear; exact U|]. intros X. apply L. apply (leads_same hs (Clear w)); [apply skel_Clear|exact X].
Qed.
Lemma stripe_bare w s s' w' e : bare 0 w -> good s -> stripeNext s w = Ok (s', w', e) -> bare 0 w' /\ good s'.
Proof.
  intros Hw ((_ & _ & Hr & a & b & Ea & Eb & Hab & Haa) & Hcur) H. pose proof (bare_Cap _ _ Hw) as HC. pose proof (bare_Len _ Hw) as HL. destruct Hw as (K & U & D).
  unfold Assembled.stripeNext in H. rewrite HC, HL, Ea in H. cbv zeta in H. rewrite i64_u64, i64_id in H by (unfold is_i64; lia).
  assert (Hp : (if sr_rows s - sr_cursor s <? 0 - 0 then sr_rows s - sr_cursor s else 0 - 0) = 0) by (destruct (_ <? _) eqn:E; lia). rewrite Hp in H.
  apply rbind_inv in H. destruct H as (w1 & E1 & H). apply rbind_inv in H. destruct H as ([x a'] & E2 & H).
  destruct (keep_size bopt bopt hs 0 schema w w w1 K E1) as (w1' & F1 & K'). assert (w1' = w1) as -> by congruence.
  destruct (keep_next bopt bopt inflate o schema _ _ _ _ _ _ Haa (keep_view _ _ _ _ _ K') E2) as (y & a0 & F2 & X & T). assert (y = x /\ a0 = a') as [-> ->] by (split; congruence).
  assert (U1 : uni hs 0 c w1) by (eapply uni_size; [|exact U|exact E1]; auto).
  assert (Hsx : sameX bopt schema (view w1) x) by (eapply same_next; [exact Haa|apply keep_view; exact K'|exact E2]).
  assert (B : bare 0 (put w1 x)).
  { split; [apply keep_put; assumption|]. split; [eapply uni_put; eassumption|]. intros X'. apply D. apply (leads_same hs (put w1 x)); [|exact X']. rewrite skel_put. eapply skel_size; eassumption. }
  rewrite (bare_Len _ B), Z.add_0_r in H. rewrite (u64_id (sr_cursor s)) in H by (unfold is_u64; lia).
  match type of H with Ok (?p, ?q, ?d) = _ => assert (s' = p /\ w' = q) as [-> ->] by (split; congruence) end.
  split; [exact B|]. split; [|cbn [sr_cursor sr_rows]; exact Hcur]. split; [reflexivity|]. split; [reflexivity|]. split; [exact Hr|]. exists a', a'. auto.
Qed.
Lemma next_bare n x w x' w' e : Forall good (br_stripes x) -> bare n w -> br_cursor x = 0 -> 0 <= br_total x < 2 ^ 63 -> readNext x w = Ok (x', w', e) ->
  Forall good (br_stripes x') /\ bare 0 w' /\ br_cursor x' = 0 /\ br_total x' = br_total x /\ e = ended (br_total x) 0 /\ Len w' = 0.
Proof.
  change (2 ^ 63) with 9223372036854775808. intros Hg Hw Hcur Ht H. apply bare_Clear in Hw.
  assert (Hend : (u64 (br_total x - 1) <=? 0) = ended (br_total x) 0).
  { unfold ended. destruct (Z.leb_spec 1 (br_total x)); cbn [andb]; [rewrite u64_id by (unfold is_u64; lia); reflexivity|].
    assert (br_total x = 0) as -> by lia. reflexivity. }
  unfold Assembled.readNext in H. rewrite Hcur, Hend in H. destruct (ended (br_total x) 0) eqn:Een.
  { assert (x' = x /\ w' = Clear w /\ e = true) as (-> & -> & ->) by (repeat split; congruence). pose proof (bare_Len _ Hw). auto 10. }
  apply rbind_inv in H. destruct H as ([[ss' j] w1] & E & H). cbv zeta in H. cbn [Assembled.readLoop] in E.
  assert (Hcon : Forall good ss' /\ bare 0 w1).
  { destruct (nth_error (br_stripes x) (br_index x)) as [s|] eqn:En.
    - apply rbind_inv in E. destruct E as ([[s' w2] e'] & E1 & E). assert (Hs : good s) by (rewrite Forall_forall in Hg; apply Hg; eapply nth_error_In; exact En).
      destruct (stripe_bare _ _ _ _ _ Hw Hs E1) as [B G].
      assert (ss' = set_nth (br_stripes x) (br_index x) s' /\ w1 = w2) as [-> ->].
      { destruct e'; [split; congruence|]. rewrite (bare_Len _ B), (bare_Cap _ _ B) in E. cbn [Z.leb Z.compare] in E. split; congruence. }
      split; [|exact B]. clear - Hg G. revert Hg. generalize (br_index x) as i. induction (br_stripes x) as [|q l IH]; intros i Hg; [destruct i; constructor|].
      inversion Hg; subst. destruct i; cbn [set_nth]; constructor; auto.
    - destruct (_ <? _)%nat; [discriminate|]. assert (ss' = br_stripes x /\ w1 = Clear w) as [-> ->] by (split; congruence). auto. }
  destruct Hcon as [G B]. rewrite (bare_Len _ B) in H. change (u64 (0 + 0)) with 0 in H. rewrite Hend in H.
  match type of H with Ok (?a, ?b, ?d) = _ => assert (x' = a /\ w' = b /\ e = d) as (-> & -> & ->) by (repeat split; congruence) end.
  cbn [br_stripes br_cursor br_total]. pose proof (bare_Len _ B). auto 10.
Qed.
End Run.

(** ** The calls of a client *)
Lemma calls_told inflate bopt r schema c : 0 < c -> 0 <= fr_rows r < 2 ^ 63 -> forall l n w x rest out, twin bopt bopt (fr_hasNulls r) schema c n w w -> Stand bopt schema c x rest ->
  br_total x = fr_rows r -> 0 <= br_cursor x -> br_cursor x + sum rest < 2 ^ 63 -> Forall (fun k => 0 <= k) rest ->
  calls inflate r x w l = Ok out -> told out = reports (fr_rows r) (br_cursor x) rest (nexts l).
Proof.
  intros Hc HT. induction l as [|[|row] l IH]; intros n w x rest out Hw Hst Ht Hcur Hsum Hpos H; cbn [calls] in H.
  - assert (out = []) as -> by congruence. reflexivity.
  - apply rbind_inv in H. destruct H as ([[x' w'] e] & E & H). apply rbind_inv in H. destruct H as (out1 & E1 & H). assert (out = (w', e) :: out1) as -> by congruence.
    destruct (next_counts inflate (readerOpts r) (fr_hasNulls r) bopt schema c Hc n x w x' w' e rest Hst Hw Hcur Hsum Hpos ltac:(rewrite Ht; exact HT) E) as ((m & Hw') & Ht' & Hn).
    unfold nexts. cbn [filter length told map fst snd reports]. fold (nexts l) (told out1). rewrite Ht in Hn, Ht'. destruct (ended (fr_rows r) (br_cursor x)) eqn:Ee.
    + destruct Hn as (-> & -> & ->). f_equal. eapply IH; eassumption.
    + destruct Hn as (Hst' & Hcur' & -> & ->). f_equal. rewrite <- Hcur'. apply (IH m w' x' (tl rest) out1); try assumption.
      * rewrite Hcur'. destruct Hpos; cbn [hd]; lia.
      * rewrite Hcur'. destruct rest as [|k rest]; cbn [hd tl] in *; [lia|]. cbn [sum fold_right] in Hsum. fold (sum rest) in Hsum. lia.
      * destruct Hpos; [constructor|assumption].
  - apply rbind_inv in H. destruct H as (x' & E & H). unfold batchSeek, readSeek in E. destruct (_ <? _); [discriminate|]. apply rbind_inv in E. destruct E as (ss & E & Ex).
    assert (x' = {| br_stripes := ss; br_index := br_index x; br_total := br_total x; br_cursor := br_cursor x |}) as -> by congruence.
    unfold nexts. cbn [filter]. fold (nexts l).
    refine (IH n w _ rest out Hw (Stand_seek bopt schema c x rest ss Hst (seek_alike inflate (readerOpts r) bopt schema _ _ _ (Stand_good _ _ _ _ _ Hst) _ _ E)) Ht Hcur Hsum Hpos H).
Qed.
Lemma calls_bare inflate bopt r schema c : 0 <= fr_rows r < 2 ^ 63 -> forall l n w x out, bare (fr_hasNulls r) bopt schema c n w -> Forall (good bopt schema) (br_stripes x) ->
  br_total x = fr_rows r -> br_cursor x = 0 -> calls inflate r x w l = Ok out -> told out = reports (fr_rows r) 0 [] (nexts l).
Proof.
  intros HT. induction l as [|[|row] l IH]; intros n w x out Hw Hg Ht Hcur H; cbn [calls] in H.
  - assert (out = []) as -> by congruence. reflexivity.
  - apply rbind_inv in H. destruct H as ([[x' w'] e] & E & H). apply rbind_inv in H. destruct H as (out1 & E1 & H). assert (out = (w', e) :: out1) as -> by congruence.
    destruct (next_bare inflate (readerOpts r) (fr_hasNulls r) bopt schema c n x w x' w' e Hg Hw Hcur ltac:(rewrite Ht; exact HT) E) as (Hg' & Hw' & Hcur' & Ht' & -> & L).
    unfold nexts. cbn [filter length told map fst snd reports]. fold (nexts l) (told out1). rewrite L, Ht. rewrite Ht in Ht'. cbn [hd tl]. change (0 + 0) with 0.
    rewrite (IH _ _ _ _ Hw' Hg' Ht' Hcur' E1). destruct (ended (fr_rows r) 0) eqn:Ee; reflexivity.
  - apply rbind_inv in H. destruct H as (x' & E & H). unfold batchSeek, readSeek in E. destruct (_ <? _); [discriminate|]. apply rbind_inv in E. destruct E as (ss & E & Ex).
    assert (x' = {| br_stripes := ss; br_index := br_index x; br_total := br_total x; br_cursor := br_cursor x |}) as -> by congruence.
    unfold nexts. cbn [filter]. fold (nexts l). refine (IH n w {| br_stripes := ss; br_index := br_index x; br_total := br_total x; br_cursor := br_cursor x |} out Hw _ Ht Hcur H). cbn [br_stripes].
    exact (Forall2_good bopt schema _ _ (seek_alike inflate (readerOpts r) bopt schema _ _ _ Hg _ _ E) Hg).
Qed.

(** ** Opening *)
Lemma newStripes_fresh inflate o nodes hs bopt file l : forall xs ss, length xs = length l -> newStripes inflate o nodes hs bopt file l xs = Ok ss ->
  map sr_rows ss = map NumberOfRows l /\ Forall (fun s => sr_cursor s = 0) ss.
Proof.
  induction l as [|i l IH]; intros [|x xs] ss Hl H; cbn [newStripes length] in *; try discriminate; [assert (ss = []) as -> by congruence; split; [reflexivity|constructor]|].
  apply rbind_inv in H. destruct H as (s & E1 & H). apply rbind_inv in H. destruct H as (r & E2 & H). assert (ss = s :: r) as -> by congruence.
  destruct (IH xs r ltac:(congruence) E2) as [I1 I2]. unfold newStripeRd in E1. apply rbind_inv in E1. destruct E1 as (? & _ & E1). apply rbind_inv in E1. destruct E1 as (? & _ & E1).
  apply rbind_inv in E1. destruct E1 as (? & _ & E1). apply rbind_inv in E1. destruct E1 as (? & _ & E1). match type of E1 with Ok ?z = _ => assert (s = z) as -> by congruence end.
  split; [cbn [map sr_rows]; rewrite I1; reflexivity|]. constructor; [reflexivity|exact I2].
Qed.
Lemma initStripes_rows inflate unSF k file l : forall xs, initStripes inflate unSF k file l = Ok xs -> Forall (fun i => NumberOfRows i <> 0) l.
Proof.
  induction l as [|i l IH]; intros xs H; cbn [initStripes] in H; [constructor|]. destruct (Z.eqb_spec (NumberOfRows i) 0); [discriminate|].
  apply rbind_inv in H. destruct H as (x & _ & H). apply rbind_inv in H. destruct H as (y & E & _). constructor; [assumption|]. eapply IH. exact E.
Qed.
Lemma sum_bounds l : Forall (fun k => 0 <= k) l -> 0 <= sum l /\ Forall (fun k => 0 <= k <= sum l) l.
Proof.
  intros H. induction H as [|k l Hk Hl [I1 I2]]; [split; [cbn; lia|constructor]|]. cbn [sum fold_right]. fold (sum l). split; [lia|]. constructor; [lia|].
  eapply Forall_impl; [|exact I2]. cbn. intros. lia.
Qed.
(** The sizes of the batches. *)
Lemma all_batches_pos c ns : 0 < c -> Forall (fun n => 1 <= n) ns -> Forall (fun k => 1 <= k) (all_batches c ns).
Proof.
  intros Hc H. unfold all_batches. apply Forall_app. split; [|destruct (loses c _); constructor; [lia|constructor]].
  induction H as [|n ns Hn Hns IH]; cbn [map concat]; [constructor|]. apply Forall_app. split; [|exact IH]. apply sum_batches; [exact Hc|lia].
Qed.
Lemma all_batches_sum c ns : 0 < c -> Forall (fun n => 1 <= n) ns -> sum (all_batches c ns) = handed_out c ns.
Proof.
  intros Hc H. unfold all_batches, handed_out, left_out. rewrite sum_app. induction H as [|n ns Hn Hns IH]; [reflexivity|].
  cbn [map concat]. rewrite sum_app. destruct (sum_batches c n Hc ltac:(lia)) as [-> _]. destruct ns as [|n' ns].
  - cbn [map concat last removelast filter length sum fold_right]. unfold leave. destruct (loses c n); cbn [sum fold_right]; lia.
  - replace (last (n :: n' :: ns) 0) with (last (n' :: ns) 0) by reflexivity. replace (removelast (n :: n' :: ns)) with (n :: removelast (n' :: ns)) by reflexivity.
    cbn [sum fold_right filter] in *. unfold leave. destruct (loses c n); cbn [length]; lia.
Qed.

Lemma batches inflate bopt file schema r x w l out : reading inflate bopt file schema r x w -> calls inflate r x (batchOf w) l = Ok out ->
  Forall (fun n => 1 <= n) (map NumberOfRows (fr_stripes r)) /\
  (Cap (batchOf w) = 0 \/ Cap (batchOf w) = RowSize bopt) /\
  told out = reports (fr_rows r) 0 (if Cap (batchOf w) =? 0 then [] else all_batches (RowSize bopt) (map NumberOfRows (fr_stripes r))) (nexts l).
Proof.
  intros [[Hid Hu] Hroot Hn2 Hpos (Hrow & Hsum & HT) Hopen Hvec] Hcalls.
  assert (Hww : narrower bopt bopt) by (intros i; auto).
  assert (Hnodes : nodesOf (fr_nodes r) schema) by (intros t Ht; destruct (Hu t Ht) as (H0 & Hn & _); auto).
  pose proof (Hu _ (flatten_self _)) as (_ & _ & Hh). rewrite Hid in Hh. cbn in Hh.
  assert (Hhs : exists h t, fr_hasNulls r = h :: t) by (destruct (fr_hasNulls r); [discriminate|eauto]).
  apply openBatches_ok in Hopen. apply rbind_inv in Hopen. destruct Hopen as (r' & E1 & Hopen). apply rbind_inv in Hopen. destruct Hopen as (xs & E2 & Hopen).
  apply rbind_inv in Hopen. destruct Hopen as (ss & E3 & Hopen). assert (r' = r) as -> by congruence.
  assert (x = {| br_stripes := ss; br_index := 0; br_total := fr_rows r; br_cursor := 0 |}) as -> by congruence. clear Hopen.
  assert (Hrow1 : Forall (fun n => 0 <= n) (map NumberOfRows (fr_stripes r))) by (rewrite Forall_map; exact Hrow).
  destruct (sum_bounds _ Hrow1) as [_ Hrow2]. rewrite Forall_map in Hrow2.
  assert (Hrows : Forall (fun i => 0 <= NumberOfRows i < W63) (fr_stripes r)) by (eapply Forall_impl; [|exact Hrow2]; cbn; intros; change (2 ^ 63) with 9223372036854775808 in *; lia).
  unfold CreateBatchReader in E2. destruct (RowSize bopt =? 0); [discriminate|].
  assert (Hne : Forall (fun n => 1 <= n) (map NumberOfRows (fr_stripes r))).
  { rewrite Forall_map. pose proof (initStripes_rows _ _ _ _ _ _ E2) as Hz. rewrite Forall_forall in *. intros i Hi. specialize (Hz i Hi). specialize (Hrow i Hi). lia. }
  split; [exact Hne|].
  destruct (newStripes_fresh _ _ _ _ _ _ _ _ _ (eq_sym (initStripes_len _ _ _ _ _ _ E2)) E3) as [Hmap Hfresh].
  destruct (keep_stripes bopt bopt Hww inflate _ _ _ schema Hid Hnodes Hhs Hroot (same_self _ _) _ _ Hrows _ _ E3) as (ts & F3 & Hss). assert (ts = ss) as -> by congruence.
  assert (Hgood : Forall (good bopt schema) ss).
  { clear - Hss Hfresh. assert (H : Forall (fun s => twinS bopt bopt schema s s) ss) by (clear Hfresh; induction ss as [|s ss IH]; [constructor|]; inversion Hss; subst; constructor; auto).
    rewrite Forall_forall in *. intros s Hs. split; [apply H; exact Hs|]. rewrite (Hfresh s Hs). destruct (H s Hs) as (_ & _ & Hr & _). lia. }
  unfold CreateVector in Hvec. destruct (RowSize bopt =? 0); [discriminate|]. destruct (verifySchema schema); [|discriminate].
  assert (Hi : IsInclude bopt (td_id schema) = true) by (rewrite Hid; apply Hroot).
  destruct (keep_create bopt bopt Hww eq_refl Hn2 Hn2 schema (same_self _ _) Hi _ Hvec) as (w' & Fw & Hw). assert (w' = w) as -> by congruence.
  assert (Huni : uni (fr_hasNulls r) (RowSize bopt) (RowSize bopt) (batchOf w)).
  { refine (create_uni bopt Hpos Hn2 (fr_hasNulls r) schema _ w Hvec). intros t Ht. apply Hu. exact Ht. }
  destruct (Z.eqb_spec (Cap (batchOf w)) 0) as [Hz|Hz].
  - split; [left; exact Hz|]. apply (calls_bare inflate bopt r schema (RowSize bopt) HT l (RowSize bopt) (batchOf w) _ out) in Hcalls; auto.
    split; [exact Hw|]. split; [exact Huni|]. intros X. apply (uni_Cap _ _ _ _ Huni) in X. lia.
  - pose proof (uni_leads _ _ _ _ Huni Hz) as Hleads. split; [right; eapply uni_Cap; eassumption|].
    pose proof (all_batches_sum _ _ Hpos Hne) as Hs. pose proof (all_batches_pos _ _ Hpos Hne) as Hp.
    assert (Hh0 : handed_out (RowSize bopt) (map NumberOfRows (fr_stripes r)) <= sum (map NumberOfRows (fr_stripes r))) by (unfold handed_out, left_out; lia).
    refine (calls_told inflate bopt r schema (RowSize bopt) Hpos HT l (RowSize bopt) (batchOf w) {| br_stripes := ss; br_index := 0; br_total := fr_rows r; br_cursor := 0 |} _ out _ _ eq_refl _ _ _ Hcalls); cbn [br_cursor].
    + split; [exact Hw|]. split; [exact Hw|]. split; [exact Huni|]. split; exact Hleads.
    + assert (Hne' : Forall (fun s => 1 <= sr_rows s) ss) by (rewrite <- Hmap, Forall_map in Hne; exact Hne). clear - Hmap Hfresh Hgood Hne' Hpos. destruct ss as [|s ss].
      * rewrite <- Hmap. apply StandNone. reflexivity.
      * inversion Hfresh as [|? ? Hf Hfs]; subst. inversion Hne' as [|? ? Hn Hns]; subst. replace (all_batches (RowSize bopt) (map NumberOfRows (fr_stripes r))) with (after (RowSize bopt) s ss).
        2:{ unfold after, all_batches. rewrite <- Hmap, Hf, from_0. cbn [map concat]. rewrite map_map, app_assoc. reflexivity. }
        apply (StandIn _ _ _ _ [] s ss); cbn [br_stripes br_index app length]; auto.
        -- rewrite Forall_forall in *. auto.
        -- rewrite Hf. apply Zmod_0_l.
    + lia.
    + rewrite Hs. lia.
    + eapply Forall_impl; [|exact Hp]. cbn. intros. lia.
Qed.

(** ** The end *)
Lemma reports_end T : 1 <= T -> forall n l cur, Forall (fun k => 1 <= k) l -> 0 <= cur -> T - 1 <= cur + sum l -> Z.max 1 (T - 1 - cur) <= Z.of_nat n ->
  In true (map snd (reports T cur l n)).
Proof.
  intros HT. induction n as [|n IH]; intros l cur Hl Hcur Hsum Hn; [lia|]. cbn [reports]. destruct (ended T cur) eqn:E; [left; reflexivity|]. cbn [map snd].
  unfold ended in *. destruct Hl as [|k l Hk Hl]; [cbn in Hsum; lia|]. cbn [hd tl]. cbn [sum fold_right] in Hsum. fold (sum l) in Hsum.
  destruct ((1 <=? T) && (T - 1 <=? cur + k)) eqn:E'; [left; reflexivity|]. right. apply IH; [exact Hl|lia..].
Qed.
Lemma reports_never T : forall n l cur, Forall (fun k => 0 <= k) l -> 0 <= cur -> ~ (1 <= T /\ T - 1 <= cur + sum l) ->
  map snd (reports T cur l n) = repeat false n.
Proof.
  induction n as [|n IH]; intros l cur Hl Hcur Hsum; [reflexivity|]. cbn [reports repeat].
  assert (Hs : 0 <= sum l) by apply (sum_bounds _ Hl).
  replace (ended T cur) with false by (unfold ended; lia). destruct Hl as [|k l Hk Hl]; cbn [hd tl map snd].
  - cbn [sum fold_right] in Hsum. rewrite Z.add_0_r. replace (ended T cur) with false by (unfold ended; lia). f_equal. apply IH; [constructor|exact Hcur|cbn; lia].
  - cbn [sum fold_right] in Hsum. fold (sum l) in Hsum. pose proof (proj1 (sum_bounds _ Hl)). replace (ended T (cur + k)) with false by (unfold ended; lia). f_equal. apply IH; [exact Hl|lia..].
Qed.
Lemma open_rows inflate bopt file r x : openBatches inflate bopt file = Ok (r, x) -> fr_rows r <> 0.
Proof.
  intros H. apply openBatches_ok in H. apply rbind_inv in H. destruct H as (r' & E & H). apply rbind_inv in H. destruct H as (? & _ & H). apply rbind_inv in H. destruct H as (? & _ & H).
  assert (r' = r) as -> by congruence. unfold newFileReader in E. apply rbind_inv in E. destruct E as ([[ps f]|] & _ & E); [|discriminate]. destruct (Z.eqb_spec (f_rows f) 0); [discriminate|].
  apply rbind_inv in E. destruct E as (ns & _ & E). destruct (_ <? _)%nat; [discriminate|]. match type of E with Ok ?z = _ => assert (r = z) as -> by congruence end. assumption.
Qed.
Lemma told_snd out : map snd (told out) = map snd out.
Proof. unfold told. rewrite map_map. reflexivity. Qed.
Lemma never_repeat out n : map snd out = repeat false n -> never_ends out.
Proof.
  intros H. apply Forall_forall. intros p Hp. apply (in_map snd) in Hp. rewrite H in Hp. apply repeat_spec in Hp. exact Hp.
Qed.
Lemma ends inflate bopt file schema r x w l out : reading inflate bopt file schema r x w -> calls inflate r x (batchOf w) l = Ok out ->
  let given := if Cap (batchOf w) =? 0 then 0 else handed_out (RowSize bopt) (map NumberOfRows (fr_stripes r)) in
  (fr_rows r <= given + 1 -> fr_rows r <= Z.of_nat (nexts l) -> comes_to_the_end out) /\
  (given + 1 < fr_rows r -> never_ends out).
Proof.
  intros Hr Hc. pose proof (open_rows _ _ _ _ _ (rd_open _ _ _ _ _ _ _ Hr)) as Hnz. pose proof (rd_rows _ _ _ _ _ _ _ Hr) as (_ & _ & Hr0). revert Hr Hc.
  intros Hr Hc given. destruct (batches _ _ _ _ _ _ _ _ _ Hr Hc) as (Hne & _ & Ht). pose proof (rd_size _ _ _ _ _ _ _ Hr) as Hpos.
  set (sizes := if Cap (batchOf w) =? 0 then [] else all_batches (RowSize bopt) (map NumberOfRows (fr_stripes r))) in *.
  assert (Hs : sum sizes = given) by (unfold sizes, given; destruct (_ =? 0); [reflexivity|]; apply all_batches_sum; assumption).
  assert (Hp : Forall (fun k => 1 <= k) sizes) by (unfold sizes; destruct (_ =? 0); [constructor|]; apply all_batches_pos; assumption).
  apply (f_equal (map snd)) in Ht. rewrite told_snd in Ht. split.
  - intros HT Hn. assert (Hin : In true (map snd out)) by (rewrite Ht; apply reports_end; [lia|exact Hp|lia..]).
    apply in_map_iff in Hin. destruct Hin as ([v e] & E & Hin). cbn in E. subst e. exists v. exact Hin.
  - intros HT. apply (never_repeat _ (nexts l)). rewrite Ht. apply reports_never; [eapply Forall_impl; [|exact Hp]; cbn; intros; lia|lia|lia].
Qed.

(** ** Calls that go on for ever *)
Fixpoint go_on (inflate : list Z -> res (list Z)) (r : fileR colstats) (k : nat) (x : batchRd) (v : bvec) : res (batchRd * bvec) :=
  match k with
  | O => Ok (x, v)
  | S k' => let! (x', v', _) := batchNext inflate r x v in go_on inflate r k' x' v'
  end.
Lemma calls_stuck inflate r x v e : batchNext inflate r x v = Ok (x, v, e) -> forall n, calls inflate r x v (repeat CNext n) = Ok (repeat (v, e) n).
Proof. intros H n. induction n as [|n IH]; [reflexivity|]. cbn [repeat calls]. rewrite H. cbn [rbind]. rewrite IH. reflexivity. Qed.
Lemma calls_for_ever inflate r e x' v' k : batchNext inflate r x' v' = Ok (x', v', e) -> forall x v, go_on inflate r k x v = Ok (x', v') ->
  forall n, exists out, calls inflate r x v (repeat CNext n) = Ok out.
Proof.
  intros Hf. induction k as [|k IH]; intros x v H n; cbn [go_on] in H.
  - assert (x = x' /\ v = v') as [-> ->] by (split; congruence). eexists. apply calls_stuck. exact Hf.
  - apply rbind_inv in H. destruct H as ([[x1 v1] e1] & E & H). destruct n as [|n]; [exists []; reflexivity|]. cbn [repeat calls]. rewrite E. cbn [rbind].
    destruct (IH _ _ H n) as (out & ->). cbn [rbind]. eauto.
Qed.
