(** Whole integer streams. *)
From Verif.Model Require Import Codec IntRle.
From Verif.Spec Require Import Bits Session IntSpec.
From Verif.Proofs Require Import Base CodecP SessionP BitsP IntRunsP IntDeltaP IntPatchP.

(** ** The boolean conditions *)

Lemma denseb_iff x : is_u64 x -> (denseb x = true <-> dense x).
Proof.
  intros Hx. unfold denseb, dense. rewrite andb_true_iff, forallb_forall, Z.ltb_lt.
  split; intros [H0 H]; (split; [exact H0|]).
  - intros j Hj Hle. assert (Hj8 : j < 8).
    { destruct (Z.lt_ge_cases j 8) as [|Hge]; [assumption|exfalso].
      assert (256 ^ 8 <= 256 ^ j) by (apply Z.pow_le_mono_r; lia).
      change (256 ^ 8) with W64 in *. unfold is_u64 in Hx. lia. }
    assert (Hin : In j [0; 1; 2; 3; 4; 5; 6; 7]) by (cbn [In]; lia).
    specialize (H j Hin). apply orb_prop in H. destruct H as [H|H]; [apply Z.ltb_lt in H; lia|].
    apply negb_true_iff, Z.eqb_neq in H. exact H.
  - intros j Hj. assert (0 <= j) by (cbn [In] in Hj; lia).
    destruct (Z.ltb_spec x (256 ^ j)); [reflexivity|].
    apply negb_true_iff, Z.eqb_neq. apply H; assumption.
Qed.

Lemma existsb_nz l : existsb (fun v => negb (v =? 0)) l = true <-> ~ Forall (fun v => v = 0) l.
Proof.
  induction l as [|v t IH]; cbn [existsb].
  - split; [discriminate|]. intros H. exfalso. apply H. constructor.
  - rewrite orb_true_iff, negb_true_iff, Z.eqb_neq, IH. split.
    + intros [H|H] Hf; inversion Hf; subst; [congruence|auto].
    + intros H. destruct (Z.eq_dec v 0) as [->|]; [right|left; assumption].
      intros Hf. apply H. constructor; [reflexivity|exact Hf].
Qed.

Lemma aligned_cases m : is_u64 m ->
  (getAlignedWidth m = 0 <-> m = 0) /\ (getAlignedWidth m = 12 <-> twelve m = true) /\
  (12 < getAlignedWidth m <-> over8not12 m = true).
Proof.
  intros Hm. destruct (getBitsWidth_spec m Hm) as (H1 & H2 & H3 & H4).
  pose proof (getBitsWidth_le m 8 Hm ltac:(lia)) as H8.
  pose proof (getBitsWidth_le m 11 Hm ltac:(lia)) as H11.
  pose proof (getBitsWidth_le m 12 Hm ltac:(lia)) as H12.
  change (2 ^ 8) with 256 in H8. change (2 ^ 11) with 2048 in H11. change (2 ^ 12) with 4096 in H12.
  unfold is_u64 in Hm. unfold getAlignedWidth, twelve, over8not12, twelve.
  change (bits_loop 64 m 0) with (getBitsWidth m).
  set (n := getBitsWidth m) in *. clearbody n. clear H2 H3.
  repeat match goal with |- context [if ?c then _ else _] => destruct c eqn:? end; lia.
Qed.

Lemma maxWidth_cases ds : Forall is_u64 ds ->
  (maxWidth getAlignedWidth ds <> 0 <-> existsb (fun d => negb (d =? 0)) ds = true) /\
  (maxWidth getAlignedWidth ds <> 12 <-> negb (existsb twelve ds) || existsb over8not12 ds = true).
Proof.
  intros H. rewrite Forall_forall in H.
  assert (H0 : forall d, In d ds -> (getAlignedWidth d = 0 <-> d = 0) /\ (getAlignedWidth d = 12 <-> twelve d = true) /\
  (12 < getAlignedWidth d <-> over8not12 d = true)) by (intros d Hd; apply aligned_cases; auto).
  pose proof (maxWidth_in getAlignedWidth ds) as Hin.
  pose proof (maxWidth_ge getAlignedWidth ds) as Hge.
  pose proof (maxWidth_nonneg getAlignedWidth ds) as Hnn.
  split.
  - rewrite existsb_exists. split.
    + intros Hne. destruct Hin as [|(x & Hx & E)]; [congruence|]. exists x. split; [exact Hx|].
      apply negb_true_iff, Z.eqb_neq. intros ->. rewrite E in Hne. apply Hne. apply (H0 0 Hx). reflexivity.
    + intros (x & Hx & E) Hz. apply negb_true_iff, Z.eqb_neq in E. apply E. apply (H0 x Hx).
      specialize (Hge x Hx). destruct (getAlignedWidth_spec x (H x Hx)) as [Hs _].
      pose proof (getBitsWidth_spec x (H x Hx)). lia.
  - rewrite orb_true_iff, negb_true_iff. split.
    + intros Hne. destruct (existsb twelve ds) eqn:E; [right|left; reflexivity].
      apply existsb_exists in E. destruct E as (x & Hx & E). apply (H0 x Hx) in E.
      specialize (Hge x Hx). destruct Hin as [|(y & Hy & Ey)]; [lia|].
      apply existsb_exists. exists y. split; [exact Hy|]. apply (H0 y Hy). lia.
    + intros Hor E12. destruct Hin as [|(y & Hy & Ey)]; [lia|]. destruct Hor as [Hn|Hn].
      * rewrite E12 in Ey. symmetry in Ey. apply (H0 y Hy) in Ey.
        assert (existsb twelve ds = true) by (apply existsb_exists; eauto). congruence.
      * apply existsb_exists in Hn. destruct Hn as (x & Hx & E). apply (H0 x Hx) in E.
        specialize (Hge x Hx). lia.
Qed.

(** ** Repeats *)

Lemma leadingEq_spec v l : firstn (leadingEq v l) l = repeat v (leadingEq v l) /\
  (leadingEq v l <= length l)%nat.
Proof.
  induction l as [|x t [IH1 IH2]]; cbn [leadingEq]; [split; [reflexivity|cbn; lia]|].
  destruct (Z.eqb_spec x v) as [->|]; cbn [firstn repeat length].
  - split; [f_equal; exact IH1|lia].
  - split; [reflexivity|lia].
Qed.
Lemma repeats_split v t : let r := getRepeats (v :: t) in
  v :: t = repeat v r ++ skipn r (v :: t).
Proof.
  cbn [getRepeats]. destruct (leadingEq_spec v t) as [H _].
  cbn [repeat app skipn]. rewrite <- H, firstn_skipn. reflexivity.
Qed.

(** ** One round *)

Lemma direct_Runs signed values : Forall is_u64 values -> direct_ok values = true ->
  exists o, writeDirect values true = Ok o /\ bytes o /\ Runs (decode signed) o values.
Proof.
  intros Hu H. unfold direct_ok in H. apply andb_prop in H. destruct H as [Hl Hz].
  apply Z.leb_le in Hl. apply existsb_nz in Hz.
  destruct (writeDirect_spec signed values Hu) as (o & Ho & Hb & Hne & Hr); [|exact Hz|].
  { destruct values; [exfalso; apply Hz; constructor|]. unfold zlen in *. cbn [length] in *. lia. }
  exists o. split; [exact Ho|]. split; [exact Hb|]. apply Runs_closed; assumption.
Qed.

Lemma match_cons {A B} (l : list A) (x : B) (f : A -> B) v t : l = v :: t ->
  match l with [] => x | a :: _ => f a end = f v.
Proof. intros ->. reflexivity. Qed.

Lemma writeStep_spec signed toEnd values : values <> [] -> Forall is_u64 values ->
  step_ok signed toEnd values = true ->
  exists rest o done, writeStep signed toEnd values = Ok (rest, o) /\ bytes o /\
    values = done ++ rest /\ Runs (decode signed) o done /\
    (if (3 <=? getRepeats values)%nat then rest = skipn (getRepeats values) values
     else (toEnd = true -> rest = []) /\
          forall base ds, tryDelta signed values = Some (base, ds) ->
            (length values <= 2 + length ds)%nat -> rest = []).
Proof.
  intros Hne Hu Hok. destruct values as [|v0 t]; [congruence|].
  remember (v0 :: t) as values eqn:Evs. assert (Hv0 : is_u64 v0) by (rewrite Evs in Hu; inversion Hu; assumption).
  assert (Hhd : hd 0 values = v0) by (rewrite Evs; reflexivity).
  unfold step_ok in Hok. rewrite Hhd in Hok. cbv zeta in Hok.
  unfold writeStep. rewrite (match_cons _ _ _ _ _ Evs). cbv zeta.
  pose proof (repeats_split v0 t) as Hsp. cbv zeta in Hsp. rewrite <- Evs in Hsp.
  set (r := getRepeats values) in *.
  destruct (Nat.leb_spec 3 r) as [Hr3|Hr3].
  - destruct (Nat.leb_spec r 10) as [Hr10|Hr10].
    + exists (skipn r values). eexists. exists (repeat v0 r). split; [reflexivity|].
      apply denseb_iff in Hok; [|exact Hv0].
      destruct (shortRepeat_iff signed (Z.of_nat r) v0 ltac:(lia) Hv0) as [Hd _].
      specialize (Hd Hok). rewrite Nat2Z.id in Hd.
      split; [apply shortRepeat_bytes; exact Hv0|]. split; [exact Hsp|].
      split; [|reflexivity]. apply Runs_closed; [|exact Hd].
      unfold writeShortRepeat. destruct (sr_loop 8 v0 0). discriminate.
    + unfold fixed_ok in Hok. apply andb_prop in Hok. destruct Hok as [H1 H2].
      apply Z.ltb_lt in H1. apply Nat.leb_le in H2.
      destruct (putFirst_ok signed v0 Hv0 H1) as (first & Hf & Hfb & _).
      rewrite Hf. cbn [rbind]. rewrite Z.mod_small by lia.
      destruct (writeFixed_spec signed v0 first (Z.of_nat r) Hv0 Hf Hfb ltac:(lia))
        as (o & Ho & Hb & Hno & Hrun).
      rewrite Ho. cbn [rbind]. exists (skipn r values), o, (repeat v0 r).
      split; [reflexivity|]. split; [exact Hb|]. split; [exact Hsp|]. split; [|reflexivity].
      rewrite Nat2Z.id in Hrun. apply Runs_closed; assumption.
  - assert (Hdirect : forall o1 rest (d : list Z), Runs (decode signed) o1 d -> bytes o1 ->
      values = d ++ rest -> negb toEnd || negb (nonempty rest) || direct_ok rest = true ->
      exists rest' o done,
        match rest with
        | [] => Ok ([], o1)
        | _ :: _ => if toEnd then let! o' := writeDirect rest true in Ok ([], o1 ++ o')
                    else Ok (rest, o1)
        end = Ok (rest', o) /\ bytes o /\ values = done ++ rest' /\ Runs (decode signed) o done /\
        ((toEnd = true -> rest' = []) /\ (rest = [] -> rest' = []))).
    { intros o1 rest d Hd Hb Hval Hrest. destruct rest as [|x rest].
      - exists [], o1, d. repeat split; auto.
      - destruct toEnd.
        + cbn [negb orb nonempty] in Hrest.
          destruct (direct_Runs signed (x :: rest)) as (o' & Ho' & Hb' & Hr'); [|exact Hrest|].
          { rewrite Hval in Hu. apply Forall_app in Hu. apply Hu. }
          rewrite Ho'. cbn [rbind]. exists [], (o1 ++ o'), (d ++ x :: rest).
          split; [reflexivity|]. split; [apply bytes_app; split; assumption|].
          split; [rewrite app_nil_r; exact Hval|]. split; [|split; reflexivity].
          apply Runs_app; assumption.
        + exists (x :: rest), o1, d. repeat split; auto; discriminate. }
    destruct (tryDelta signed values) as [[base ds]|] eqn:Etd.
    + apply andb_prop in Hok. destruct Hok as [Hd Hrest].
      unfold delta_ok in Hd. apply andb_prop in Hd. destruct Hd as [Hd Hd5].
      apply andb_prop in Hd. destruct Hd as [Hd Hd4]. apply andb_prop in Hd. destruct Hd as [Hd Hd3].
      apply andb_prop in Hd. destruct Hd as [Hd1 Hd2].
      apply Z.ltb_lt in Hd1, Hd2. apply Z.leb_le in Hd3.
      destruct (tryDelta_spec signed values base ds Hu Etd)
        as (a & b & rest & Hval & Hbi & Hb0 & Hdu & Hdne & Hsec).
      assert (a = v0) by congruence. subst a.
      destruct (putFirst_ok signed v0 Hv0 Hd1) as (first & Hf & Hfb & _). rewrite Hf. cbn [rbind].
      assert (Hds1 : 1 <= zlen ds) by (destruct ds; [congruence|unfold zlen; cbn [length]; lia]).
      rewrite Z.mod_small by lia.
      destruct (maxWidth_cases ds Hdu) as [Hc0 Hc12].
      destruct (writeDelta_spec signed v0 first base ds Hv0 Hf Hfb Hbi Hd2 Hdu ltac:(lia))
        as (o & Ho & Hb & Hno & Hrun).
      { apply Hc0. exact Hd4. }
      { apply Hc12. exact Hd5. }
      rewrite Ho. cbn [rbind]. rewrite Hsec in Hrun.
      set (d := v0 :: b :: undelta signed base b ds) in *.
      assert (Hld : length d = Z.to_nat (2 + zlen ds)).
      { unfold d. cbn [length]. rewrite length_undelta. unfold zlen. lia. }
      assert (Hsk : skipn (Z.to_nat (2 + zlen ds)) values = rest).
      { rewrite <- Hld. rewrite Hval.
        change (v0 :: b :: undelta signed base b ds ++ rest) with (d ++ rest). apply skipn_app_exact. }
      rewrite Hsk. replace (Z.to_nat (2 + zlen ds)) with (2 + length ds)%nat in Hsk by (unfold zlen; lia).
      rewrite Hsk in Hrest.
      destruct (Hdirect o rest d) as (rest' & o' & done & D1 & D2 & D3 & D4 & D5 & D6);
        [apply Runs_closed; assumption|exact Hb|exact Hval|exact Hrest|].
      exists rest', o', done. split; [exact D1|]. split; [exact D2|]. split; [exact D3|].
      split; [exact D4|]. split; [exact D5|].
      intros base' ds' E Hl. injection E as <- <-. apply D6.
      rewrite <- Hsk. apply skipn_all2. exact Hl.
    + destruct signed.
      * destruct (tryPatch values) as [[p|]| |] eqn:Etp; try discriminate.
        -- unfold patch_ok in Hok.
           apply andb_prop in Hok. destruct Hok as [Hok H6]. apply andb_prop in Hok. destruct Hok as [Hok H5].
           apply andb_prop in Hok. destruct Hok as [Hok H4]. apply andb_prop in Hok. destruct Hok as [Hok H3].
           apply andb_prop in Hok. destruct Hok as [H1 H2].
           apply Nat.leb_le in H1. apply Z.leb_le in H2. apply Z.ltb_lt in H4, H5.
           cbn [rbind]. destruct (writePatch p) as [o| |] eqn:Ewp; try discriminate.
           assert (Hpgw : 1 <= maxWidth getBitsWidth (p_gaps p)).
           { apply existsb_exists in H3. destruct H3 as (g & Hg & Hg0).
             apply negb_true_iff, Z.eqb_neq in Hg0.
             destruct (tryPatch_spec values p Hu Etp) as (ds & _ & Hdu & _ & Hspl & _ & _ & _).
             destruct (Z.lt_ge_cases (p_width p) 63) as [Hw|Hw].
             - destruct (split_spec (p_width p) ltac:(lia) ds 0 0 _ _ _ Hdu Hspl ltac:(lia)) as (_ & Hgs & _).
               rewrite Forall_forall in Hgs. specialize (Hgs g Hg).
               assert (Hgu : is_u64 g) by (unfold is_u64; lia).
               pose proof (maxWidth_ge getBitsWidth _ g Hg).
               destruct (getBitsWidth_spec g Hgu) as (Hb1 & _ & _ & Hb4).
               destruct (Z.eq_dec (getBitsWidth g) 0) as [E|]; [apply Hb4 in E; congruence|lia].
             - exfalso. unfold writePatch in Ewp. apply rbind_inv in Ewp. destruct Ewp as (ew & Hew & _).
               destruct (tryPatch_spec values p Hu Etp) as (ds' & _ & Hdu' & _ & _ & _ & Hgt & _).
               pose proof (maxWidth_64 ds' Hdu'). replace (p_width p) with 63 in Hew by lia. discriminate. }
           destruct (writePatch_spec values p o Hu H1 Etp Ewp H2 Hpgw H4 H5)
             as (Hpl & Hb & Hno & Hrun).
           cbn [rbind]. rewrite Hpl, skipn_all. exists [], o, values.
           split; [reflexivity|]. split; [exact Hb|]. split; [rewrite app_nil_r; reflexivity|].
           split; [|split; [reflexivity|discriminate]]. apply Runs_closed; assumption.
        -- cbn [rbind].
           destruct (Hdirect [] values []) as (rest' & o' & done & D1 & D2 & D3 & D4 & D5 & D6);
             [constructor|constructor|reflexivity| |
              exists rest', o', done; repeat (split; [assumption|]); discriminate].
           destruct toEnd; [|reflexivity]. cbn [negb orb] in *. rewrite Hok. apply orb_true_r.
      * cbn [rbind].
        destruct (Hdirect [] values []) as (rest' & o' & done & D1 & D2 & D3 & D4 & D5 & D6);
          [constructor|constructor|reflexivity| |
           exists rest', o', done; repeat (split; [assumption|]); discriminate].
        destruct toEnd; [|reflexivity]. cbn [negb orb] in *. rewrite Hok. apply orb_true_r.
Qed.

Lemma writeToEnd_spec signed fuel : forall values, Forall is_u64 values ->
  end_ok fuel signed values = true ->
  exists o, writeToEnd fuel signed values = Ok o /\ bytes o /\ Runs (decode signed) o values.
Proof.
  induction fuel as [|f IH]; intros values Hu Hok.
  - destruct values; [|discriminate]. exists []. repeat split; constructor.
  - destruct values as [|v t]; [exists []; repeat split; constructor|].
    cbn [end_ok] in Hok. apply andb_prop in Hok. destruct Hok as [Hs Hr].
    destruct (writeStep_spec signed true (v :: t) ltac:(discriminate) Hu Hs)
      as (rest & o & done & Hw & Hb & Hval & Hrun & Hrest).
    cbn [writeToEnd]. rewrite Hw. cbn [rbind].
    assert (Hru : Forall is_u64 rest) by (rewrite Hval in Hu; apply Forall_app in Hu; apply Hu).
    destruct (IH rest Hru) as (o' & Ho' & Hb' & Hrun').
    { destruct (3 <=? getRepeats (v :: t))%nat; [rewrite Hrest; exact Hr|].
      rewrite (proj1 Hrest eq_refl). destruct f; reflexivity. }
    rewrite Ho'. cbn [rbind]. exists (o ++ o'). split; [reflexivity|].
    split; [apply bytes_app; split; assumption|]. rewrite Hval. apply Runs_app; assumption.
Qed.

Lemma write_spec signed toEnd values : values <> [] -> Forall is_u64 values ->
  write_ok signed toEnd values = true ->
  exists rest o done, write signed toEnd values = Ok (rest, o) /\ bytes o /\
    values = done ++ rest /\ Runs (decode signed) o done /\ (toEnd = true -> rest = []).
Proof.
  intros Hne Hu Hok. unfold write_ok in Hok. unfold write.
  destruct (length values <=? 3)%nat.
  - destruct (direct_Runs signed values Hu Hok) as (o & Ho & Hb & Hr). rewrite Ho. cbn [rbind].
    exists [], o, values. rewrite app_nil_r. auto.
  - destruct toEnd.
    + destruct (writeToEnd_spec signed _ values Hu Hok) as (o & Ho & Hb & Hr). rewrite Ho. cbn [rbind].
      exists [], o, values. rewrite app_nil_r. auto.
    + destruct (writeStep_spec signed false values Hne Hu Hok) as (rest & o & done & Hw & Hb & Hv & Hr & _).
      exists rest, o, done. repeat split; auto. discriminate.
Qed.

(** ** Whole streams *)

Definition rawv (signed : bool) (v : Z) : Z := if signed then Zigzag v else v.
Lemma rawv_u64 signed v : is_int signed v -> is_u64 (rawv signed v).
Proof. destruct signed; cbn; [apply Zigzag_range|auto]. Qed.

Lemma encode_spec e v : is_int (i_signed e) v -> Forall is_u64 (i_values e) ->
  let buf := i_values e ++ [rawv (i_signed e) v] in
  (zlen buf <? 512) || write_ok (i_signed e) false buf = true ->
  exists e1 o1 done, int_Encode e v = Ok (e1, o1) /\ bytes o1 /\
    i_signed e1 = i_signed e /\ buf = done ++ i_values e1 /\ Forall is_u64 (i_values e1) /\
    Runs (decode (i_signed e)) o1 done.
Proof.
  intros Hv Hu buf Hw.
  assert (Hbu : Forall is_u64 buf).
  { apply Forall_app. split; [exact Hu|]. constructor; [|constructor]. apply rawv_u64. exact Hv. }
  unfold int_Encode. fold (rawv (i_signed e) v). fold buf. cbv zeta. unfold MaxIntRunLength.
  destruct (Z.leb_spec 512 (zlen buf)) as [Hl|Hl].
  - destruct (Z.ltb_spec (zlen buf) 512); [lia|]. cbn [orb] in Hw.
    destruct (write_spec (i_signed e) false buf) as (rest & o & done & Hwr & Hb & Hval & Hrun & _);
      [intros E; apply app_eq_nil in E; destruct E; discriminate|exact Hbu|exact Hw|].
    rewrite Hwr. cbn [rbind]. eexists. exists o, done. split; [reflexivity|]. cbn [i_signed i_values].
    split; [exact Hb|]. split; [reflexivity|]. split; [exact Hval|]. split; [|exact Hrun].
    rewrite Hval in Hbu. apply Forall_app in Hbu. apply Hbu.
  - cbn [rbind]. eexists. exists [], []. split; [reflexivity|]. cbn [i_signed i_values app].
    repeat split; auto; constructor.
Qed.

(** The pending values and the rest of the stream, as raw 64 bit values. *)
Lemma stream_spec vs : forall e, Forall (is_int (i_signed e)) vs -> Forall is_u64 (i_values e) ->
  stream_ok e vs = true ->
  exists e' o, segment int_Encode int_Flush e vs = Ok (e', o) /\ bytes o /\
    i_values e' = [] /\ i_signed e' = i_signed e /\
    Runs (decode (i_signed e)) o (i_values e ++ map (rawv (i_signed e)) vs).
Proof.
  induction vs as [|v t IH]; intros e Hvs Hu Hok; cbn [stream_ok] in Hok.
  - unfold segment. cbn [feed rbind map]. rewrite app_nil_r. unfold int_Flush.
    destruct (i_values e) as [|x l] eqn:Ev.
    + cbn [rbind]. exists e, []. repeat split; auto; constructor.
    + cbn [nonempty negb orb] in Hok.
      destruct (write_spec (i_signed e) true (x :: l) ltac:(discriminate) Hu Hok)
        as (rest & o & done & Hw & Hb & Hval & Hrun & Hrest).
      rewrite (Hrest eq_refl) in *. rewrite app_nil_r in Hval. subst done.
      rewrite Hw. cbn [rbind]. eexists. exists o. split; [reflexivity|]. auto.
  - inversion Hvs as [|? ? Hv Ht]; subst. apply andb_prop in Hok. destruct Hok as [Hw Hok].
    fold (rawv (i_signed e) v) in Hw.
    destruct (encode_spec e v Hv Hu Hw) as (e1 & o1 & done & He & Hb1 & Hs1 & Hval & Hu1 & Hrun).
    rewrite He in Hok.
    destruct (IH e1) as (e' & o & Hseg & Hb & Hv' & Hs & Hr);
      [rewrite Hs1; exact Ht|exact Hu1|exact Hok|].
    unfold segment in *. cbn [feed]. rewrite He. cbn [rbind].
    apply rbind_inv in Hseg. destruct Hseg as ([e2 o2] & Hf & Hseg). rewrite Hf. cbn [rbind].
    apply rbind_inv in Hseg. destruct Hseg as ([e3 o3] & Hfl & Hseg). rewrite Hfl. cbn [rbind].
    injection Hseg as <- <-. exists e3, ((o1 ++ o2) ++ o3). split; [reflexivity|].
    rewrite <- app_assoc. split; [apply bytes_app; split; assumption|].
    split; [exact Hv'|]. split; [congruence|]. rewrite Hs1 in Hr.
    replace (i_values e ++ map (rawv (i_signed e)) (v :: t))
      with ((i_values e ++ [rawv (i_signed e) v]) ++ map (rawv (i_signed e)) t)
      by (rewrite <- app_assoc; reflexivity).
    rewrite Hval, <- app_assoc. apply Runs_app; assumption.
Qed.

Lemma Runs_for signed o vs : Forall (is_int signed) vs -> 
  Runs (decode signed) o (map (rawv signed) vs) -> Runs (DecodeFor signed) o vs.
Proof.
  intros Hvs H. destruct signed; cbn [DecodeFor].
  - apply (Runs_map _ (map UnZigzag)) in H; [|apply map_app].
    rewrite map_map in H. unfold DecodeInt.
    replace vs with (map (fun x => UnZigzag (rawv true x)) vs); [exact H|].
    rewrite <- (map_id vs) at 2. apply map_ext_in. intros v Hv. rewrite Forall_forall in Hvs.
    cbn [rawv]. apply UnZigzag_Zigzag. apply (Hvs v Hv).
  - unfold DecodeUInt. unfold rawv in H. rewrite map_id in H. exact H.
Qed.

(** Any stream every step of which is safe is read back exactly. *)
Lemma int_lossless signed p vs : Forall (is_int signed) vs ->
  stream_ok (NewIntRLV2 signed p) vs = true ->
  exists e o, segment int_Encode int_Flush (NewIntRLV2 signed p) vs = Ok (e, o) /\ bytes o /\
    decode_all (DecodeFor signed) o = Ok vs.
Proof.
  intros Hvs Hok. destruct (stream_spec vs (NewIntRLV2 signed p) Hvs (Forall_nil _) Hok) as (e & o & Hs & Hb & _ & _ & Hr).
  exists e, o. split; [exact Hs|]. split; [exact Hb|]. apply decode_all_Runs, Runs_for; assumption.
Qed.

(** ** Several streams with one encoder *)
Lemma stream_ok_position vs : forall a b, i_values a = i_values b -> i_signed a = i_signed b ->
  stream_ok a vs = stream_ok b vs.
Proof.
  induction vs as [|v t IH]; intros a b Hv Hs; cbn [stream_ok]; rewrite Hv, Hs; [reflexivity|].
  f_equal. unfold int_Encode. rewrite Hv, Hs.
  destruct (if MaxIntRunLength <=? _ then _ else _) as [[vs' o]| |]; cbn [rbind]; try reflexivity.
  apply IH; reflexivity.
Qed.

Lemma int_lossless_all signed p vss : Forall (Forall (is_int signed)) vss ->
  Forall (fun vs => stream_ok (NewIntRLV2 signed p) vs = true) vss ->
  exists os, segments int_Encode int_Flush (NewIntRLV2 signed p) vss = Ok os /\
    Forall2 (fun o vs => decode_all (DecodeFor signed) o = Ok vs) os vss.
Proof.
  intros Hvss Hok.
  assert (G : forall e, i_values e = [] -> i_signed e = signed ->
    exists os, segments int_Encode int_Flush e vss = Ok os /\
      Forall2 (fun o vs => decode_all (DecodeFor signed) o = Ok vs) os vss).
  { induction vss as [|vs t IH]; intros e He Hs.
    - exists []. split; [reflexivity|constructor].
    - inversion Hvss as [|? ? H1 H2]; subst. inversion Hok as [|? ? H3 H4]; subst.
      rewrite (stream_ok_position vs (NewIntRLV2 (i_signed e) p) e) in H3 by (cbn; auto).
      destruct (stream_spec vs e H1) as (e' & o & Hseg & _ & Hv' & Hs' & Hr);
        [rewrite He; constructor|exact H3|].
      rewrite He in Hr. cbn [app] in Hr.
      destruct (IH H2 H4 e' Hv' Hs') as (os & Hos & Hf).
      cbn [segments]. rewrite Hseg. cbn [rbind]. rewrite Hos. cbn [rbind].
      exists (o :: os). split; [reflexivity|]. constructor; [|exact Hf].
      apply decode_all_Runs, Runs_for; assumption. }
  apply G; reflexivity.
Qed.

(** ** Recorded positions *)
Lemma stream_ok_app pre : forall e post,
  Forall (is_int (i_signed e)) pre -> Forall is_u64 (i_values e) ->
  stream_ok e (pre ++ post) = true ->
  exists e1 o1, feed int_Encode e pre = Ok (e1, o1) /\ stream_ok e1 post = true /\
    i_signed e1 = i_signed e /\ Forall is_u64 (i_values e1) /\
    (i_position e = zlen (i_values e) -> i_position e1 = zlen (i_values e1)) /\
    zlen (i_values e1) <= zlen (i_values e) + zlen pre.
Proof.
  induction pre as [|v t IH]; intros e post Hi Hu H.
  - exists e, []. unfold zlen. cbn [length]. repeat (split; [auto|]). lia.
  - inversion Hi as [|? ? Hv Ht]; subst.
    cbn [app stream_ok] in H. apply andb_prop in H. destruct H as [Hw H].
    fold (rawv (i_signed e) v) in Hw.
    destruct (encode_spec e v Hv Hu Hw) as (e1 & o1 & done & He & _ & Hs1 & Hbuf & Hu1 & _).
    rewrite He in H. apply IH in H; [|rewrite Hs1; exact Ht|exact Hu1].
    destruct H as (e2 & o2 & Hf & H & Hs & Hu2 & Hp & Hle). cbn [feed]. rewrite He. cbn [rbind]. rewrite Hf. cbn [rbind].
    exists e2. eexists. split; [reflexivity|]. split; [exact H|]. split; [congruence|]. split; [exact Hu2|].
    split; [|apply (f_equal (@length Z)) in Hbuf; rewrite !app_length in Hbuf; unfold zlen in *;
             cbn [length] in *; lia].
    intros Hpos. apply Hp. unfold int_Encode in He. apply rbind_inv in He.
    destruct He as ([vs' o'] & _ & He). injection He as <- _. cbn [i_position i_values].
    destruct (Z.eqb_spec (i_position e) (-1)) as [E|]; [|reflexivity].
    pose proof (zlen_nonneg (i_values e)). lia.
Qed.

Lemma int_position signed pre post : Forall (is_int signed) (pre ++ post) ->
  zlen (pre ++ post) < W64 ->
  stream_ok (NewIntRLV2 signed true) (pre ++ post) = true ->
  exists e1 o1 e2 o2 pos ws,
    feed int_Encode (NewIntRLV2 signed true) pre = Ok (e1, o1) /\
    segment int_Encode int_Flush e1 post = Ok (e2, o2) /\
    segment int_Encode int_Flush (NewIntRLV2 signed true) (pre ++ post) = Ok (e2, o1 ++ o2) /\
    int_GetPosition e1 = [pos] /\ 0 <= pos <= zlen pre /\
    decode_all (DecodeFor signed) o2 = Ok ws /\ pos <= zlen ws /\ zdrop pos ws = post.
Proof.
  intros Hi Hlen Hok. pose proof Hi as Hi'. apply Forall_app in Hi'. destruct Hi' as [Hpre Hpost].
  destruct (stream_ok_app pre (NewIntRLV2 signed true) post Hpre (Forall_nil _) Hok)
    as (e1 & o1 & Hf & Hok1 & Hs1 & Hu1 & Hp1 & Hle).
  cbn [NewIntRLV2 i_signed] in Hs1. rewrite <- Hs1 in Hpost.
  destruct (stream_spec post e1 Hpost Hu1 Hok1) as (e2 & o2 & Hseg & _ & _ & _ & Hr).
  specialize (Hp1 eq_refl). rewrite Hs1 in *.
  assert (Hlt : 0 <= zlen (i_values e1) <= zlen pre) by (pose proof (zlen_nonneg (i_values e1)); cbn in Hle; lia).
  assert (Hpl : zlen pre <= zlen (pre ++ post)) by (unfold zlen; rewrite app_length; lia).
  exists e1, o1, e2, o2, (zlen (i_values e1)).
  exists ((if signed then map UnZigzag (i_values e1) else i_values e1) ++ post).
  split; [exact Hf|]. split; [exact Hseg|]. split.
  { unfold segment in *. rewrite feed_app, Hf. cbn [rbind].
    apply rbind_inv in Hseg. destruct Hseg as ([ea oa] & Ha & Hseg). rewrite Ha. cbn [rbind].
    apply rbind_inv in Hseg. destruct Hseg as ([eb ob] & Hb & Hseg). rewrite Hb. cbn [rbind].
    injection Hseg as <- <-. rewrite app_assoc. reflexivity. }
  split; [unfold int_GetPosition; rewrite Hp1, u64_id by (unfold is_u64; lia); reflexivity|].
  split; [exact Hlt|]. split.
  - apply decode_all_Runs. apply Runs_for.
    + apply Forall_app. split; [|exact Hpost]. destruct signed; [|exact Hu1].
      apply Forall_map. eapply Forall_impl; [|exact Hu1]. intros a Ha. apply UnZigzag_range. exact Ha.
    + rewrite map_app. destruct signed; [|cbn; unfold rawv in *; rewrite !map_id in *; exact Hr].
      rewrite map_map. replace (map (fun x => rawv true (UnZigzag x)) (i_values e1)) with (i_values e1); [exact Hr|].
      rewrite <- (map_id (i_values e1)) at 1. apply map_ext_in. intros a Ha. symmetry. cbn [rawv].
      rewrite Forall_forall in Hu1. apply Zigzag_UnZigzag. apply Hu1. exact Ha.
  - assert (length (if signed then map UnZigzag (i_values e1) else i_values e1) = length (i_values e1))
      by (destruct signed; [apply map_length|reflexivity]).
    split; [unfold zlen; rewrite app_length; lia|]. unfold zdrop, zlen. rewrite Nat2Z.id.
    replace (length (i_values e1)) with (length (if signed then map UnZigzag (i_values e1) else i_values e1))
      by (destruct signed; [apply map_length|reflexivity]).
    apply skipn_app_exact.
Qed.
