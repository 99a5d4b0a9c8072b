(** Delta runs of Model/IntRle.v. *)
From Verif.Model Require Import Codec IntRle.
From Verif.Spec Require Import Bits Session IntSpec.
From Verif.Proofs Require Import Base CodecP SessionP BitsP IntRunsP.

(** ** The first value *)

Lemma putFirst_ok signed v : is_u64 v -> v < 2 ^ 56 ->
  exists o, putFirst signed v = Ok o /\ bytes o /\ o <> [].
Proof.
  intros Hv Hlt. unfold putFirst. destruct signed.
  - pose proof (UnZigzag_range v Hv) as Hr.
    destruct (PutVarint_room 8 (UnZigzag v) Hr) as [_ H]. rewrite Zigzag_UnZigzag in H by exact Hv.
    destruct H as (o & Ho); [split; [lia|exact Hlt]|]. exists o. split; [exact Ho|].
    rewrite PutVarint_Zigzag, Zigzag_UnZigzag in Ho by assumption.
    split; [eapply PutUvarint_bytes; [|exact Ho]; apply Hv|].
    apply PutUvarint_length in Ho; [|apply Hv]. intros ->. cbn in Ho. lia.
  - destruct (PutUvarint_room 8 v ltac:(apply Hv)) as [_ H].
    destruct H as (o & Ho); [split; [lia|exact Hlt]|]. exists o. split; [exact Ho|].
    split; [eapply PutUvarint_bytes; [|exact Ho]; apply Hv|].
    apply PutUvarint_length in Ho; [|apply Hv]. intros ->. cbn in Ho. lia.
Qed.

Lemma putFirst_panics signed v : is_u64 v -> 2 ^ 56 <= v -> putFirst signed v = Panic.
Proof.
  intros Hv Hge. unfold putFirst.
  assert (H : forall x, putFirst signed v = x ->
    (if signed then PutVarint 8 (UnZigzag v) else PutUvarint 8 v) = PutUvarint 8 v).
  { intros _ _. destruct signed; [|reflexivity].
    rewrite PutVarint_Zigzag by (apply UnZigzag_range; exact Hv).
    rewrite Zigzag_UnZigzag by exact Hv. reflexivity. }
  rewrite (H _ eq_refl). destruct (PutUvarint 8 v) as [o| |] eqn:E; [|exfalso|reflexivity].
  - exfalso. destruct (PutUvarint_room 8 v ltac:(apply Hv)) as [Hr _].
    destruct Hr as [_ Hr]; [eauto|]. change (7 * Z.of_nat 8) with 56 in Hr. lia.
  - exact (PutUvarint_not_err 8 v E).
Qed.

Definition readFirst (signed : bool) : prog (Z * Z) :=
  if signed then do! b := ReadVarint in Ret (Zigzag b, b)
  else do! u := ReadUvarint in Ret (u, 0).

Lemma readFirst_put signed v o t : is_u64 v -> putFirst signed v = Ok o ->
  run (readFirst signed) (o ++ t) = Ok ((v, if signed then UnZigzag v else 0), t).
Proof.
  intros Hv H. unfold putFirst, readFirst in *. destruct signed; rewrite run_bind.
  - rewrite (ReadVarint_Put _ _ _ _ (UnZigzag_range v Hv) H). cbn [rbind]. rewrite run_ret.
    rewrite Zigzag_UnZigzag by exact Hv. reflexivity.
  - rewrite (ReadUvarint_Put _ _ _ _ Hv H). reflexivity.
Qed.

(** ** Packing the deltas *)

Lemma pack4_byte a b : 0 <= a < 16 -> 0 <= b < 16 ->
  Z.lor (u8 (Z.shiftl (Z.land a 15) 4)) (Z.land b 15) = a * 2 ^ 4 + b.
Proof.
  intros Ha Hb. change 15 with (2 ^ 4 - 1). rewrite !land_ones_mod by lia.
  change (2 ^ 4) with 16. rewrite !Z.mod_small by lia. rewrite shiftl_mul by lia.
  change (2 ^ 4) with 16. rewrite u8_id by (unfold is_u8; lia). change 16 with (2 ^ 4).
  apply lor_add; cbn; lia.
Qed.

Lemma pack2_byte a b c d : 0 <= a < 4 -> 0 <= b < 4 -> 0 <= c < 4 -> 0 <= d < 4 ->
  Z.lor (Z.lor (Z.lor (u8 (Z.shiftl (Z.land a 3) 6)) (u8 (Z.shiftl (Z.land b 3) 4)))
               (u8 (Z.shiftl (Z.land c 3) 2))) (u8 (Z.shiftl (Z.land d 3) 0))
  = a * 64 + b * 16 + c * 4 + d.
Proof.
  intros Ha Hb Hc Hd. apply Z.eqb_eq.
  pose (f := fun x => let a := x / 64 in let b := (x / 16) mod 4 in let c := (x / 4) mod 4 in
     let d := x mod 4 in
     Z.lor (Z.lor (Z.lor (u8 (Z.shiftl (Z.land a 3) 6)) (u8 (Z.shiftl (Z.land b 3) 4)))
               (u8 (Z.shiftl (Z.land c 3) 2))) (u8 (Z.shiftl (Z.land d 3) 0))
     =? a * 64 + b * 16 + c * 4 + d).
  assert (H : f (a * 64 + b * 16 + c * 4 + d) = true).
  { apply (sweep 256 f); [vm_compute; reflexivity|lia]. }
  unfold f in H. cbv zeta in H.
  replace ((a * 64 + b * 16 + c * 4 + d) / 64) with a in H by zlia.
  replace ((a * 64 + b * 16 + c * 4 + d) / 16 mod 4) with b in H by zlia.
  replace ((a * 64 + b * 16 + c * 4 + d) / 4 mod 4) with c in H by zlia.
  replace ((a * 64 + b * 16 + c * 4 + d) mod 4) with d in H by zlia.
  exact H.
Qed.

Lemma bits_4_4 a b : 0 <= b < 16 -> bitsN 8 (a * 2 ^ 4 + b) = bitsN 4 a ++ bitsN 4 b.
Proof. intros H. apply (bitsN_cat 4 4). exact H. Qed.

Lemma pack4_spec ds : forall (n : nat), (length ds <= n)%nat -> Forall (fun v => 0 <= v < 2 ^ 4) ds ->
  exists pad, bytes (pack4 ds) /\ (length pad < 8)%nat /\
    bitsOfBytes (pack4 ds) = packedBits 4 ds ++ pad.
Proof.
  intros n. revert ds. induction n as [|n IH]; intros ds Hn Hds.
  - destruct ds; [|cbn in Hn; lia]. exists []. repeat split; [constructor|cbn; lia].
  - destruct ds as [|a [|b t]].
    + exists []. repeat split; [constructor|cbn; lia].
    + inversion Hds; subst. exists (bitsN 4 0). cbn [pack4].
      assert (E : u8 (Z.shiftl (Z.land a 15) 4) = a * 2 ^ 4 + 0).
      { rewrite <- (pack4_byte a 0) by lia. rewrite Z.lor_0_r. reflexivity. }
      rewrite E. split; [repeat constructor; cbn in *; lia|]. split; [cbn; lia|].
      rewrite bitsOfBytes_cons, bits_4_4 by lia. unfold packedBits. cbn [flat_map].
      rewrite !app_nil_r. reflexivity.
    + inversion Hds as [|? ? Ha Hds1]; subst. inversion Hds1 as [|? ? Hb Ht]; subst.
      change (2 ^ 4) with 16 in *.
      destruct (IH t) as (pad & Hby & Hp & Hbits); [cbn [length] in Hn; lia|exact Ht|].
      exists pad. cbn [pack4]. rewrite pack4_byte by lia. split.
      { constructor; [unfold is_u8; change (2 ^ 4) with 16; lia|exact Hby]. }
      split; [exact Hp|].
      rewrite bitsOfBytes_cons, bits_4_4, Hbits by lia. unfold packedBits. cbn [flat_map].
      change (Z.to_nat 4) with 4%nat. rewrite <- !app_assoc. reflexivity.
Qed.

Lemma bits_2222 a b c d : 0 <= b < 4 -> 0 <= c < 4 -> 0 <= d < 4 ->
  bitsN 8 (a * 64 + b * 16 + c * 4 + d) = bitsN 2 a ++ bitsN 2 b ++ bitsN 2 c ++ bitsN 2 d.
Proof.
  intros Hb Hc Hd.
  replace (a * 64 + b * 16 + c * 4 + d) with (((a * 2 ^ Z.of_nat 2 + b) * 2 ^ Z.of_nat 2 + c) * 2 ^ Z.of_nat 2 + d)
    by (change (2 ^ Z.of_nat 2) with 4; lia).
  change 8%nat with (2 + 2 + 2 + 2)%nat. rewrite !bitsN_cat by (cbn; lia).
  rewrite <- !app_assoc. reflexivity.
Qed.

Lemma pack2_spec ds : forall (n : nat), (length ds <= n)%nat -> Forall (fun v => 0 <= v < 2 ^ 2) ds ->
  exists pad, bytes (pack2 ds) /\ (length pad < 8)%nat /\
    bitsOfBytes (pack2 ds) = packedBits 2 ds ++ pad.
Proof.
  intros n. revert ds. induction n as [|n IH]; intros ds Hn Hds.
  - destruct ds; [|cbn in Hn; lia]. exists []. repeat split; [constructor|cbn; lia].
  - change (2 ^ 2) with 4 in *.
    destruct ds as [|a [|b [|c [|d t]]]].
    + exists []. repeat split; [constructor|cbn; lia].
    + inversion Hds; subst. exists (bitsN 6 0).
      assert (E : pack2 [a] = [a * 64 + 0 * 16 + 0 * 4 + 0]).
      { rewrite <- (pack2_byte a 0 0 0) by lia. cbn [pack2]. change (u8 (Z.shiftl (Z.land 0 3) 4)) with 0.
        change (u8 (Z.shiftl (Z.land 0 3) 2)) with 0. change (u8 (Z.shiftl (Z.land 0 3) 0)) with 0.
        rewrite !Z.lor_0_r. reflexivity. }
      rewrite E. split; [repeat constructor; lia|]. split; [cbn; lia|].
      rewrite bitsOfBytes_cons, bits_2222 by lia. unfold packedBits. cbn [flat_map].
      rewrite !app_nil_r. reflexivity.
    + inversion Hds as [|? ? Ha H1]; subst. inversion H1; subst. exists (bitsN 4 0).
      assert (E : pack2 [a; b] = [a * 64 + b * 16 + 0 * 4 + 0]).
      { rewrite <- (pack2_byte a b 0 0) by lia. cbn [pack2].
        change (u8 (Z.shiftl (Z.land 0 3) 2)) with 0. change (u8 (Z.shiftl (Z.land 0 3) 0)) with 0.
        rewrite !Z.lor_0_r. reflexivity. }
      rewrite E. split; [repeat constructor; lia|]. split; [cbn; lia|].
      rewrite bitsOfBytes_cons, bits_2222 by lia. unfold packedBits. cbn [flat_map].
      rewrite !app_nil_r, <- app_assoc. reflexivity.
    + inversion Hds as [|? ? Ha H1]; subst. inversion H1 as [|? ? Hb H2]; subst.
      inversion H2; subst. exists (bitsN 2 0).
      assert (E : pack2 [a; b; c] = [a * 64 + b * 16 + c * 4 + 0]).
      { rewrite <- (pack2_byte a b c 0) by lia. cbn [pack2].
        change (u8 (Z.shiftl (Z.land 0 3) 0)) with 0. rewrite !Z.lor_0_r. reflexivity. }
      rewrite E. split; [repeat constructor; lia|]. split; [cbn; lia|].
      rewrite bitsOfBytes_cons, bits_2222 by lia. unfold packedBits. cbn [flat_map].
      rewrite !app_nil_r, <- !app_assoc. reflexivity.
    + inversion Hds as [|? ? Ha H1]; subst. inversion H1 as [|? ? Hb H2]; subst.
      inversion H2 as [|? ? Hc H3]; subst. inversion H3 as [|? ? Hd Ht]; subst.
      destruct (IH t) as (pad & Hby & Hp & Hbits); [cbn [length] in Hn; lia|exact Ht|].
      exists pad. cbn [pack2]. rewrite pack2_byte by lia. split.
      { constructor; [unfold is_u8; lia|exact Hby]. }
      split; [exact Hp|].
      rewrite bitsOfBytes_cons, bits_2222, Hbits by lia. unfold packedBits. cbn [flat_map].
      change (Z.to_nat 2) with 2%nat. rewrite <- !app_assoc. reflexivity.
Qed.

Lemma flat_be_spec n ds :
  bytes (flat_map (be_bytes n) ds) /\
  bitsOfBytes (flat_map (be_bytes n) ds) = packedBits (8 * Z.of_nat n) ds.
Proof.
  induction ds as [|d t [IHb IH]]; [split; [constructor|reflexivity]|].
  cbn [flat_map]. split; [apply bytes_app; split; [apply bytes_be|exact IHb]|].
  rewrite bitsOfBytes_app, IH, bits_be. unfold packedBits. cbn [flat_map].
  replace (Z.to_nat (8 * Z.of_nat n)) with (8 * n)%nat by lia. reflexivity.
Qed.

(** The widths the delta packer handles. *)
Definition deltaWidth (w : Z) : bool :=
  existsb (Z.eqb w) [2; 4; 8; 16; 24; 32; 40; 48; 56; 64].

Lemma packDeltas_spec w ds : deltaWidth w = true -> ds <> [] ->
  Forall (fun v => 0 <= v < 2 ^ w) ds ->
  exists o pad, packDeltas w ds = Ok o /\ bytes o /\ (length pad < 8)%nat /\
    bitsOfBytes o = packedBits w ds ++ pad.
Proof.
  intros Hw Hne Hds. unfold packDeltas. destruct ds as [|d0 t0]; [congruence|].
  set (ds := d0 :: t0) in *. unfold deltaWidth in Hw. cbn [existsb] in Hw.
  apply orb_prop in Hw. destruct Hw as [Hw|Hw].
  { apply Z.eqb_eq in Hw. subst w. cbn [Z.eqb Pos.eqb].
    destruct (pack2_spec ds (length ds) ltac:(lia) Hds) as (pad & H). exists (pack2 ds), pad. auto. }
  apply orb_prop in Hw. destruct Hw as [Hw|Hw].
  { apply Z.eqb_eq in Hw. subst w. cbn [Z.eqb Pos.eqb].
    destruct (pack4_spec ds (length ds) ltac:(lia) Hds) as (pad & H). exists (pack4 ds), pad. auto. }
  repeat (apply orb_prop in Hw; destruct Hw as [Hw|Hw];
    [apply Z.eqb_eq in Hw; subst w; cbn [Z.eqb Pos.eqb orb];
     match goal with |- context [Z.to_nat (?x / 8)] =>
       let k := eval vm_compute in (Z.to_nat (x / 8)) in
       change (Z.to_nat (x / 8)) with k;
       destruct (flat_be_spec k ds) as [Hb Hbits]; exists (flat_map (be_bytes k) ds), [];
       rewrite app_nil_r; split; [reflexivity|]; split; [exact Hb|]; split; [cbn; lia|]; exact Hbits
     end|]).
  discriminate.
Qed.

(** ** Reading the deltas *)

(** The values denoted by a sequence of deltas. *)
Fixpoint undelta (signed : bool) (base prev : Z) (ds : list Z) : list Z :=
  match ds with
  | [] => []
  | d :: t => let v := addDelta signed base prev d in v :: undelta signed base v t
  end.
Lemma length_undelta signed base ds : forall prev, length (undelta signed base prev ds) = length ds.
Proof. induction ds as [|d t IH]; intros prev; cbn; [reflexivity|]. f_equal. apply IH. Qed.

Lemma readDeltas_spec signed base w : 0 <= w -> forall ds st i R prev,
  Forall (fun v => 0 <= v < 2 ^ w) ds ->
  rst st i (packedBits w ds ++ R) ->
  fits (- Z.of_nat (length (packedBits w ds ++ R))) w (length ds) = true ->
  exists st' i', run (readDeltas signed base st (length ds) w prev) i
                   = Ok (undelta signed base prev ds, i') /\ rst st' i' R.
Proof.
  intros Hw. induction ds as [|v t IH]; intros st i R prev Hvs Hst Hf.
  - exists st, i. split; [reflexivity|exact Hst].
  - inversion Hvs; subst. cbn [length readDeltas undelta]. cbn [length fits] in Hf.
    apply andb_prop in Hf. destruct Hf as [Hf1 Hf2].
    unfold packedBits in *. cbn [flat_map] in *. rewrite <- app_assoc in *.
    rewrite app_length, length_bitsN in *.
    destruct (readBits_spec st i w v (flat_map (bitsN (Z.to_nat w)) t ++ R) Hw)
      as (st1 & i1 & H1' & Hst1); [assumption|assumption|lia|].
    rewrite run_bind, H1'. cbn [rbind]. cbv zeta. rewrite run_bind.
    destruct (IH st1 i1 R (addDelta signed base prev v)) as (st2 & i2 & H2' & Hst2);
      [assumption|exact Hst1| |].
    { rewrite <- Hf2. apply fits_mod. f_equal. lia. }
    rewrite H2'. cbn [rbind]. rewrite run_ret. eauto.
Qed.

Lemma read_packedDeltas signed base w ds o pad prev : 0 <= w -> Forall (fun v => 0 <= v < 2 ^ w) ds ->
  fits 0 w (length ds) = true -> bytes o -> (length pad < 8)%nat ->
  bitsOfBytes o = packedBits w ds ++ pad ->
  run (readDeltas signed base (0, 0) (length ds) w prev) o = Ok (undelta signed base prev ds, []).
Proof.
  intros Hw Hvs Hf Hb Hp Hbits.
  pose proof (rst_start _ Hb) as Hst. rewrite Hbits in Hst.
  destruct (readDeltas_spec signed base w Hw ds _ _ _ prev Hvs Hst) as (st & i & Hr & Hst').
  { rewrite <- Hf. apply fits_mod.
    apply (f_equal (@length bool)) in Hbits. rewrite length_bitsOfBytes in Hbits.
    rewrite <- Hbits. zlia. }
  rewrite <- (app_nil_r pad) in Hst'. change (@nil bool) with (bitsOfBytes []) in Hst'.
  apply rst_end in Hst'; [|constructor|exact Hp]. subst i. exact Hr.
Qed.

Lemma fits_delta w n : deltaWidth w = true -> fits 0 w n = true.
Proof.
  unfold deltaWidth. cbn [existsb]. intros H.
  repeat (apply orb_prop in H; destruct H as [H|H];
    [apply Z.eqb_eq in H; subst w; first [apply fits_small; lia | apply fits_64; reflexivity]|]).
  discriminate.
Qed.
Lemma deltaWidth_aligned w : aligned w = true -> w <> 0 -> w <> 12 ->
  deltaWidth (if w =? 1 then 2 else w) = true.
Proof.
  unfold aligned. cbn [existsb]. intros H H0 H12.
  repeat (apply orb_prop in H; destruct H as [H|H]; [apply Z.eqb_eq in H; subst w; try lia; reflexivity|]).
  discriminate.
Qed.

(** ** The whole run *)

Lemma deltaLen l : 0 <= l < 512 ->
  Z.lor (Z.shiftl (l / 256) 8) (l mod 256) = l.
Proof.
  intros H. rewrite shiftl_mul by lia. rewrite lor_add by (change (2 ^ 8) with 256; zlia).
  change (2 ^ 8) with 256. zlia.
Qed.

(** Header decoding shared by the two delta forms. *)
Lemma delta_header w len : 0 <= w < 32 -> 1 <= len <= 512 ->
  let l := (len - 1) mod 65536 in
  let h1 := Z.lor (Z.lor 192 (u8 (Z.shiftl (Z.land w 31) 1))) (Z.land (u8 (Z.shiftr l 8)) 1) in
  let h2 := u8 (Z.land l 255) in
  is_u8 h1 /\ is_u8 h2 /\ Z.shiftr h1 6 = 3 /\ Z.land (Z.shiftr h1 1) 31 = w /\
  Z.lor (Z.shiftl (Z.land h1 1) 8) h2 + 1 = len.
Proof.
  intros Hw Hl l h1 h2.
  assert (El : l = len - 1) by (unfold l; zlia). 
  assert (Hb : Z.land (u8 (Z.shiftr l 8)) 1 = l / 256).
  { rewrite land_1, shiftr_div by lia. change (2 ^ 8) with 256.
    rewrite u8_id by (unfold is_u8; zlia). zlia. }
  assert (E1 : h1 = 192 + 2 * w + l / 256) by (unfold h1; rewrite Hb; apply header_byte; [auto|lia|zlia]).
  assert (E2 : h2 = l mod 256).
  { unfold h2. change 255 with (2 ^ 8 - 1). rewrite land_ones_mod by lia.
    change (2 ^ 8) with 256. unfold u8. apply Z.mod_mod. lia. }
  rewrite E1, E2. clear E1 E2 h1 h2 Hb.
  split; [unfold is_u8; zlia|]. split; [unfold is_u8; zlia|].
  rewrite land_31, land_1, !shiftr_div by lia. change (2 ^ 6) with 64. change (2 ^ 1) with 2.
  split; [zlia|]. split; [zlia|].
  replace ((192 + 2 * w + l / 256) mod 2) with (l / 256) by zlia.
  rewrite deltaLen by lia. lia.
Qed.

Lemma PutVarint8 b : is_i64 b -> Zigzag b < 2 ^ 56 ->
  exists o, PutVarint 8 b = Ok o /\ bytes o /\ o <> [].
Proof.
  intros Hb Hlt. pose proof (putFirst_ok true (Zigzag b) (Zigzag_range b Hb) Hlt) as H.
  unfold putFirst in H. rewrite UnZigzag_Zigzag in H by exact Hb. exact H.
Qed.

Lemma writeDelta_spec signed v0 first base ds :
  is_u64 v0 -> putFirst signed v0 = Ok first -> bytes first ->
  is_i64 base -> Zigzag base < 2 ^ 56 ->
  Forall is_u64 ds -> 1 <= zlen ds <= 510 ->
  maxWidth getAlignedWidth ds <> 0 -> maxWidth getAlignedWidth ds <> 12 ->
  let second := secondValue signed v0 (if signed then UnZigzag v0 else 0) base in
  exists o, writeDelta first base (2 + zlen ds) ds = Ok o /\ bytes o /\ o <> [] /\
    run (decode signed) o = Ok (v0 :: second :: undelta signed base second ds, []).
Proof.
  intros Hv Hf Hbf Hbase Hfit Hds Hlen Hw0 Hw12 second. unfold writeDelta.
  destruct (aligned_max ds Hds) as (Ha & Hrange & _).
  set (wm := maxWidth getAlignedWidth ds) in *.
  pose proof (deltaWidth_aligned wm Ha Hw0 Hw12) as Hdw.
  set (w := if wm =? 1 then 2 else wm) in *.
  assert (Hww : wm <= w /\ w <> 0 /\ w <> 1).
  { unfold w. destruct (Z.eqb_spec wm 1); [lia|]. lia. }
  assert (Hrange' : Forall (fun v => 0 <= v < 2 ^ w) ds).
  { eapply Forall_impl; [|exact Hrange]. intros v [H1 H2]. split; [exact H1|].
    eapply Z.lt_le_trans; [exact H2|]. apply Z.pow_le_mono_r; lia. }
  assert (Hal : exists ew, widthEncoding w = Ok ew).
  { apply aligned_encodes. unfold w. destruct (Z.eqb_spec wm 1); [reflexivity|exact Ha]. }
  destruct Hal as (ew & Hew). pose proof (widthEncoding_range w ew Hew) as [Her Hwr].
  rewrite Hew. cbn [rbind].
  destruct (PutVarint8 base Hbase Hfit) as (db & Hdb & Hbdb & _). rewrite Hdb. cbn [rbind].
  destruct (packDeltas_spec w ds Hdw) as (o & pad & Ho & Hbo & Hpad & Hbits);
    [intros ->; cbn in Hlen; lia|exact Hrange'|].
  rewrite Ho. cbn [rbind].
  destruct (delta_header ew (2 + zlen ds) Her ltac:(lia)) as (Hh1 & Hh2 & Hsub & Hwd & Hln).
  cbv zeta in Hh1, Hh2, Hsub, Hwd, Hln. cbv zeta.
  set (h1 := Z.lor (Z.lor 192 _) _) in *. set (h2 := u8 (Z.land _ 255)) in *. clearbody h1 h2.
  eexists. split; [reflexivity|]. split.
  { constructor; [exact Hh1|]. constructor; [exact Hh2|]. repeat (apply bytes_app; split); assumption. }
  split; [discriminate|].
  unfold decode. rewrite run_byte, Hsub. cbn [Z.eqb Pos.eqb]. unfold readDelta. rewrite run_byte.
  rewrite Hwd, run_bind, run_plift, (width_roundtrip_delta w ew Hew) by lia. cbn [rbind].
  rewrite Hln. cbv zeta. rewrite run_bind. fold (readFirst signed).
  rewrite (readFirst_put signed v0 first _ Hv Hf). cbn [rbind]. rewrite run_bind.
  rewrite (ReadVarint_Put 8 base db o Hbase Hdb). cbn [rbind].
  rewrite run_bind. destruct (Z.eqb_spec w 0); [lia|].
  replace (Z.to_nat (2 + zlen ds - 2)) with (length ds) by (unfold zlen; lia).
  fold second.
  rewrite (read_packedDeltas signed base w ds o pad second); auto; try lia.
  apply fits_delta. exact Hdw.
Qed.

(** Fixed delta of zero (long repeats). *)
Lemma writeFixed_spec signed v0 first r :
  is_u64 v0 -> putFirst signed v0 = Ok first -> bytes first -> 2 <= r <= 512 ->
  exists o, writeDelta first 0 r [] = Ok o /\ bytes o /\ o <> [] /\
    run (decode signed) o = Ok (repeat v0 (Z.to_nat r), []).
Proof.
  intros Hv Hf Hbf Hr. unfold writeDelta. change (maxWidth getAlignedWidth []) with 0.
  cbn [Z.eqb]. change (widthEncoding 0) with (Ok 0). cbn [rbind].
  change (PutVarint 8 0) with (Ok [0]). cbn [rbind packDeltas].
  destruct (delta_header 0 r ltac:(lia) ltac:(lia)) as (Hh1 & Hh2 & Hsub & Hwd & Hln).
  cbv zeta in Hh1, Hh2, Hsub, Hwd, Hln. cbv zeta.
  set (h1 := Z.lor (Z.lor 192 _) _) in *. set (h2 := u8 (Z.land _ 255)) in *. clearbody h1 h2.
  eexists. split; [reflexivity|]. split.
  { constructor; [exact Hh1|]. constructor; [exact Hh2|]. apply bytes_app; split; [exact Hbf|].
    repeat constructor; lia. }
  split; [discriminate|].
  unfold decode. rewrite run_byte, Hsub. cbn [Z.eqb Pos.eqb]. unfold readDelta. rewrite run_byte.
  rewrite Hwd, run_bind, run_plift. change (widthDecoding 0 true) with (Ok 0). cbn [rbind].
  rewrite Hln. cbv zeta. rewrite run_bind. fold (readFirst signed). rewrite app_nil_r.
  rewrite (readFirst_put signed v0 first _ Hv Hf). cbn [rbind]. rewrite run_bind.
  change [0] with ([0] ++ []).
  rewrite (ReadVarint_Put 8 0 [0] []) by (reflexivity || (unfold is_i64; lia)). cbn [rbind].
  cbn [Z.eqb]. rewrite run_bind, run_ret. cbn [rbind]. rewrite run_ret.
  assert (Hs : secondValue signed v0 (if signed then UnZigzag v0 else 0) 0 = v0).
  { unfold secondValue. destruct signed.
    - rewrite Z.add_0_r, i64_id by (apply UnZigzag_range; exact Hv). apply Zigzag_UnZigzag. exact Hv.
    - cbn [Z.leb Z.compare]. change (u64 0) with 0. rewrite Z.add_0_r. apply u64_id. exact Hv. }
  rewrite Hs. do 2 f_equal. replace (Z.to_nat r) with (S (S (Z.to_nat (r - 2)))) by lia. reflexivity.
Qed.

(** ** What tryDelta finds *)

Lemma addDelta_inv (signed : bool) base prev v d : is_u64 prev -> is_u64 v ->
  (if signed then
     if 0 <=? base then d = u64 (UnZigzag v - UnZigzag prev) else d = u64 (UnZigzag prev - UnZigzag v)
   else if 0 <=? base then d = u64 (v - prev) else d = u64 (prev - v)) ->
  addDelta signed base prev d = v.
Proof.
  intros Hp Hv H. unfold addDelta. destruct signed; destruct (0 <=? base); subst d.
  - rewrite i64_u64, i64_add_r. replace (UnZigzag prev + (UnZigzag v - UnZigzag prev)) with (UnZigzag v) by lia.
    rewrite i64_id by (apply UnZigzag_range; exact Hv). apply Zigzag_UnZigzag. exact Hv.
  - rewrite i64_u64, i64_sub_r. replace (UnZigzag prev - (UnZigzag prev - UnZigzag v)) with (UnZigzag v) by lia.
    rewrite i64_id by (apply UnZigzag_range; exact Hv). apply Zigzag_UnZigzag. exact Hv.
  - rewrite u64_add_r. replace (prev + (v - prev)) with v by lia. apply u64_id. exact Hv.
  - rewrite u64_sub_r. replace (prev - (prev - v)) with v by lia. apply u64_id. exact Hv.
Qed.

Lemma moreDeltas_spec signed base values : forall prev, is_u64 prev -> Forall is_u64 values ->
  let ds := moreDeltas signed base prev values in
  Forall is_u64 ds /\ exists rest, values = undelta signed base prev ds ++ rest.
Proof.
  induction values as [|v t IH]; intros prev Hp Hvs; cbn [moreDeltas].
  - split; [constructor|]. exists []. reflexivity.
  - inversion Hvs as [|? ? Hv Ht]; subst.
    destruct (IH v Hv Ht) as (Hds & rest & Hrest).
    assert (G : forall d, is_u64 d -> addDelta signed base prev d = v ->
       Forall is_u64 (d :: moreDeltas signed base v t) /\
       exists rest0, v :: t = undelta signed base prev (d :: moreDeltas signed base v t) ++ rest0).
    { intros d Hd Hadd. split; [constructor; assumption|]. exists rest. cbn [undelta].
      rewrite Hadd. cbn [app]. f_equal. exact Hrest. }
    assert (N : Forall is_u64 [] /\ exists rest0, v :: t = undelta signed base prev [] ++ rest0)
      by (split; [constructor|exists (v :: t); reflexivity]).
    cbv zeta. destruct signed eqn:Es; destruct (0 <=? base) eqn:Eb.
    + destruct (UnZigzag prev <=? UnZigzag v); [|exact N]. apply G; [apply u64_range|].
      apply addDelta_inv; [assumption|assumption|]. rewrite Eb. reflexivity.
    + destruct (UnZigzag v <? UnZigzag prev); [|exact N]. apply G; [apply u64_range|].
      apply addDelta_inv; [assumption|assumption|]. rewrite Eb. reflexivity.
    + destruct (prev <=? v); [|exact N]. apply G; [apply u64_range|].
      apply addDelta_inv; [assumption|assumption|]. rewrite Eb. reflexivity.
    + destruct (v <? prev); [|exact N]. apply G; [apply u64_range|].
      apply addDelta_inv; [assumption|assumption|]. rewrite Eb. reflexivity.
Qed.

Lemma UnZigzag_inj a b : is_u64 a -> is_u64 b -> UnZigzag a = UnZigzag b -> a = b.
Proof.
  intros Ha Hb H. rewrite <- (Zigzag_UnZigzag a Ha), <- (Zigzag_UnZigzag b Hb), H. reflexivity.
Qed.

Lemma tryDelta_spec signed values base ds :
  Forall is_u64 values -> tryDelta signed values = Some (base, ds) ->
  exists a b rest, values = a :: b :: undelta signed base b ds ++ rest /\
    is_i64 base /\ base <> 0 /\ Forall is_u64 ds /\ ds <> [] /\
    secondValue signed a (if signed then UnZigzag a else 0) base = b.
Proof.
  intros Hvs H. destruct values as [|a [|b [|c t]]]; try discriminate.
  inversion Hvs as [|? ? Ha H1]; subst. inversion H1 as [|? ? Hb H2]; subst.
  inversion H2 as [|? ? Hc Ht]; subst. cbn [tryDelta] in H.
  destruct (Z.eqb_spec a b) as [|Hne]; [discriminate|].
  assert (Main : forall bs d, is_i64 bs -> bs <> 0 ->
     secondValue signed a (if signed then UnZigzag a else 0) bs = b ->
     is_u64 d -> addDelta signed bs b d = c ->
     Some (bs, d :: moreDeltas signed bs c t) = Some (base, ds) ->
     exists a0 b0 rest, a :: b :: c :: t = a0 :: b0 :: undelta signed base b0 ds ++ rest /\
       is_i64 base /\ base <> 0 /\ Forall is_u64 ds /\ ds <> [] /\
       secondValue signed a0 (if signed then UnZigzag a0 else 0) base = b0).
  { intros bs d Hbs Hbs0 Hsec Hd Hadd E. injection E as <- <-.
    destruct (moreDeltas_spec signed bs t c Hc Ht) as (Hds & rest & Hrest).
    exists a, b, rest. split.
    { cbn [undelta]. rewrite Hadd. cbn [app]. do 3 f_equal. exact Hrest. }
    split; [exact Hbs|]. split; [exact Hbs0|]. split; [constructor; assumption|].
    split; [discriminate|exact Hsec]. }
  destruct signed.
  - set (bs := i64 (UnZigzag b - UnZigzag a)) in *.
    pose proof (UnZigzag_range a Ha) as Ra. pose proof (UnZigzag_range b Hb) as Rb.
    pose proof (UnZigzag_range c Hc) as Rc.
    assert (Hbs : is_i64 bs) by apply i64_range.
    assert (Hne' : UnZigzag a <> UnZigzag b) by (intros E; apply Hne, UnZigzag_inj; assumption).
    assert (Hbs0 : bs <> 0).
    { unfold bs. intros E. apply Hne'. unfold i64, is_i64 in *.
      destruct (Z.ltb_spec ((UnZigzag b - UnZigzag a) mod W64) W63); zlia. }
    assert (Hsec : secondValue true a (UnZigzag a) bs = b).
    { unfold secondValue, bs. rewrite i64_add_r.
      replace (UnZigzag a + (UnZigzag b - UnZigzag a)) with (UnZigzag b) by lia.
      rewrite i64_id by exact Rb. apply Zigzag_UnZigzag. exact Hb. }
    destruct (Z.ltb_spec 0 bs) as [Hpos|Hneg].
    + destruct (UnZigzag b <=? UnZigzag c); [|discriminate].
      apply (Main bs (u64 (UnZigzag c - UnZigzag b))); auto; try apply u64_range.
      apply addDelta_inv; auto. destruct (Z.leb_spec 0 bs); [reflexivity|lia].
    + destruct (UnZigzag b <=? UnZigzag c); [discriminate|].
      apply (Main bs (u64 (UnZigzag b - UnZigzag c))); auto; try apply u64_range.
      apply addDelta_inv; auto. destruct (Z.leb_spec 0 bs); [lia|reflexivity].
  - unfold is_u64 in Ha, Hb, Hc.
    set (bs := if a <? b then i64 (u64 (b - a)) else i64 (- i64 (u64 (a - b)))) in *.
    assert (Ebs : bs = i64 (b - a)).
    { unfold bs. destruct (a <? b); [apply i64_u64|].
      rewrite i64_u64. replace (- i64 (a - b)) with (0 - i64 (a - b)) by lia.
      rewrite i64_sub_r. f_equal. lia. }
    assert (Hbs : is_i64 bs) by (rewrite Ebs; apply i64_range).
    assert (Hbs0 : bs <> 0).
    { rewrite Ebs. unfold i64. intros E.
      destruct (Z.ltb_spec ((b - a) mod W64) W63); zlia. }
    assert (Hsec : secondValue false a 0 bs = b).
    { unfold secondValue. rewrite Ebs.
      destruct (0 <=? i64 (b - a)).
      - rewrite u64_i64, u64_add_r. replace (a + (b - a)) with b by lia. apply u64_id. exact Hb.
      - rewrite u64_i64, u64_sub_r.
        replace (a - - i64 (b - a)) with (a + i64 (b - a)) by lia.
        rewrite <- (u64_add_r a), u64_i64, u64_add_r. replace (a + (b - a)) with b by lia.
        apply u64_id. exact Hb. }
    destruct (Z.ltb_spec 0 bs) as [Hpos|Hneg].
    + destruct (b <=? c); [|discriminate].
      apply (Main bs (u64 (c - b))); auto; try apply u64_range.
      apply addDelta_inv; auto. destruct (Z.leb_spec 0 bs); [reflexivity|lia].
    + destruct (c <? b); [|discriminate].
      apply (Main bs (u64 (b - c))); auto; try apply u64_range.
      apply addDelta_inv; auto. destruct (Z.leb_spec 0 bs); [lia|reflexivity].
Qed.
