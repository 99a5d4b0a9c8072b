(** Opening a file: the tail, the stripes, the streams. *)
From Verif.Model Require Import Go Chunk Stream Schema Rows File.
From Verif.Spec Require Import ChunkSpec StreamSpec FileSpec.
From Verif.Proofs Require Import Base ChunkP FileP.

Lemma zdrop_zdrop {A} n m (l : list A) : 0 <= n -> 0 <= m -> zdrop n (zdrop m l) = zdrop (m + n) l.
Proof.
  intros Hn Hm. unfold zdrop. rewrite Z2Nat.inj_add by assumption.
  generalize (Z.to_nat n) as a, (Z.to_nat m) as b. clear. intros a b. revert l.
  induction b as [|b IH]; intros l; [reflexivity|]. destruct l as [|x l]; [now rewrite !skipn_nil|]. apply IH.
Qed.
Lemma zdrop_exact {A} (a b : list A) n : n = zlen a -> zdrop n (a ++ b) = b.
Proof. intros ->. apply zdrop_app. Qed.
Lemma ztake_exact {A} (a b : list A) n : n = zlen a -> ztake n (a ++ b) = a.
Proof. intros ->. apply ztake_app. Qed.

Section Tail.
Variable inflate : list Z -> res (list Z).
Variable ST : Type.
Variable unmarshalPS : list Z -> res postscript.
Variable unmarshalFooter : list Z -> res (footer ST).
Notation extract := (extractFileTail inflate unmarshalPS unmarshalFooter).

(** A file that ends in footer bytes, postscript bytes and postscript length. *)
Lemma tail_exact pre fb psb ps f raw : 
  unmarshalPS psb = Ok ps -> p_footerLength ps = zlen fb -> p_metadataLength ps = 0 ->
  zlen psb < 256 -> zlen fb < 2 ^ 62 -> 3 < zlen (pre ++ fb ++ psb ++ [zlen psb]) < 2 ^ 62 ->
  (match p_compression ps with NONE => Ok fb | k => DecompressChunks inflate k fb end) = Ok raw ->
  unmarshalFooter raw = Ok f ->
  extract (pre ++ fb ++ psb ++ [zlen psb]) =
    if zlen fb + zlen psb + 1 <=? 16384 then Ok (Some (ps, f)) else Panic.
Proof.
  intros Hps Hfl Hml Hpl Hfb Hsz Hdec Hf.
  pose proof (zlen_nonneg fb) as Nf. pose proof (zlen_nonneg psb) as Np. pose proof (zlen_nonneg pre) as Npre.
  remember (pre ++ fb ++ psb ++ [zlen psb]) as file eqn:Efile.
  assert (Hlen : zlen file = zlen pre + zlen fb + zlen psb + 1).
  { rewrite Efile, !zlen_app, zlen_cons, zlen_nil. lia. }
  change (2 ^ 62) with 4611686018427387904 in *.
  unfold extractFileTail. cbv zeta.
  destruct (Z.eqb_spec (zlen file) 0); [lia|]. destruct (Z.leb_spec (zlen file) 3); [lia|].
  set (rs := Z.min (zlen file) 16384). assert (Hrs : rs = Z.min (zlen file) 16384) by reflexivity. clearbody rs.
  (* the last byte *)
  assert (Hlast : nth (Z.to_nat (rs - 1)) (zdrop (zlen file - rs) file) 0 = zlen psb).
  { assert (E : file = (pre ++ fb ++ psb) ++ [zlen psb]) by (rewrite Efile, <- !app_assoc; reflexivity).
    assert (Hq : zlen (pre ++ fb ++ psb) = zlen file - 1) by (rewrite !zlen_app; lia).
    unfold zdrop. rewrite E at 2. rewrite skipn_app.
    replace (Z.to_nat (zlen file - rs) - length (pre ++ fb ++ psb))%nat with O by (unfold zlen in *; lia).
    cbn [skipn]. rewrite app_nth2.
    - rewrite skipn_length. replace (_ - _)%nat with O; [reflexivity|]. unfold zlen in *. lia.
    - rewrite skipn_length. unfold zlen in *. lia. }
  rewrite Hlast.
  destruct (Z.ltb_spec (rs - 1 - zlen psb) 0) as [Hneg|Hnn].
  { lia. }
  assert (Hpsb : ztake (zlen psb) (zdrop (rs - 1 - zlen psb) (zdrop (zlen file - rs) file)) = psb).
  { rewrite zdrop_zdrop by lia. rewrite Efile at 2.
    replace (zlen file - rs + (rs - 1 - zlen psb)) with (zlen (pre ++ fb)) by (rewrite zlen_app; lia).
    rewrite app_assoc, zdrop_app, ztake_app. reflexivity. }
  rewrite Hpsb, Hps. cbn [rbind]. rewrite Hfl, Hml.
  rewrite (i64_id (zlen fb)) by (unfold is_i64; lia). rewrite (i64_id 0) by (unfold is_i64; lia).
  rewrite (i64_id (zlen psb + 1 + zlen fb + 0 - rs)) by (unfold is_i64; lia).
  rewrite (i64_id (rs - 1 - zlen psb - zlen fb)) by (unfold is_i64; lia).
  destruct (Z.leb_spec (zlen fb + zlen psb + 1) 16384) as [Hs|Hs].
  - replace (Z.max 0 (zlen psb + 1 + zlen fb + 0 - rs)) with 0 by lia. cbn [Z.ltb Z.compare rbind].
    destruct (Z.ltb_spec (rs - 1 - zlen psb - zlen fb) 0); [lia|].
    destruct (Z.ltb_spec (rs - 1 - zlen psb) (rs - 1 - zlen psb - zlen fb)); [lia|]. cbn [orb].
    rewrite zdrop_zdrop by lia.
    replace (zlen file - rs + (rs - 1 - zlen psb - zlen fb)) with (zlen pre) by lia.
    rewrite Efile, zdrop_app, ztake_app. destruct (p_compression ps); cbn [rbind] in *;
      rewrite ?Hdec; cbn [rbind];
      try (assert (raw = fb) as -> by congruence); rewrite Hf; reflexivity.
  - assert (rs = 16384) as -> by lia.
    rewrite (i64_id (zlen file - 16384 - _)) by (unfold is_i64; lia).
    destruct (Z.ltb_spec 0 (Z.max 0 (zlen psb + 1 + zlen fb + 0 - 16384))); [|lia].
    destruct (Z.ltb_spec (zlen file - 16384 - Z.max 0 (zlen psb + 1 + zlen fb + 0 - 16384)) 0); [lia|].
    cbn [rbind]. destruct (Z.ltb_spec (16384 - 1 - zlen psb - zlen fb) 0); [|lia]. reflexivity.
Qed.

Lemma tail_empty : extract [] = Ok None.
Proof. reflexivity. Qed.
Lemma tail_short file : 1 <= zlen file <= 3 -> extract file = Err.
Proof.
  intros H. unfold extractFileTail. destruct (Z.eqb_spec (zlen file) 0); [lia|].
  destruct (Z.leb_spec (zlen file) 3); [reflexivity|lia].
Qed.
(** Any file whose last byte is not smaller than the bytes before it. *)
Lemma tail_panic pre b : 4 <= zlen (pre ++ [b]) <= b -> extract (pre ++ [b]) = Panic \/ 16384 < zlen (pre ++ [b]).
Proof.
  intros H. destruct (Z.le_gt_cases (zlen (pre ++ [b])) 16384) as [Hs|Hs]; [left|right; lia].
  unfold extractFileTail. destruct (Z.eqb_spec (zlen (pre ++ [b])) 0); [lia|].
  destruct (Z.leb_spec (zlen (pre ++ [b])) 3); [lia|]. cbv zeta.
  rewrite Z.min_l by lia. rewrite Z.sub_diag.
  assert (E : nth (Z.to_nat (zlen (pre ++ [b]) - 1)) (zdrop 0 (pre ++ [b])) 0 = b).
  { unfold zdrop. cbn [Z.to_nat skipn]. rewrite zlen_app, zlen_cons, zlen_nil.
    replace (Z.to_nat (zlen pre + (0 + 1) - 1)) with (length pre) by (unfold zlen; lia).
    rewrite app_nth2, Nat.sub_diag by lia. reflexivity. }
  rewrite E. destruct (Z.ltb_spec (zlen (pre ++ [b]) - 1 - b) 0); [reflexivity|lia].
Qed.
End Tail.
