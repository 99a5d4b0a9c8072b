(** Arithmetic, bit and list lemmas used by the proofs. *)
From Coq Require Export Lia ZifyBool ZifyNat.
From Verif.Model Require Export Go.

(** lia with / and mod by constants. *)
Ltac zlia := Z.div_mod_to_equations; lia.

(** ** Wrap-around *)

Lemma u8_range x : is_u8 (u8 x).
Proof. unfold is_u8, u8. apply Z.mod_pos_bound. lia. Qed.
Lemma u64_range x : is_u64 (u64 x).
Proof. unfold is_u64, u64. apply Z.mod_pos_bound. lia. Qed.
Lemma i64_range x : is_i64 (i64 x).
Proof.
  unfold is_i64, i64. pose proof (Z.mod_pos_bound x W64).
  destruct (Z.ltb_spec (x mod W64) W63); lia.
Qed.
Lemma u8_id x : is_u8 x -> u8 x = x.
Proof. unfold is_u8, u8. intros. apply Z.mod_small. lia. Qed.
Lemma u64_id x : is_u64 x -> u64 x = x.
Proof. unfold is_u64, u64. intros. apply Z.mod_small. lia. Qed.
Lemma i64_id x : is_i64 x -> i64 x = x.
Proof.
  unfold is_i64, i64. intros H.
  destruct (Z.ltb_spec (x mod W64) W63); zlia.
Qed.
Lemma u64_i64 x : u64 (i64 x) = u64 x.
Proof.
  unfold u64, i64. destruct (Z.ltb_spec (x mod W64) W63); zlia.
Qed.
Lemma i64_u64 x : i64 (u64 x) = i64 x.
Proof. unfold u64, i64. rewrite Z.mod_mod by lia. reflexivity. Qed.
Lemma u64_u64 x : u64 (u64 x) = u64 x.
Proof. unfold u64. apply Z.mod_mod. lia. Qed.
Lemma i64_i64 x : i64 (i64 x) = i64 x.
Proof. apply i64_id, i64_range. Qed.

(** Two int64 with the same uint64 image are equal, and conversely. *)
Lemma i64_inj x y : is_i64 x -> is_i64 y -> u64 x = u64 y -> x = y.
Proof. unfold is_i64, u64. intros. zlia. Qed.
Lemma i64_eq_mod x y : u64 x = u64 y -> i64 x = i64 y.
Proof. intros H. rewrite <- (i64_u64 x), <- (i64_u64 y), H. reflexivity. Qed.
Lemma u64_add_l x y : u64 (u64 x + y) = u64 (x + y).
Proof. unfold u64. apply Z.add_mod_idemp_l. lia. Qed.
Lemma u64_add_r x y : u64 (x + u64 y) = u64 (x + y).
Proof. unfold u64. apply Z.add_mod_idemp_r. lia. Qed.
Lemma u64_sub_l x y : u64 (u64 x - y) = u64 (x - y).
Proof. unfold u64. apply Zminus_mod_idemp_l. Qed.
Lemma u64_sub_r x y : u64 (x - u64 y) = u64 (x - y).
Proof. unfold u64. apply Zminus_mod_idemp_r. Qed.
Lemma i64_add_l x y : i64 (i64 x + y) = i64 (x + y).
Proof. apply i64_eq_mod. rewrite <- u64_add_l, u64_i64, u64_add_l. reflexivity. Qed.
Lemma i64_add_r x y : i64 (x + i64 y) = i64 (x + y).
Proof. apply i64_eq_mod. rewrite <- u64_add_r, u64_i64, u64_add_r. reflexivity. Qed.
Lemma i64_sub_l x y : i64 (i64 x - y) = i64 (x - y).
Proof. apply i64_eq_mod. rewrite <- u64_sub_l, u64_i64, u64_sub_l. reflexivity. Qed.
Lemma i64_sub_r x y : i64 (x - i64 y) = i64 (x - y).
Proof. apply i64_eq_mod. rewrite <- u64_sub_r, u64_i64, u64_sub_r. reflexivity. Qed.

(** ** Shifts and masks *)

Lemma shiftl_mul x n : 0 <= n -> Z.shiftl x n = x * 2 ^ n.
Proof. apply Z.shiftl_mul_pow2. Qed.
Lemma shiftr_div x n : 0 <= n -> Z.shiftr x n = x / 2 ^ n.
Proof. apply Z.shiftr_div_pow2. Qed.

Lemma land_ones_mod x n : 0 <= n -> Z.land x (2 ^ n - 1) = x mod 2 ^ n.
Proof.
  intros. rewrite <- (Z.land_ones x n) by lia. f_equal.
  rewrite Z.ones_equiv. lia.
Qed.
Lemma mask_mod x n : 0 <= n -> Z.land x (Z.shiftl 1 n - 1) = x mod 2 ^ n.
Proof. intros. rewrite Z.shiftl_1_l. apply land_ones_mod. lia. Qed.

Lemma land_shift_small a b n : 0 <= n -> 0 <= b < 2 ^ n -> Z.land (a * 2 ^ n) b = 0.
Proof.
  intros Hn Hb. destruct (Z.eq_dec b 0) as [->|Hb0]; [apply Z.land_0_r|].
  apply Z.bits_inj'. intros i Hi.
  rewrite Z.land_spec, Z.bits_0.
  destruct (Z.lt_ge_cases i n) as [Hlt|Hge].
  - rewrite Z.mul_pow2_bits_low by lia. reflexivity.
  - rewrite (Z.bits_above_log2 b i), andb_false_r; [reflexivity|lia|].
    apply Z.lt_le_trans with n; [|lia]. apply Z.log2_lt_pow2; lia.
Qed.
(** Disjoint [lor] is addition. *)
Lemma lor_add a b n : 0 <= n -> 0 <= b < 2 ^ n -> Z.lor (a * 2 ^ n) b = a * 2 ^ n + b.
Proof.
  intros Hn Hb. pose proof (land_shift_small a b n Hn Hb) as Hl.
  rewrite <- Z.lxor_lor by exact Hl. symmetry. apply Z.add_nocarry_lxor. exact Hl.
Qed.
Lemma lor_add' a b n : 0 <= n -> 0 <= b < 2 ^ n -> Z.lor b (a * 2 ^ n) = a * 2 ^ n + b.
Proof. intros. rewrite Z.lor_comm. apply lor_add; lia. Qed.

Lemma land_1 x : Z.land x 1 = x mod 2.
Proof. apply (land_ones_mod x 1). lia. Qed.
Lemma land_127 x : Z.land x 127 = x mod 128.
Proof. apply (land_ones_mod x 7). lia. Qed.
Lemma land_7 x : Z.land x 7 = x mod 8.
Proof. apply (land_ones_mod x 3). lia. Qed.
Lemma land_3 x : Z.land x 3 = x mod 4.
Proof. apply (land_ones_mod x 2). lia. Qed.
Lemma land_15 x : Z.land x 15 = x mod 16.
Proof. apply (land_ones_mod x 4). lia. Qed.
Lemma land_31 x : Z.land x 31 = x mod 32.
Proof. apply (land_ones_mod x 5). lia. Qed.
Lemma land_255 x : Z.land x 255 = x mod 256.
Proof. apply (land_ones_mod x 8). lia. Qed.
Lemma land_511 x : Z.land x 511 = x mod 512.
Proof. apply (land_ones_mod x 9). lia. Qed.

Lemma pow2_pos n : 0 <= n -> 0 < 2 ^ n.
Proof. intros. apply Z.pow_pos_nonneg; lia. Qed.

(** ** Programs *)

Lemma runS_bind {S A B} rb rf (p : prog A) (f : A -> prog B) (s : S) :
  runS rb rf (pbind p f) s = (let! (a, s') := runS rb rf p s in runS rb rf (f a) s').
Proof.
  revert s. induction p as [a| | |k IH|n k IH]; intros s; cbn [pbind runS rbind]; try reflexivity.
  - destruct (rb s) as [[b s']| |]; cbn [rbind]; auto.
  - destruct (rf n s) as [[b s']| |]; cbn [rbind]; auto.
Qed.
Lemma run_bind {A B} (p : prog A) (f : A -> prog B) l :
  run (pbind p f) l = (let! (a, l') := run p l in run (f a) l').
Proof. apply runS_bind. Qed.
Lemma run_ret {A} (a : A) l : run (Ret a) l = Ok (a, l).
Proof. reflexivity. Qed.
Lemma run_byte {A} (k : Z -> prog A) b l : run (RdByte k) (b :: l) = run (k b) l.
Proof. reflexivity. Qed.
Lemma run_full {A} (k : list Z -> prog A) n a l :
  length a = n -> run (RdFull n k) (a ++ l) = run (k a) l.
Proof.
  intros H. unfold run. cbn [runS]. unfold lrf. rewrite app_length.
  destruct (Nat.ltb_spec (length a + length l) n); [lia|]. cbn [rbind].
  rewrite <- H, firstn_app, Nat.sub_diag, firstn_all, firstn_O, app_nil_r.
  rewrite skipn_app, Nat.sub_diag, skipn_all, skipn_O. reflexivity.
Qed.
Lemma runS_plift {S A} rb rf (x : res A) (s : S) :
  runS rb rf (plift x) s = (let! a := x in Ok (a, s)).
Proof. destruct x; reflexivity. Qed.
Lemma run_plift {A} (x : res A) l : run (plift x) l = (let! a := x in Ok (a, l)).
Proof. apply runS_plift. Qed.

(** ** Lists *)

Lemma zlen_nonneg {A} (l : list A) : 0 <= zlen l.
Proof. unfold zlen. lia. Qed.
Lemma zlen_app {A} (l m : list A) : zlen (l ++ m) = zlen l + zlen m.
Proof. unfold zlen. rewrite app_length. lia. Qed.
Lemma zlen_cons {A} (x : A) (l : list A) : zlen (x :: l) = zlen l + 1.
Proof. unfold zlen. cbn [length]. lia. Qed.
Lemma zlen_nil {A} : zlen (@nil A) = 0.
Proof. reflexivity. Qed.
Lemma firstn_app_exact {A} (l m : list A) : firstn (length l) (l ++ m) = l.
Proof. rewrite firstn_app, Nat.sub_diag, firstn_all, firstn_O, app_nil_r. reflexivity. Qed.
Lemma skipn_app_exact {A} (l m : list A) : skipn (length l) (l ++ m) = m.
Proof. rewrite skipn_app, Nat.sub_diag, skipn_all, skipn_O. reflexivity. Qed.
Lemma firstn_skipn_add {A} (n m : nat) (l : list A) :
  firstn (n + m) l = firstn n l ++ firstn m (skipn n l).
Proof.
  revert l. induction n as [|n IH]; intros l; [reflexivity|].
  destruct l as [|x l]; cbn [Nat.add firstn skipn app].
  - rewrite firstn_nil. reflexivity.
  - rewrite IH. reflexivity.
Qed.
Lemma bytes_app l m : bytes (l ++ m) <-> bytes l /\ bytes m.
Proof. unfold bytes. apply Forall_app. Qed.
Lemma Forall_firstn' {A} (P : A -> Prop) n l : Forall P l -> Forall P (firstn n l).
Proof.
  revert l. induction n as [|n IH]; intros l H; [constructor|].
  destruct H as [|x l Hx H]; cbn [firstn]; constructor; auto.
Qed.
Lemma Forall_skipn' {A} (P : A -> Prop) n l : Forall P l -> Forall P (skipn n l).
Proof.
  revert l. induction n as [|n IH]; intros l H; [exact H|].
  destruct H as [|x l Hx H]; cbn [skipn]; [constructor|auto].
Qed.
Lemma rbind_ok {A B} (a : A) (f : A -> res B) : rbind (Ok a) f = f a.
Proof. reflexivity. Qed.
Lemma rbind_inv {A B} (x : res A) (f : A -> res B) b :
  rbind x f = Ok b -> exists a, x = Ok a /\ f a = Ok b.
Proof. destruct x; cbn; intros H; try discriminate; eauto. Qed.
