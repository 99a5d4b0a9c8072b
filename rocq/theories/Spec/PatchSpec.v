(** The positions of the patches of a patched run: each entry of the patch list starts with
    a gap, and the position of a patch is the sum of the gaps so far ("Patched Base" of the
    ORC specification, as in Spec/OrcInt.v).

    An entry is taken from a register of 64 bits, which also holds the bits that are left
    of its last byte: what does not fit is lost from the front of the gap.  This concerns
    entries of 58 bits and more only. *)
From Verif.Model Require Import Go.
From Verif.Spec Require Import Bits OrcInt.

(** The position of entry [j] of a list of entries of [pgw] bits of gap and [pw] bits of
    patch. *)
Fixpoint position (pgw pw : nat) (bits : list bool) (j : nat) : Z :=
  let rest := skipn (pgw + pw) bits in
  let lost := (pgw + pw + length rest mod 8 - 64)%nat in
  valB (skipn lost (firstn pgw bits)) + match j with O => 0 | S j' => position pgw pw rest j' end.

(** A patched run whose base and values are all there ([skip] bytes after the header) and
    whose patch list holds a whole entry that points at or beyond the end of the run.  The
    reader takes entries of less than 64 bits only. *)
Definition patch_outside (i : list Z) : Prop :=
  exists h h1 h2 h3 t, i = h :: h1 :: h2 :: h3 :: t /\ h / 64 = 2 /\
    let len := orc_length h h1 in
    let w := orc_width ((h / 2) mod 32) in
    let pw := orc_width (h2 mod 32) in
    let pgw := h3 / 32 + 1 in
    let skip := h2 / 32 + 1 + (len * w + 7) / 8 in
    pgw + pw < 64 /\ skip <= zlen t /\ exists j, (j < Z.to_nat (h3 mod 32))%nat /\
      Z.of_nat (S j) * (pgw + pw) <= 8 * (zlen t - skip) /\
      len <= position (Z.to_nat pgw) (Z.to_nat pw) (bitsOfBytes (zdrop skip t)) j.

(** No entry of the first [n] loses a bit that is set. *)
Fixpoint nothing_lost (pgw pw : nat) (bits : list bool) (n : nat) : Prop :=
  match n with
  | O => True
  | S n' =>
      let rest := skipn (pgw + pw) bits in
      valB (firstn (pgw + pw + length rest mod 8 - 64) bits) = 0 /\ nothing_lost pgw pw rest n'
  end.
(** The patched runs whose entries have less than 64 bits and lose none that is set. *)
Definition patches_whole (i : list Z) : Prop :=
  forall h h1 h2 h3 t, i = h :: h1 :: h2 :: h3 :: t -> h / 64 = 2 ->
    let pw := orc_width (h2 mod 32) in
    let pgw := h3 / 32 + 1 in
    let skip := h2 / 32 + 1 + (orc_length h h1 * orc_width ((h / 2) mod 32) + 7) / 8 in
    pgw + pw < 64 /\ nothing_lost (Z.to_nat pgw) (Z.to_nat pw) (bitsOfBytes (zdrop skip t)) (Z.to_nat (h3 mod 32)).
