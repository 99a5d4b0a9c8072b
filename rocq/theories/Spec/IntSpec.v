(** Specification vocabulary for integer streams. *)
From Verif.Model Require Import Go Codec IntRle.

(** A positive value none of whose base-256 digits (up to its leading one) is zero. *)
Definition dense (x : Z) : Prop :=
  0 < x /\ forall j, 0 <= j -> 256 ^ j <= x -> (x / 256 ^ j) mod 256 <> 0.
(** The same, decidable, for 64 bit values. *)
Definition denseb (x : Z) : bool :=
  (0 <? x) && forallb (fun j => (x <? 256 ^ j) || negb ((x / 256 ^ j) mod 256 =? 0))
                      [0; 1; 2; 3; 4; 5; 6; 7].

Definition is_ok {A} (r : res A) : bool := match r with Ok _ => true | _ => false end.

(** ** When the encoder's choices are safe

    The encoder splits its buffer greedily into runs.  Each of the following says that
    a run of the given kind is within what the format (as implemented) can carry.  The
    negation of any of them is a fault exhibited by a theorem of Properties/IntRuns.v. *)

(** A direct run: at most 512 values, not all of them zero. *)
Definition direct_ok (vs : list Z) : bool :=
  (zlen vs <=? 512) && existsb (fun v => negb (v =? 0)) vs.
(** A run with fixed delta 0. *)
Definition fixed_ok (v0 : Z) (r : nat) : bool := (v0 <? 2 ^ 56) && (r <=? 512)%nat.
(** A delta run: first value and first delta fit an 8 byte varint; the later deltas are
    not all zero; and it is not the case that some of them have 12 significant bits while
    the others have at most 8 or 12. *)
Definition twelve (d : Z) : bool := (2048 <=? d) && (d <? 4096).
Definition over8not12 (d : Z) : bool := (256 <=? d) && negb (twelve d).
Definition delta_ok (v0 base : Z) (ds : list Z) : bool :=
  (v0 <? 2 ^ 56) && (Zigzag base <? 2 ^ 56) && (zlen ds <=? 510) &&
  existsb (fun d => negb (d =? 0)) ds && (negb (existsb twelve ds) || existsb over8not12 ds).
(** A patched run: non-zero value width, some non-zero gap, gap and patch widths that
    fit together in 63 bits, a base other than the smallest integer, and widths that
    have a code. *)
Definition patch_ok (values : list Z) (p : patched) : bool :=
  (length values <=? 512)%nat && (1 <=? p_width p) && existsb (fun g => negb (g =? 0)) (p_gaps p) &&
  (maxWidth getBitsWidth (p_gaps p) + maxWidth getBitsWidth (p_patches p) <? 64) &&
  (- W63 <? p_base p) && is_ok (writePatch p).

Definition nonempty {A} (l : list A) : bool := match l with [] => false | _ => true end.

(** One round of the encoder's loop. *)
Definition step_ok (signed toEnd : bool) (values : list Z) : bool :=
  let v0 := hd 0 values in
  let r := getRepeats values in
  if (3 <=? r)%nat then
    if (r <=? 10)%nat then denseb v0 else fixed_ok v0 r
  else
    match tryDelta signed values with
    | Some (base, ds) =>
        let rest := skipn (2 + length ds) values in
        delta_ok v0 base ds && (negb toEnd || negb (nonempty rest) || direct_ok rest)
    | None =>
        if signed then
          match tryPatch values with
          | Ok (Some p) => patch_ok values p
          | Ok None => negb toEnd || direct_ok values
          | _ => false
          end
        else negb toEnd || direct_ok values
    end.

(** The rounds of a flush. *)
Fixpoint end_ok (fuel : nat) (signed : bool) (values : list Z) : bool :=
  match values with
  | [] => true
  | _ =>
      match fuel with
      | O => false
      | S f =>
          step_ok signed true values &&
          (if (3 <=? getRepeats values)%nat then end_ok f signed (skipn (getRepeats values) values)
           else true)
      end
  end.

(** One call that writes out buffered values. *)
Definition write_ok (signed toEnd : bool) (values : list Z) : bool :=
  if (length values <=? 3)%nat then direct_ok values
  else if toEnd then end_ok (length values) signed values
  else step_ok signed false values.

(** A whole stream: every call that writes is safe. *)
Fixpoint stream_ok (e : intEnc) (vs : list Z) : bool :=
  match vs with
  | [] => negb (nonempty (i_values e)) || write_ok (i_signed e) true (i_values e)
  | v :: t =>
      let buf := i_values e ++ [if i_signed e then Zigzag v else v] in
      ((zlen buf <? 512) || write_ok (i_signed e) false buf) &&
      match int_Encode e v with
      | Ok (e', _) => stream_ok e' t
      | _ => false
      end
  end.

(** The values an encoder of the given signedness accepts. *)
Definition is_int (signed : bool) (v : Z) : Prop := if signed then is_i64 v else is_u64 v.
(** The matching decoder. *)
Definition DecodeFor (signed : bool) : prog (list Z) := if signed then DecodeInt else DecodeUInt.
