(** The integer run-length encoding, version 2, as described in the ORC specification
    (https://orc.apache.org/specification/ORCv1, "Integer Run Length Encoding, version
    2").  This file is a transcription of that text; it uses nothing of the model but
    the list and 64 bit vocabulary of Model/Go.v. *)
From Verif.Model Require Import Go.
From Verif.Spec Require Import Bits.

(** "Unsigned Fixed Bit Size" table: code 0..31. *)
Definition orc_width (code : Z) : Z :=
  nth (Z.to_nat code)
    [1; 2; 3; 4; 5; 6; 7; 8; 9; 10; 11; 12; 13; 14; 15; 16; 17; 18; 19; 20; 21; 22; 23; 24;
     26; 28; 30; 32; 40; 48; 56; 64] 0.

(** Signed values are zigzag encoded: 0, -1, 1, -2, ... *)
Definition unzig (signed : bool) (u : Z) : Z :=
  if signed then (if Z.even u then u / 2 else - ((u + 1) / 2)) else u.

(** Results are 64 bit integers. *)
Definition wrap (signed : bool) (v : Z) : Z := if signed then i64 v else u64 v.

(** "The base 128 varint": seven bits per byte, least significant group first, high bit
    set on all but the last byte. *)
Fixpoint varint (i : list Z) : option (Z * list Z) :=
  match i with
  | [] => None
  | b :: t =>
      if b <? 128 then Some (b, t)
      else match varint t with
           | Some (v, r) => Some (b - 128 + 128 * v, r)
           | None => None
           end
  end.
(** ... of a 64 bit number. *)
Definition varint64 (i : list Z) : option (Z * list Z) :=
  match varint i with
  | Some (v, r) => if (v <? W64) && (length i - length r <=? 10)%nat then Some (v, r) else None
  | None => None
  end.

(** [n] big endian numbers of [w] bits each. *)
Fixpoint numbers (w n : nat) (bs : list bool) : list Z :=
  match n with
  | O => []
  | S m => valB (firstn w bs) :: numbers w m (skipn w bs)
  end.
(** A packed area of [n] numbers of [w] bits, padded to a whole number of bytes. *)
Definition packed (w n : Z) (i : list Z) : option (list Z * list Z) :=
  let size := Z.to_nat ((n * w + 7) / 8) in
  if (length i <? size)%nat then None
  else Some (numbers (Z.to_nat w) (Z.to_nat n) (bitsOfBytes (firstn size i)), skipn size i).

(** A big endian number of [n] bytes. *)
Definition big_endian (n : nat) (i : list Z) : option (Z * list Z) :=
  if (length i <? n)%nat then None
  else Some (valB (bitsOfBytes (firstn n i)), skipn n i).

(** Short repeat: 2 bits 0, 3 bits width-1 (bytes), 3 bits count-3, value big endian. *)
Definition orc_short (signed : bool) (h : Z) (i : list Z) : option (list Z * list Z) :=
  match big_endian (Z.to_nat ((h / 8) mod 8 + 1)) i with
  | Some (v, r) => Some (repeat (unzig signed v) (Z.to_nat (h mod 8 + 3)), r)
  | None => None
  end.

(** 9 bits length-1. *)
Definition orc_length (h h1 : Z) : Z := (h mod 2) * 256 + h1 + 1.

(** Direct: 2 bits 1, 5 bits width code, 9 bits length-1, values. *)
Definition orc_direct (signed : bool) (h : Z) (i : list Z) : option (list Z * list Z) :=
  match i with
  | [] => None
  | h1 :: i =>
      match packed (orc_width ((h / 2) mod 32)) (orc_length h h1) i with
      | Some (vs, r) => Some (map (unzig signed) vs, r)
      | None => None
      end
  end.

(** Delta: 2 bits 3, 5 bits width code (0 means fixed delta), 9 bits length-1, base value
    varint, delta base signed varint, delta values.  "The base value is the first value;
    the delta base gives the second one; each further delta is added, in the direction
    given by the sign of the delta base, to the previous value." *)
Fixpoint orc_sums (signed : bool) (dir prev : Z) (ds : list Z) : list Z :=
  match ds with
  | [] => []
  | d :: t => let v := wrap signed (prev + dir * d) in v :: orc_sums signed dir v t
  end.
Fixpoint orc_steps (signed : bool) (step prev : Z) (n : nat) : list Z :=
  match n with
  | O => []
  | S m => let v := wrap signed (prev + step) in v :: orc_steps signed step v m
  end.
Definition orc_delta (signed : bool) (h : Z) (i : list Z) : option (list Z * list Z) :=
  match i with
  | [] => None
  | h1 :: i =>
      let len := orc_length h h1 in
      if len <? 2 then None
      else
        match varint64 i with
        | None => None
        | Some (ubase, i) =>
            match varint64 i with
            | None => None
            | Some (udelta, i) =>
                let base := unzig signed ubase in
                let delta := unzig true udelta in
                let code := (h / 2) mod 32 in
                if code =? 0 then
                  Some (base :: orc_steps signed delta base (Z.to_nat (len - 1)), i)
                else
                  let second := wrap signed (base + delta) in
                  match packed (orc_width code) (len - 2) i with
                  | Some (ds, r) =>
                      Some (base :: second ::
                            orc_sums signed (if delta <? 0 then -1 else 1) second ds, r)
                  | None => None
                  end
            end
        end
  end.

(** Patched base: 2 bits 2, 5 bits width code, 9 bits length-1; 3 bits base width-1
    (bytes), 5 bits patch width code; 3 bits patch gap width-1, 5 bits patch list length;
    base value big endian with the sign in the top bit; the low parts; the patch list,
    each entry a gap to the previous patched position and the high bits of the value.
    The text limits gap width plus patch width to 64 bits; positions strictly increase. *)
Fixpoint bump (l : list Z) (n : nat) (x : Z) : list Z :=
  match l, n with
  | [], _ => []
  | a :: t, O => (a + x) :: t
  | a :: t, S m => a :: bump t m x
  end.
Fixpoint orc_patch (w pw pos : Z) (entries : list Z) (data : list Z) : option (list Z) :=
  match entries with
  | [] => Some data
  | e :: t =>
      let gap := e / 2 ^ pw in
      let pos' := pos + gap in
      if (pos <? pos') && (pos' <? zlen data) then
        orc_patch w pw pos' t (bump data (Z.to_nat pos') ((e mod 2 ^ pw) * 2 ^ w))
      else None
  end.
Definition orc_patched (signed : bool) (h : Z) (i : list Z) : option (list Z * list Z) :=
  match i with
  | h1 :: h2 :: h3 :: i =>
      let w := orc_width ((h / 2) mod 32) in
      let bw := h2 / 32 + 1 in
      let pw := orc_width (h2 mod 32) in
      let pgw := h3 / 32 + 1 in
      if 64 <? pgw + pw then None
      else
        match big_endian (Z.to_nat bw) i with
        | None => None
        | Some (b, i) =>
            let sign := 2 ^ (8 * bw - 1) in
            let base := if sign <=? b then - (b - sign) else b in
            match packed w (orc_length h h1) i with
            | None => None
            | Some (data, i) =>
                match packed (pgw + pw) (h3 mod 32) i with
                | None => None
                | Some (entries, r) =>
                    (* positions start before the first value: its gap may be 0 *)
                    match orc_patch w pw (-1)
                            (match entries with [] => [] | e :: t => (e + 2 ^ pw) :: t end) data with
                    | Some vs => Some (map (fun v => wrap signed (base + v)) vs, r)
                    | None => None
                    end
                end
            end
        end
  | _ => None
  end.

Definition orc_run (signed : bool) (i : list Z) : option (list Z * list Z) :=
  match i with
  | [] => None
  | h :: i =>
      if h / 64 =? 0 then orc_short signed h i
      else if h / 64 =? 1 then orc_direct signed h i
      else if h / 64 =? 2 then orc_patched signed h i
      else orc_delta signed h i
  end.

(** The runs on which implementation and text agree. *)
Definition orc_supported (signed : bool) (i vs : list Z) : Prop :=
  match i with
  | h :: i =>
      if h / 64 =? 2 then
        signed = true /\ forall h1 h2 h3 t, i = h1 :: h2 :: h3 :: t ->
          h3 / 32 + 1 + orc_width (h2 mod 32) <= 57
      else if h / 64 =? 3 then
        (h / 2) mod 32 <> 0 \/ exists a b n, vs = a :: repeat b n
      else True
  | [] => True
  end.
