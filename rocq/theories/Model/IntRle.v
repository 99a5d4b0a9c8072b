(** Integer run-length codec, version 2: orc/encoding/int.go. *)
From Verif.Model Require Import Go Codec.

(** ** Bit packing *)

(** int.go 343-365 writeBits.  State: (lastByte, bitsLeft).  The loop emits one
    byte per 8 bits; totalBits <= 64, so 8 iterations suffice. *)
Fixpoint wb_loop (fuel : nat) (value total : Z) : list Z * Z :=
  match fuel with
  | O => ([], total)
  | S f =>
      if total <? 8 then ([], total)
      else let t := total - 8 in
           let '(bs, r) := wb_loop f value t in
           (u8 (Z.shiftr value t) :: bs, r)
  end.
Definition writeBits (st : Z * Z) (value bits : Z) : res ((Z * Z) * list Z) :=
  let '(lastByte, bitsLeft) := st in
  let total := bitsLeft + bits in
  if 64 <? total then Err
  else
    let value := if negb (lastByte =? 0) then Z.lor (u64 (Z.shiftl lastByte bits)) value
                 else value in
    let '(bs, r) := wb_loop 8 value total in
    Ok ((Z.land (u8 value) (Z.shiftl 1 r - 1), r), bs).

(** int.go 367-375. *)
Definition writeLeftBits (st : Z * Z) : list Z :=
  let '(lastByte, bitsLeft) := st in
  if negb (bitsLeft =? 0) then [u8 (Z.shiftl lastByte (8 - bitsLeft))] else [].

(** for _, v := range values { writeBits(v, width) } *)
Fixpoint writeBitsAll (st : Z * Z) (values : list Z) (bits : Z) : res ((Z * Z) * list Z) :=
  match values with
  | [] => Ok (st, [])
  | v :: t =>
      let! (st1, o1) := writeBits st v bits in
      let! (st2, o2) := writeBitsAll st1 t bits in
      Ok (st2, o1 ++ o2)
  end.

(** forgetBits; for ... writeBits; writeLeftBits (int.go 531-539, 837-845, 852-861). *)
Definition packBits (values : list Z) (bits : Z) : res (list Z) :=
  let! (st, o) := writeBitsAll (0, 0) values bits in
  Ok (o ++ writeLeftBits st).

(** int.go 293-312 readBits; bits <= 64, so at most 8 bytes are read. *)
Fixpoint rb_loop (fuel : nat) (bits hasBits data : Z) : prog (Z * Z) :=
  match fuel with
  | O => Ret (data, hasBits)
  | S f =>
      if hasBits <? bits then
        RdByte (fun b => rb_loop f bits (hasBits + 8) (Z.lor (u64 (Z.shiftl data 8)) b))
      else Ret (data, hasBits)
  end.
Definition readBits (st : Z * Z) (bits : Z) : prog (Z * (Z * Z)) :=
  let '(lastByte, bitsLeft) := st in
  do! (data, hasBits) := rb_loop 8 bits bitsLeft lastByte in
  let left := hasBits - bits in
  Ret (Z.shiftr data left, (u8 (Z.land data (Z.shiftl 1 left - 1)), left)).

Fixpoint readBitsAll (st : Z * Z) (n : nat) (bits : Z) : prog (list Z) :=
  match n with
  | O => Ret []
  | S m =>
      do! (v, st') := readBits st bits in
      do! t := readBitsAll st' m bits in
      Ret (v :: t)
  end.

(** ** Decoder *)

(** int.go 72-80: big endian value of the short repeat form. *)
Fixpoint read_be (n : nat) (v : Z) : prog Z :=
  match n with
  | O => Ret v
  | S m => RdByte (fun b => read_be m (Z.lor v (u64 (Z.shiftl b (8 * Z.of_nat m)))))
  end.

Definition readShortRepeat (header : Z) : prog (list Z) :=   (* int.go 66-84 *)
  let width := 1 + Z.land (Z.shiftr header 3) 7 in
  let count := 3 + Z.land header 7 in
  do! v := read_be (Z.to_nat width) 0 in
  Ret (repeat v (Z.to_nat count)).

Definition readDirect (firstByte : Z) : prog (list Z) :=     (* int.go 86-107 *)
  RdByte (fun b1 =>
    let header := Z.lor (Z.shiftl firstByte 8) b1 in
    let w := Z.land (Z.shiftr header 9) 31 in
    do! width := plift (widthDecoding w false) in
    let len := Z.land header 511 + 1 in
    readBitsAll (0, 0) (Z.to_nat len) width).

(** int.go 167-199 for width <> 0: the running last value is [prev]. *)
Definition addDelta (signed : bool) (deltaBase prev delta : Z) : Z :=
  if signed then
    if 0 <=? deltaBase then Zigzag (i64 (UnZigzag prev + i64 delta))
    else Zigzag (i64 (UnZigzag prev - i64 delta))
  else
    if 0 <=? deltaBase then u64 (prev + delta) else u64 (prev - delta).
Fixpoint readDeltas (signed : bool) (deltaBase : Z) (st : Z * Z) (n : nat) (width prev : Z)
  : prog (list Z) :=
  match n with
  | O => Ret []
  | S m =>
      do! (delta, st') := readBits st width in
      let v := addDelta signed deltaBase prev delta in
      do! t := readDeltas signed deltaBase st' m width v in
      Ret (v :: t)
  end.

(** int.go 155-163 and 169-177: base + deltaBase. *)
Definition secondValue (signed : bool) (ubase base deltaBase : Z) : Z :=
  if signed then Zigzag (i64 (base + deltaBase))
  else if 0 <=? deltaBase then u64 (ubase + u64 deltaBase)
       else u64 (ubase - u64 (i64 (- deltaBase))).

Definition readDelta (signed : bool) (h0 : Z) : prog (list Z) :=  (* int.go 119-199 *)
  RdByte (fun h1 =>
    do! width := plift (widthDecoding (Z.land (Z.shiftr h0 1) 31) true) in
    let len := Z.lor (Z.shiftl (Z.land h0 1) 8) h1 + 1 in
    do! (ubase, base) :=
       (if signed then do! b := ReadVarint in Ret (Zigzag b, b)
        else do! u := ReadUvarint in Ret (u, 0)) in
    do! deltaBase := ReadVarint in
    let second := secondValue signed ubase base deltaBase in
    let n := Z.to_nat (len - 2) in
    do! rest :=
       (if width =? 0 then Ret (repeat second n)          (* fixed delta, 168-177 *)
        else readDeltas signed deltaBase (0, 0) n width second) in
    Ret (ubase :: second :: rest)).

(** int.go 270-288: the patch list. d.uvs[mark] panics when out of range. *)
Fixpoint set_nth (l : list Z) (n : nat) (v : Z) : list Z :=
  match l, n with
  | [], _ => []
  | _ :: t, O => v :: t
  | x :: t, S m => x :: set_nth t m v
  end.
Definition applyPatch (base width : Z) (uvs : list Z) (mark : Z) (patch : Z) : res (list Z) :=
  match nth_error uvs (Z.to_nat mark) with
  | None => Panic
  | Some u =>
      let v := i64 (UnZigzag u - base) in
      let v := Z.lor v (i64 (Z.shiftl patch width)) in
      let v := i64 (v + base) in
      Ok (set_nth uvs (Z.to_nat mark) (Zigzag v))
  end.
Fixpoint readPatches (st : Z * Z) (n : nat) (pgw pw base width mark : Z) (uvs : list Z)
  : prog (list Z) :=
  match n with
  | O => Ret uvs
  | S m =>
      do! (pp, st') := readBits st (pgw + pw) in
      let mark' := mark + Z.shiftr pp pw in
      let patch := Z.land pp (Z.shiftl 1 pw - 1) in
      do! uvs' := plift (applyPatch base width uvs mark' patch) in
      readPatches st' m pgw pw base width mark' uvs'
  end.

(** int.go 245-247: big endian base. *)
Fixpoint be_value (bs : list Z) (v : Z) : Z :=
  match bs with
  | [] => v
  | b :: t => be_value t (Z.lor v (u64 (Z.shiftl b (8 * zlen t))))
  end.

Definition readPatched (firstByte : Z) : prog (list Z) :=    (* int.go 207-291 *)
  RdFull 3 (fun h =>
    let h1 := nth 0 h 0 in let h2 := nth 1 h 0 in let h3 := nth 2 h 0 in
    do! width := plift (widthDecoding (Z.land (Z.shiftr firstByte 1) 31) false) in
    let len := Z.lor (Z.shiftl (Z.land firstByte 1) 8) h1 + 1 in
    let bw := Z.land (Z.shiftr h2 5) 7 + 1 in
    do! pw := plift (widthDecoding (Z.land h2 31) false) in
    let pgw := Z.land (Z.shiftr h3 5) 7 + 1 in
    if 64 <=? pw + pgw then Fail
    else
      let pll := Z.land h3 31 in
      RdFull (Z.to_nat bw) (fun bb =>
        let b0 := hd 0 bb in
        let neg := Z.shiftr b0 7 =? 1 in
        let ubase := be_value (Z.land b0 127 :: tl bb) 0 in
        let base := if neg then i64 (- i64 ubase) else i64 ubase in
        do! deltas := readBitsAll (0, 0) (Z.to_nat len) width in
        let uvs := map (fun d => Zigzag (i64 (base + i64 d))) deltas in
        readPatches (0, 0) (Z.to_nat pll) pgw pw base width 0 uvs)).

(** int.go 57-205: decode one run. *)
Definition decode (signed : bool) : prog (list Z) :=
  RdByte (fun firstByte =>
    let sub := Z.shiftr firstByte 6 in
    if sub =? 0 then readShortRepeat firstByte
    else if sub =? 1 then readDirect firstByte
    else if sub =? 2 then (if signed then readPatched firstByte else Fail)
    else if sub =? 3 then readDelta signed firstByte
    else Fail).

(** int.go 27-42 and 44-53 (on decoders created with the matching [signed]). *)
Definition DecodeUInt : prog (list Z) := decode false.
Definition DecodeInt : prog (list Z) := do! us := decode true in Ret (map UnZigzag us).

(** ** Encoder *)

(** int.go 506-517, 885-893, 795-801: maximum width over a list. *)
Definition maxWidth (f : Z -> Z) (values : list Z) : Z :=
  fold_left (fun w v => if w <? f v then f v else w) values 0.

(** int.go 502-544. *)
Definition writeDirect (values : list Z) (widthAlign : bool) : res (list Z) :=
  let width := maxWidth (if widthAlign then getAlignedWidth else getBitsWidth) values in
  let! ew := widthEncoding width in
  let l := zlen values - 1 in
  let h0 := Z.lor (Z.lor 64 (u8 (Z.shiftl (Z.land ew 31) 1))) (Z.land (u8 (Z.shiftr l 8)) 1) in
  let h1 := u8 l in
  let! o := packBits values width in
  Ok (h0 :: h1 :: o).

(** int.go 919-1005: the three packings of writeDelta. *)
Fixpoint pack2 (l : list Z) : list Z :=
  match l with
  | [] => []
  | [a] => [u8 (Z.shiftl (Z.land a 3) 6)]
  | [a; b] => [Z.lor (u8 (Z.shiftl (Z.land a 3) 6)) (u8 (Z.shiftl (Z.land b 3) 4))]
  | [a; b; c] => [Z.lor (Z.lor (u8 (Z.shiftl (Z.land a 3) 6)) (u8 (Z.shiftl (Z.land b 3) 4)))
                        (u8 (Z.shiftl (Z.land c 3) 2))]
  | a :: b :: c :: d :: t =>
      Z.lor (Z.lor (Z.lor (u8 (Z.shiftl (Z.land a 3) 6)) (u8 (Z.shiftl (Z.land b 3) 4)))
                   (u8 (Z.shiftl (Z.land c 3) 2))) (u8 (Z.shiftl (Z.land d 3) 0))
      :: pack2 t
  end.
Fixpoint pack4 (l : list Z) : list Z :=
  match l with
  | [] => []
  | [a] => [u8 (Z.shiftl (Z.land a 15) 4)]
  | a :: b :: t => Z.lor (u8 (Z.shiftl (Z.land a 15) 4)) (Z.land b 15) :: pack4 t
  end.
(** for j := n-1; j >= 0; j-- { byte(v >> (j*8) & 0xff) } *)
Fixpoint be_bytes (n : nat) (v : Z) : list Z :=
  match n with
  | O => []
  | S m => u8 (Z.land (Z.shiftr v (8 * Z.of_nat m)) 255) :: be_bytes m v
  end.
Definition packDeltas (width : Z) (deltas : list Z) : res (list Z) :=
  match deltas with
  | [] => Ok []
  | _ =>
      if width =? 2 then Ok (pack2 deltas)
      else if width =? 4 then Ok (pack4 deltas)
      else if (width =? 8) || (width =? 16) || (width =? 24) || (width =? 32) || (width =? 40)
              || (width =? 48) || (width =? 56) || (width =? 64)
           then Ok (flat_map (be_bytes (Z.to_nat (width / 8))) deltas)
      else Err                                       (* width not recognized, 1002-1003 *)
  end.

(** int.go 880-1008. [length] is a uint16; the delta base goes through an 8 byte
    buffer, so PutVarint panics when it needs more. *)
Definition writeDelta (first : list Z) (deltaBase len : Z) (deltas : list Z) : res (list Z) :=
  let width := maxWidth getAlignedWidth deltas in
  let width := if width =? 1 then 2 else width in
  let! w := widthEncoding width in
  let len := (len - 1) mod 65536 in
  let h1 := Z.lor (Z.lor 192 (u8 (Z.shiftl (Z.land w 31) 1))) (Z.land (u8 (Z.shiftr len 8)) 1) in
  let h2 := u8 (Z.land len 255) in
  let! db := PutVarint 8 deltaBase in
  let! ds := packDeltas width deltas in
  Ok (h1 :: h2 :: first ++ db ++ ds).

(** int.go 1106-1131: every zero byte of x is skipped. *)
Fixpoint sr_loop (n : nat) (x : Z) (w : Z) : Z * list Z :=
  match n with
  | O => (w, [])
  | S j =>
      let b := u8 (Z.shiftr x (8 * Z.of_nat j)) in
      if negb (b =? 0) then
        let w' := if w <? Z.of_nat j then Z.of_nat j else w in
        let '(w'', bs) := sr_loop j x w' in (w'', b :: bs)
      else sr_loop j x w
  end.
Definition writeShortRepeat (count x : Z) : list Z :=
  let '(w, bb) := sr_loop 8 x 0 in
  Z.lor (Z.land (u8 count) 7) (u8 (Z.shiftl w 3)) :: bb.

(** int.go 1054-1068 (on a non-empty list). *)
Fixpoint leadingEq (v : Z) (l : list Z) : nat :=
  match l with
  | [] => O
  | x :: t => if x =? v then S (leadingEq v t) else O
  end.
Definition getRepeats (values : list Z) : nat :=
  match values with [] => O | v :: t => S (leadingEq v t) end.

(** int.go 604-640: the deltas after the third value. *)
Fixpoint moreDeltas (signed : bool) (base prev : Z) (values : list Z) : list Z :=
  match values with
  | [] => []
  | v :: t =>
      if signed then
        let vi := UnZigzag v in let vp := UnZigzag prev in
        if 0 <=? base then
          if vp <=? vi then u64 (vi - vp) :: moreDeltas signed base v t else []
        else
          if vi <? vp then u64 (vp - vi) :: moreDeltas signed base v t else []
      else
        if 0 <=? base then
          if prev <=? v then u64 (v - prev) :: moreDeltas signed base v t else []
        else
          if v <? prev then u64 (prev - v) :: moreDeltas signed base v t else []
  end.
(** int.go 554-642: Some (base, deltas); dv.length = 2 + len(deltas). *)
Definition tryDelta (signed : bool) (values : list Z) : option (Z * list Z) :=
  match values with
  | a :: b :: c :: t =>
      if a =? b then None
      else if signed then
        let base := i64 (UnZigzag b - UnZigzag a) in
        let v2 := UnZigzag c in let v1 := UnZigzag b in
        if 0 <? base then
          if v1 <=? v2 then Some (base, u64 (v2 - v1) :: moreDeltas signed base c t) else None
        else
          if v1 <=? v2 then None
          else Some (base, u64 (v1 - v2) :: moreDeltas signed base c t)
      else
        let base := if a <? b then i64 (u64 (b - a)) else i64 (- i64 (u64 (a - b))) in
        if 0 <? base then
          if b <=? c then Some (base, u64 (c - b) :: moreDeltas signed base c t) else None
        else
          if c <? b then Some (base, u64 (b - c) :: moreDeltas signed base c t) else None
  | _ => None
  end.

(** int.go 644-654. *)
Record patched := {
  p_values : list Z; p_width : Z; p_base : Z; p_gaps : list Z; p_patches : list Z }.

(** int.go 706-719: the first width at which the histogram (of bytes, hence the
    [u8]) reaches 90%; [i] runs over the 65 slots. int(float64(count)*0.9) is
    floor(count*9/10) for any realistic count. *)
Definition hist (widths : list Z) (i : Z) : Z :=
  u8 (zlen (filter (fun w => w =? i) widths)).
Fixpoint find_w (slots : nat) (widths : list Z) (p90 i l : Z) : Z :=
  match slots with
  | O => 0
  | S s =>
      let h := hist widths i in
      let l' := l + h in
      if (p90 <=? l') && negb (h =? 0) then i else find_w s widths p90 (i + 1) l'
  end.

(** int.go 732-738: fillers (gap 255, patch 0) while i-previousGap > 255. *)
Fixpoint fillers (fuel : nat) (i prev : Z) : list Z * Z :=
  match fuel with
  | O => ([], prev)
  | S f => if 255 <? i - prev then let '(g, p) := fillers f i (prev + 255) in (255 :: g, p)
           else ([], prev)
  end.
(** int.go 729-746: returns (values, gaps, patches). *)
Fixpoint splitPatches (w : Z) (ds : list Z) (i prev : Z) : list Z * list Z * list Z :=
  match ds with
  | [] => ([], [], [])
  | d :: t =>
      if w <? getBitsWidth d then
        let '(g, prev') := fillers (Z.to_nat i) i prev in
        let '(vs, gs, ps) := splitPatches w t (i + 1) i in
        (Z.land d (Z.shiftl 1 w - 1) :: vs,
         g ++ (i - prev') :: gs,
         map (fun _ => 0) g ++ Z.shiftr d w :: ps)
      else
        let '(vs, gs, ps) := splitPatches w t (i + 1) prev in (d :: vs, gs, ps)
  end.

(** int.go 659-772: Ok None when no patch form is chosen; a list of more than 31
    patches panics.  count = len(values) for two or more values, 0 for one. *)
Definition minimum (v0 : Z) (l : list Z) : Z :=
  fold_left (fun b v => if v <? b then v else b) l v0.
Definition tryPatch (values : list Z) : res (option patched) :=
  match values with
  | [] => Panic
  | [_] => Ok None
  | v0 :: rest =>
      let base := minimum (UnZigzag v0) (map UnZigzag rest) in
      let ds := map (fun v => u64 (UnZigzag v - base)) values in
      let widths := map getBitsWidth ds in
      let width := maxWidth getBitsWidth ds in
      let w := find_w 65 widths (zlen values * 9 / 10) 0 0 in
      if w <? width then
        let '(vs, gs, ps) := splitPatches w ds 0 0 in
        if 31 <? zlen ps then Panic
        else Ok (Some {| p_values := vs; p_width := w; p_base := base;
                         p_gaps := gs; p_patches := ps |})
      else Ok None
  end.

(** int.go 774-864. *)
Fixpoint zipPatch (pw : Z) (gaps patches : list Z) : list Z :=
  match gaps, patches with
  | g :: gs, p :: ps => Z.lor (u64 (Z.shiftl g pw)) p :: zipPatch pw gs ps
  | _, _ => []
  end.
Definition writePatch (p : patched) : res (list Z) :=
  let! w := widthEncoding (p_width p) in
  let l := zlen (p_values p) - 1 in
  let h0 := Z.lor (Z.lor 128 (u8 (Z.shiftl w 1))) (u8 (Z.land (Z.shiftr l 8) 1)) in
  let h1 := u8 (Z.land l 255) in
  let base := if p_base p <? 0 then u64 (i64 (- p_base p)) else u64 (p_base p) in
  let bw := (getBitsWidth base + 1 + 7) / 8 in
  let patchWidth := maxWidth getBitsWidth (p_patches p) in
  let! pw := widthEncoding patchWidth in
  let h2 := Z.lor (u8 (Z.shiftl (bw - 1) 5)) (Z.land pw 31) in
  let pgw := maxWidth getBitsWidth (p_gaps p) in
  let h3 := Z.lor (u8 (Z.shiftl (Z.land (u8 (pgw - 1)) 7) 5)) (Z.land (u8 (zlen (p_patches p))) 31) in
  let base' := if p_base p <? 0 then Z.lor base (u64 (Z.shiftl 1 ((bw - 1) * 8 + 7))) else base in
  let! vs := packBits (p_values p) (p_width p) in
  if 64 <? pgw + patchWidth then Err
  else
    let! ps := packBits (zipPatch patchWidth (p_gaps p) (p_patches p)) (pgw + patchWidth) in
    Ok (h0 :: h1 :: h2 :: h3 :: be_bytes (Z.to_nat bw) base' ++ vs ++ ps).

(** int.go 445-451, 463-469: the first value through an 8 byte buffer. *)
Definition putFirst (signed : bool) (v : Z) : res (list Z) :=
  if signed then PutVarint 8 (UnZigzag v) else PutUvarint 8 v.

(** int.go 434-494: one iteration of the loop of write, on a non-empty list:
    remaining values and bytes written. *)
Definition writeStep (signed toEnd : bool) (values : list Z) : res (list Z * list Z) :=
  match values with
  | [] => Panic
  | v0 :: _ =>
      let r := getRepeats values in
      if (3 <=? r)%nat then
        if (r <=? 10)%nat then
          Ok (skipn r values, writeShortRepeat (Z.of_nat r - 3) v0)
        else
          let! first := putFirst signed v0 in
          let! o := writeDelta first 0 (Z.of_nat r mod 65536) [] in
          Ok (skipn r values, o)
      else
        let! (rest, o) :=
          match tryDelta signed values with
          | Some (base, deltas) =>
              let! first := putFirst signed v0 in
              let len := (2 + zlen deltas) mod 65536 in
              let! o := writeDelta first base len deltas in
              Ok (skipn (Z.to_nat len) values, o)
          | None =>
              if signed then
                let! pvs := tryPatch values in
                match pvs with
                | Some p => let! o := writePatch p in Ok (skipn (length (p_values p)) values, o)
                | None => Ok (values, [])
                end
              else Ok (values, [])
          end in
        match rest with
        | [] => Ok ([], o)
        | _ => if toEnd then let! o' := writeDirect rest true in Ok ([], o ++ o')
               else Ok (rest, o)
        end
  end.

(** int.go 433-498 with toEnd = true.  Every iteration consumes a value; running
    out of fuel is [Panic]. *)
Fixpoint writeToEnd (fuel : nat) (signed : bool) (values : list Z) : res (list Z) :=
  match values with
  | [] => Ok []
  | _ =>
      match fuel with
      | O => Panic
      | S f =>
          let! (rest, o) := writeStep signed true values in
          let! o' := writeToEnd f signed rest in Ok (o ++ o')
      end
  end.

(** int.go 424-500: remaining values and bytes written. *)
Definition write (signed toEnd : bool) (values : list Z) : res (list Z * list Z) :=
  if (length values <=? 3)%nat then
    let! o := writeDirect values true in Ok ([], o)
  else if toEnd then
    let! o := writeToEnd (length values) signed values in Ok ([], o)
  else writeStep signed false values.

(** int.go 327-336 (lastByte/bitsLeft are always reset by forgetBits before use and
    so are local to packBits). *)
Record intEnc := { i_values : list Z; i_position : Z; i_signed : bool }.
Definition NewIntRLV2 (signed doPosition : bool) : intEnc :=
  {| i_values := []; i_position := if doPosition then 0 else -1; i_signed := signed |}.
Definition MaxIntRunLength : Z := 512.

(** int.go 379-407; [v] is an int64 for a signed encoder, a uint64 otherwise. *)
Definition int_Encode (e : intEnc) (v : Z) : res (intEnc * list Z) :=
  let value := if i_signed e then Zigzag v else v in
  let vs := i_values e ++ [value] in
  let! (vs', o) := (if MaxIntRunLength <=? zlen vs then write (i_signed e) false vs
                    else Ok (vs, [])) in
  Ok ({| i_values := vs';
         i_position := if i_position e =? -1 then -1 else zlen vs';
         i_signed := i_signed e |}, o).

(** int.go 413-422. *)
Definition int_Flush (e : intEnc) : res (intEnc * list Z) :=
  match i_values e with
  | [] => Ok (e, [])
  | vs =>
      let! (vs', o) := write (i_signed e) true vs in
      Ok ({| i_values := vs'; i_position := i_position e; i_signed := i_signed e |}, o)
  end.

(** int.go 409-411. *)
Definition int_GetPosition (e : intEnc) : list Z := [u64 (i_position e)].
