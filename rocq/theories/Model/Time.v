(** Dates and timestamps: orc/api/vector.go 108-167, with the parts of Go's package
    time they use.

    - An instant (time.Time) is the number of nanoseconds since 1970-01-01 UTC; the
      location stored with it is kept apart where it matters.
    - A *time.Location is the offset, in seconds east of UTC, in effect there at
      2015-01-01 00:00 local time; nil is UTC, offset 0. *)
From Verif.Model Require Import Go.

Notation HourNs := 3600000000000 (only parsing).
Notation DayNs := 86400000000000 (only parsing).

(** Conversion int32(x) of an integer. *)
Definition i32 (x : Z) : Z := let u := x mod 4294967296 in if u <? 2147483648 then u else u - 4294967296.
Definition i16 (x : Z) : Z := let u := x mod 65536 in if u <? 32768 then u else u - 65536.

(** ** float64: the nearest binary64 number, ties to even, to the rational n/d (d > 0);
    the result (m, e) is m*2^e.  Results here are far from overflow and underflow. *)
Definition roundPos (n d : Z) : Z * Z :=
  let l := Z.log2 n - Z.log2 d in
  let below := (if 0 <=? l then n <? d * 2 ^ l else n * 2 ^ (- l) <? d) in
  let e := if below then l - 53 else l - 52 in
  let num := if 0 <=? e then n else n * 2 ^ (- e) in
  let den := if 0 <=? e then d * 2 ^ e else d in
  let q := num / den in
  let r := num mod den in
  (if 2 * r <? den then q else if den <? 2 * r then q + 1 else q + q mod 2, e).
Definition round (n d : Z) : Z * Z :=
  if n =? 0 then (0, 0)
  else let (m, e) := roundPos (Z.abs n) d in (Z.sgn n * m, e).
(** numerator and denominator *)
Definition num (x : Z * Z) : Z := let (m, e) := x in if 0 <=? e then m * 2 ^ e else m.
Definition den (x : Z * Z) : Z := let (_, e) := x in if 0 <=? e then 1 else 2 ^ (- e).
Definition fdiv (x y : Z * Z) : Z * Z := round (num x * den y * Z.sgn (num y)) (den x * Z.abs (num y)).
Definition fadd (x y : Z * Z) : Z * Z := round (num x * den y + num y * den x) (den x * den y).
Definition ofInt (n : Z) : Z * Z := round n 1.
(** conversion to an integer: towards zero *)
Definition toInt (x : Z * Z) : Z := Z.quot (num x) (den x).

(** time.Duration.Hours. *)
Definition Hours (d : Z) : Z * Z :=
  fadd (ofInt (Z.quot d HourNs)) (fdiv (ofInt (Z.rem d HourNs)) (ofInt HourNs)).

(** time.Time.Sub: saturates at the bounds of an int64. *)
Definition Sub (t u : Z) : Z := Z.max (- W63) (Z.min (W63 - 1) (t - u)).

(** vector.go 119-123. *)
Definition FromDays (days : Z) : Z := i64 (i64 (days * 24) * HourNs).

(** vector.go 126-130. *)
Definition ToDays (date : Z) : Z := i32 (toInt (fdiv (Hours (Sub date 0)) (ofInt 24))).

(** ** Timestamps *)
Record timestamp := { ts_loc : Z; ts_seconds : Z; ts_nanos : Z }.
Definition base (loc : Z) : Z := 1420070400 - loc.

(** vector.go 138-145.  time.Unix(sec, nsec) is the instant sec*10^9 + nsec. *)
Definition Time (t : timestamp) : Z := (base (ts_loc t) + ts_seconds t) * 1000000000 + i64 (ts_nanos t).

(** t.Unix() of an instant. *)
Definition Unix (t : Z) : Z := t / 1000000000.

(** vector.go 147-157. *)
Definition GetMilliSeconds (t : timestamp) : Z :=
  i64 (i64 (i64 (ts_seconds t - base (ts_loc t)) * 1000) + i64 (ts_nanos t / 1000)).

(** vector.go 159-162. *)
Definition GetMilliSecondsUtc (t : timestamp) : Z :=
  i64 (i64 (base 0 + Unix (Time t)) + i64 (ts_nanos t / 1000)).

(** vector.go 164-167: an instant with its location. *)
Definition GetTimestamp (loc t : Z) : timestamp :=
  {| ts_loc := loc; ts_seconds := i64 (Unix t - base 0); ts_nanos := t mod 1000000000 |}.
