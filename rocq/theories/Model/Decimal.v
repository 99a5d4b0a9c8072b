(** Decimal64: orc/api/vector.go 86-106. *)
From Verif.Model Require Import Go Time.

Record decimal := { Precision : Z; Scale : Z }.

(** The product of two float64. *)
Definition fmul (x y : Z * Z) : Z * Z := round (num x * num y) (den x * den y).

(** vector.go 95-106; [10*d.Scale] is an int.  A scale for which it wraps around to 0
    would give an infinity or NaN, which the type here does not have. *)
Definition Float64 (d : decimal) : Z * Z :=
  let s := Scale d in
  if s =? 0 then ofInt (Precision d)
  else if 0 <? s then fmul (ofInt (Precision d)) (ofInt (i64 (10 * s)))
  else fdiv (ofInt (Precision d)) (ofInt (i64 (10 * s))).
