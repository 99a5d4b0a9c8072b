(** What numbers stand for. *)
From Verif.Model Require Import Go Time Decimal.

(** The float64 [x] is the rational number n/d. *)
Definition is_rational (x : Z * Z) (n d : Z) : Prop := num x * d = n * den x.

(** The decimal is Precision * 10^-Scale (the ORC format). *)
Definition is_value (x : Z * Z) (d : decimal) : Prop :=
  if 0 <=? Scale d then is_rational x (Precision d) (10 ^ Scale d)
  else is_rational x (Precision d * 10 ^ (- Scale d)) 1.

(** Milliseconds since 1970-01-01 UTC of an instant in nanoseconds. *)
Definition milliseconds (instant : Z) : Z := instant / 1000000.

(** Timestamps as the API hands them out: whole seconds and the nanoseconds of the last
    one; zones up to a day from UTC. *)
Definition legal (t : timestamp) : Prop :=
  - 2 ^ 52 <= ts_seconds t <= 2 ^ 52 /\ 0 <= ts_nanos t < 1000000000 /\ - 86400 <= ts_loc t <= 86400.
