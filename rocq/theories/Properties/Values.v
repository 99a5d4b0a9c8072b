(** C52, C53, C54: milliseconds of timestamps, the null check, decimals as floats. *)
From Verif.Model Require Import Go Time Decimal Schema.
From Verif.Spec Require Import SchemaSpec ValueSpec.
From Verif.Proofs Require Import Base TimeP SchemaP ValueP.

(** ** C52: the milliseconds of a timestamp are those of its instant *)
(** What GetMilliSeconds returns: the base is subtracted instead of added, and
    nanoseconds are divided by a thousand. *)
Theorem C52_GetMilliSeconds_partial : forall t, legal t ->
  GetMilliSeconds t = milliseconds (Time t) - 2000 * (1420070400 - ts_loc t) + (ts_nanos t / 1000 - ts_nanos t / 1000000).
Proof. exact GetMilliSeconds_value. Qed.
Print Assumptions C52_GetMilliSeconds_partial.

(** It is wrong for every timestamp. *)
Theorem C52_GetMilliSeconds_refuted : forall t, legal t -> GetMilliSeconds t <> milliseconds (Time t).
Proof. intros t H E. pose proof (GetMilliSeconds_wrong t H). lia. Qed.
Print Assumptions C52_GetMilliSeconds_refuted.

(** GetMilliSecondsUtc adds seconds to a number meant as milliseconds; it is right only
    on an arithmetical coincidence some weeks into 1970. *)
Theorem C52_GetMilliSecondsUtc_partial : forall t, legal t ->
  GetMilliSecondsUtc t = 1420070400 + Unix (Time t) + ts_nanos t / 1000 /\
  (GetMilliSecondsUtc t = milliseconds (Time t) <->
   999 * Unix (Time t) = 1420070400 + ts_nanos t / 1000 - ts_nanos t / 1000000).
Proof. intros t H. split; [exact (GetMilliSecondsUtc_value t H)|exact (GetMilliSecondsUtc_exact t H)]. Qed.
Print Assumptions C52_GetMilliSecondsUtc_partial.

(** Neither keeps the order of instants. *)
Theorem C52_order_refuted : exists t u, legal t /\ legal u /\ ts_loc t = ts_loc u /\ Time t < Time u /\
  GetMilliSeconds u < GetMilliSeconds t /\ GetMilliSecondsUtc u < GetMilliSecondsUtc t.
Proof.
  exists {| ts_loc := 0; ts_seconds := 0; ts_nanos := 999999000 |}, {| ts_loc := 0; ts_seconds := 1; ts_nanos := 0 |}.
  unfold legal. vm_compute. repeat split; discriminate || reflexivity.
Qed.
Print Assumptions C52_order_refuted.

Example C52_case : let t := {| ts_loc := 3600; ts_seconds := 86400; ts_nanos := 123456789 |} in
  legal t /\ milliseconds (Time t) = 1420153200123 /\ GetMilliSeconds t = - 1419980276544 /\ GetMilliSecondsUtc t = 2840347056.
Proof. unfold legal. vm_compute. repeat split; discriminate || reflexivity. Qed.

(** ** C53: CheckNulls reports every nullable column below a nullable column *)
Theorem C53_CheckNulls_partial : forall t, no_union t ->
  (CheckNulls t = Err <->
   td_hasNulls t = true /\ exists p s, p <> [] /\ at_path t p = Some s /\ td_hasNulls s = true).
Proof. exact CheckNulls_spec. Qed.
Print Assumptions C53_CheckNulls_partial.

(** Below a root that is not nullable nothing is checked. *)
Definition nested_nulls : td :=
  Td 0 STRUCT [[97]] 0 false [Td 1 STRUCT [[98]] 0 true [Td 2 INT [] 0 true []]].
Theorem C53_refuted : exists t r c, no_union t /\ Column t r /\ td_hasNulls r = true /\
  In c (td_children r) /\ td_hasNulls c = true /\ CheckNulls t = Ok tt.
Proof.
  exists nested_nulls, (Td 1 STRUCT [[98]] 0 true [Td 2 INT [] 0 true []]), (Td 2 INT [] 0 true []).
  split; [apply hasUnion_spec; reflexivity|]. split; [exists [0%nat]; reflexivity|]. cbn. auto 10.
Qed.
Print Assumptions C53_refuted.

Example C53_case : let t := Td 0 STRUCT [[97]] 0 true [Td 1 STRUCT [[98]] 0 false [Td 2 INT [] 0 true []]] in
  no_union t /\ CheckNulls t = Err /\ at_path t [0%nat; 0%nat] = Some (Td 2 INT [] 0 true []).
Proof. split; [apply hasUnion_spec; reflexivity|split; reflexivity]. Qed.

(** ** C54: the float64 of a decimal is its value *)
(** With scale 0 it is. *)
Theorem C54_scale_zero : forall p, Z.abs p < 2 ^ 53 ->
  is_value (Float64 {| Precision := p; Scale := 0 |}) {| Precision := p; Scale := 0 |}.
Proof. exact Float64_zero_scale. Qed.
Print Assumptions C54_scale_zero.

(** With a positive scale the result is ten times the scale times the digits. *)
Theorem C54_positive_partial : forall p s, 0 < s -> Z.abs p < 2 ^ 53 -> Z.abs (p * (10 * s)) < 2 ^ 53 -> 10 * s < 2 ^ 53 ->
  is_rational (Float64 {| Precision := p; Scale := s |}) (p * (10 * s)) 1.
Proof. exact Float64_positive. Qed.
Print Assumptions C54_positive_partial.

(** With a negative one it has the opposite sign (or is 0). *)
Theorem C54_negative_partial : forall p s, - 2 ^ 49 < s < 0 -> Z.abs p < 2 ^ 53 ->
  let x := Float64 {| Precision := p; Scale := s |} in num x = 0 \/ Z.sgn (num x) = - Z.sgn p.
Proof. exact Float64_negative. Qed.
Print Assumptions C54_negative_partial.

(** No decimal but zero with a scale is converted to its value; nor would it be if the
    scale were meant to multiply. *)
Theorem C54_refuted : forall p s, p <> 0 -> s <> 0 ->
  Z.abs p < 2 ^ 53 -> Z.abs (p * (10 * s)) < 2 ^ 53 -> - 2 ^ 49 < s < 2 ^ 49 ->
  ~ is_value (Float64 {| Precision := p; Scale := s |}) {| Precision := p; Scale := s |}.
Proof. exact Float64_wrong. Qed.
Print Assumptions C54_refuted.

Theorem C54_power_refuted : forall p s, p <> 0 -> 2 <= s ->
  Z.abs p < 2 ^ 53 -> Z.abs (p * (10 * s)) < 2 ^ 53 -> 10 * s < 2 ^ 53 ->
  ~ is_rational (Float64 {| Precision := p; Scale := s |}) (p * 10 ^ s) 1.
Proof. exact Float64_not_power. Qed.
Print Assumptions C54_power_refuted.

(** 12.34 becomes 24680; 5 * 10^2 becomes -1/4. *)
Example C54_case :
  is_rational (Float64 {| Precision := 1234; Scale := 2 |}) 24680 1 /\
  is_rational (Float64 {| Precision := 5; Scale := -2 |}) (-1) 4.
Proof. split; vm_compute; reflexivity. Qed.
