(** C35, C36: dates as day counts, timestamps as seconds and nanoseconds. *)
From Verif.Model Require Import Go Time.
From Verif.Proofs Require Import Base TimeP RoundP.

(** ** C35 *)
(** The day [n] days after 1970-01-01 (its midnight UTC) is what FromDays gives, and
    ToDays, which divides floating point hours by 24, returns exactly [n]. *)
Theorem C35_dates_exact : forall n, -106751 <= n <= 106751 ->
  FromDays n = n * (24 * 3600 * 1000000000) /\ ToDays (n * (24 * 3600 * 1000000000)) = n.
Proof. intros n H. split; [apply FromDays_exact|apply ToDays_midnight]; lia. Qed.
Print Assumptions C35_dates_exact.

Theorem C35_dates_survive : forall n, -106751 <= n <= 106751 -> ToDays (FromDays n) = n.
Proof. intros n H. apply days_round_trip. lia. Qed.
Print Assumptions C35_dates_survive.

Theorem C35_days_distinct : forall n m, -106751 <= n <= 106751 -> -106751 <= m <= 106751 ->
  FromDays n = FromDays m -> n = m.
Proof. intros n m Hn Hm H. rewrite !FromDays_exact in H by lia. lia. Qed.
Print Assumptions C35_days_distinct.

(** The range cannot be extended on either side: the next date is another day already
    in memory. *)
Theorem C35_range_is_maximal :
  ToDays (FromDays 106752) <> 106752 /\ ToDays (FromDays (-106752)) <> -106752 /\
  ToDays (106752 * (24 * 3600 * 1000000000)) = 106751.
Proof. vm_compute. repeat split; discriminate. Qed.
Print Assumptions C35_range_is_maximal.

Example C35_case : ToDays (FromDays (-719528 + 700000)) = -19528 /\ ToDays (FromDays 20774) = 20774.
Proof. vm_compute. split; reflexivity. Qed.

(** The model's float64 arithmetic rounds as IEEE 754 says: the result m*2^e has 53 bits, is
    nearest to n/d, and even if two are. *)
Theorem C35_rounds_to_nearest : forall n d m e, 0 < n -> 0 < d -> roundPos n d = (m, e) ->
  2 ^ 52 <= m <= 2 ^ 53 /\
  2 * Z.abs (m * 2 ^ Z.max e 0 * d - n * 2 ^ Z.max (- e) 0) <= 2 ^ Z.max e 0 * d /\
  (2 * Z.abs (m * 2 ^ Z.max e 0 * d - n * 2 ^ Z.max (- e) 0) = 2 ^ Z.max e 0 * d -> Z.even m = true).
Proof. exact roundPos_nearest. Qed.
Print Assumptions C35_rounds_to_nearest.
Example C35_rounds_ex : roundPos 1 24 = (6004799503160661, -57) /\ roundPos (2 ^ 54 + 2) 1 = (2 ^ 52, 2) /\ roundPos (2 ^ 54 + 6) 1 = (2 ^ 52 + 2, 2).
Proof. vm_compute. repeat split. Qed.

(** A Date that is not a midnight is not always stored as the day it lies in: an
    instant before 1970 moves to the next day, and so does the last nanosecond of a day
    far from 1970. *)
Theorem C35_time_of_day_lost : exists t t',
  ToDays t = t / (24 * 3600 * 1000000000) + 1 /\ 0 <= t' /\ ToDays t' = t' / (24 * 3600 * 1000000000) + 1.
Proof. exists (-1), (106000 * (24 * 3600 * 1000000000) + 86399999999999). vm_compute. repeat split; discriminate. Qed.
Print Assumptions C35_time_of_day_lost.

(** ** C36 *)
(** The instant that comes back is off by the zone's offset, so it is the same exactly
    for zones that were at offset 0 on 2015-01-01. *)
Theorem C36_instant_exact_partial : forall offset t, is_i64 (t / 1000000000 - 1420070400) ->
  Time (GetTimestamp offset t) = t - offset * 1000000000 /\
  (Time (GetTimestamp offset t) = t <-> offset = 0).
Proof. intros offset t H. rewrite GetTimestamp_Time by assumption. split; [reflexivity|lia]. Qed.
Print Assumptions C36_instant_exact_partial.

(** An instant of 2021 in a zone one hour east of Greenwich. *)
Theorem C36_instant_survives_refuted : exists offset t, is_i64 (t / 1000000000 - 1420070400) /\
  Time (GetTimestamp offset t) <> t.
Proof. exists 3600, 1612345678123456789. vm_compute. repeat split; discriminate. Qed.
Print Assumptions C36_instant_survives_refuted.

Example C36_case : Time (GetTimestamp 0 1612345678123456789) = 1612345678123456789 /\
  Time (GetTimestamp (-18000) (-1)) = 17999999999999.
Proof. vm_compute. split; reflexivity. Qed.
