(** C107: durations in the log. *)
From Coq Require Import String List Bool ZArith Sorted.
From Verif Require Import GoStr Header Exchange Machine MachineSpec MachineRaces AttemptLog AttemptLogSpec AccessLog AccessLogCases Timing TimingSpec
  Elapsed ElapsedSpec ElapsedProofs ElapsedLines ElapsedCases.
Import ListNotations.
Local Open Scope Z_scope.

(** C107: along every timed run the lines of the earlier claims (C71, C99) are written, in the order of time. *)
Theorem C107_same_lines : forall k c lab x q xs L, 0 <= k_delay k -> durations k c lab x q xs = Some L ->
  attempt_part L = attempt_lines c (acts xs) /\
  exists ls, lexec c lab x q linit (acts xs) = Some ls /\ response_part L = ls_lines ls.
Proof. exact same_lines. Qed.
Print Assumptions C107_same_lines.

Theorem C107_every_run : forall k c lab x q xs ts, runs k c xs ts -> exists L, durations k c lab x q xs = Some L /\ StronglySorted Z.le (map fst L).
Proof. exact every_run. Qed.
Print Assumptions C107_every_run.

(** A line about an attempt tells how long its request has taken, and how long its attempt has, in whole microseconds. *)
Theorem C107_attempt : forall k c lab x q xs L t a up dwn, 0 <= k_delay k -> k_arrived k <= k_entered k -> durations k c lab x q xs = Some L ->
  In (t, EAttempt a up dwn) L ->
  lasted dwn (k_arrived k) t /\
  exists n, of_attempt c (S n) a /\ (al_message a = Initialized -> up = 0) /\ (al_message a <> Initialized -> attempt_lasted k c xs n up t).
Proof. exact line_of_attempt. Qed.
Print Assumptions C107_attempt.

(** The line about a response tells a duration of the request between those at its response and at the line, and the
    duration of the last attempt, if it tells of one. *)
Theorem C107_response : forall k c lab x q xs L t e dwn up, 0 <= k_delay k -> k_arrived k <= k_entered k -> durations k c lab x q xs = Some L ->
  In (t, EResponse e dwn up) L ->
  exists r ta, answered_at k c xs r ta /\ rp_status r = l_status e /\ ta <= t /\ ta - k_arrived k < 1000 * (dwn + 1) /\ 1000 * dwn <= t - k_arrived k /\
    (up = None <-> l_up e = None) /\
    (forall v w, up = Some v -> l_up e = Some w -> exists n, ue_count w = numbered c (S n) /\ attempt_lasted k c xs n v t).
Proof. exact line_of_response. Qed.
Print Assumptions C107_response.

(** Lines about timeouts: the timeout had passed, by the duration in the same line. *)
Theorem C107_timeouts : forall k c lab x q xs L t a up dwn, 0 <= k_delay k -> k_arrived k <= k_entered k -> durations k c lab x q xs = Some L ->
  In (t, EAttempt a up dwn) L ->
  (read_timeout_line a -> Z.max 0 (k_read k) < 1000 * (up + 1)) /\ (round_trip_line a -> Z.max 0 (k_round k) < 1000 * (dwn + 1)).
Proof. exact line_of_timeout. Qed.
Print Assumptions C107_timeouts.

Theorem C107_response_timeouts : forall k c lab x q xs L t e dwn up, 0 <= k_delay k -> k_arrived k <= k_entered k -> durations k c lab x q xs = Some L ->
  In (t, EResponse e dwn up) L ->
  (l_error e = Some round_trip_text -> Z.max 0 (k_round k) < 1000 * (dwn + 1)) /\
  (l_error e = Some read_timeout_text -> Z.max 0 (k_read k) < 1000 * (dwn + 1) /\ forall v, up = Some v -> Z.max 0 (k_read k) < 1000 * (v + 1)).
Proof. exact response_timeout. Qed.
Print Assumptions C107_response_timeouts.

(** No duration in the log exceeds its timeout by more than the delays of its steps. *)
Theorem C107_bounds : forall k c lab x q xs L t a up dwn, 0 <= k_delay k -> k_arrived k <= k_entered k -> durations k c lab x q xs = Some L ->
  In (t, EAttempt a up dwn) L ->
  0 <= up /\ 0 <= dwn /\
  1000 * dwn <= Z.max (k_entered k - k_arrived k) (Z.max 0 (k_round k)) + 24 * most c * k_delay k /\ 1000 * up <= Z.max 0 (k_read k) + 25 * k_delay k.
Proof. exact line_bounds. Qed.
Print Assumptions C107_bounds.

Theorem C107_response_bounds : forall k c lab x q xs L t e dwn up, 0 <= k_delay k -> k_arrived k <= k_entered k -> durations k c lab x q xs = Some L ->
  In (t, EResponse e dwn up) L ->
  0 <= dwn /\ 1000 * dwn <= Z.max (k_entered k - k_arrived k) (Z.max 0 (k_round k)) + 24 * most c * k_delay k /\
  forall v, up = Some v -> 0 <= v /\ 1000 * v <= Z.max 0 (k_read k) + 25 * k_delay k.
Proof. exact response_bounds. Qed.
Print Assumptions C107_response_bounds.

(** In lines about attempts no attempt lasts longer than its request ... *)
Theorem C107_within_partial : forall k c lab x q xs L t a up dwn, 0 <= k_delay k -> k_arrived k <= k_entered k -> durations k c lab x q xs = Some L ->
  In (t, EAttempt a up dwn) L -> up <= dwn.
Proof. exact attempt_within. Qed.
Print Assumptions C107_within_partial.

(** ... but in the line about a response one may. *)
Theorem C107_within_refuted : exists k c lab x q xs L t e up dwn, k_arrived k <= k_entered k /\ 0 <= k_delay k /\ 0 < k_round k /\ 0 < k_read k /\ c_ok c = true /\
  durations k c lab x q xs = Some L /\ In (t, EResponse e dwn (Some up)) L /\ dwn < up.
Proof. exact longer_than_request. Qed.
Print Assumptions C107_within_refuted.

(** The first of two attempts is not answered in time; lines of both timeouts. *)
Example C107_case : told clock1 slow1 = Some slow_lines /\
  last_line (told clock1 silent1) = Some (16003500, inr (504, Some read_timeout_text), None, 16003) /\
  last_line (told clock3 silent2) = Some (12001000, inr (504, Some round_trip_text), None, 12001).
Proof. exact (conj slow_told silent_told). Qed.
