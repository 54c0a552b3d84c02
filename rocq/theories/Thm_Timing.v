(** How long requests take (C104 to C106).

    A timed run is a list [xs] of labels with [runs k c xs ts]: any interleaving of the handler, the goroutines of all
    attempts and the timers, with the time that passes in between.  [k_delay k] is how long the handler may take for
    a step it can make, and how long a timer may fire late. *)
From Coq Require Import String Ascii List Bool ZArith NArith.
From Verif Require Import GoStr NumberSpec Header Exchange ExchangeProofs Startup StartupSpec Machine MachineSpec MachineRaces Config Jwt JwtSpec
  SystemSpec Handler HandlerSpec Decode DecodeSpec DecodeCases StartupCases Timing TimingSpec TimingProofs TimingMore TimingEarly TimingLive TimingSystem.
Import ListNotations.
Local Open Scope string_scope.
Local Open Scope Z_scope.

(** C104: a request is over when its round trip timeout is, apart from delays, whatever upstream servers do ... *)
Theorem C104_round_trip : forall k c xs ts, 0 <= k_delay k -> runs k c xs ts ->
  Z.max (k_entered k) (k_arrived k + Z.max 0 (k_round k)) + 24 * most c * k_delay k < t_now ts -> finished (t_st ts).
Proof. exact over_in_time. Qed.
Print Assumptions C104_round_trip.

(** ... and when the read timeouts of all attempts permitted are. *)
Theorem C104_attempts : forall k c xs ts, 0 <= k_delay k -> runs k c xs ts ->
  k_entered k + most c * (Z.max 0 (k_read k) + 25 * k_delay k) < t_now ts -> finished (t_st ts).
Proof. exact over_in_attempts. Qed.
Print Assumptions C104_attempts.

(** Timed runs are runs, and from each of them time can go on, so the two statements above are about something. *)
Theorem C104_runs : forall k c xs ts, 0 <= k_delay k -> runs k c xs ts -> exec c init (acts xs) = Some (t_st ts).
Proof. exact timed_runs. Qed.
Print Assumptions C104_runs.

Theorem C104_time_passes : forall k c xs ts t, 0 <= k_delay k -> runs k c xs ts -> exists ys ts', texec k c ts ys = Some ts' /\ t <= t_now ts'.
Proof. exact time_passes. Qed.
Print Assumptions C104_time_passes.

(** Ten units for the request, four for an attempt: the second attempt is answered; no attempt is answered.
    The time of the second case is the bound without delays. *)
Example C104_case : shown clock0 slow = Some (7, [201]) /\ shown clock0 silent = Some (11, [504]) /\
  (exists ts, runs clock0 (gets 2) slow ts) /\ k_arrived clock0 + Z.max 0 (k_round clock0) = 10.
Proof. split; [vm_compute; reflexivity|]. split; [vm_compute; reflexivity|]. split; [apply shown_runs; vm_compute; discriminate|reflexivity]. Qed.

(** C105: no gateway timeout is sent before a timeout is over ... *)
Theorem C105_never_early : forall k c xs r t, 0 <= k_delay k -> answered_at k c xs r t -> rp_status r = 504 ->
  k_arrived k + Z.max 0 (k_round k) <= t \/ exists i u, sent_at k c xs i u /\ u + Z.max 0 (k_read k) <= t.
Proof. exact never_early. Qed.
Print Assumptions C105_never_early.

(** ... and if none is over, the response is the answer to the last attempt, all others having failed, or 502 if that
    failed as well and no more are permitted. *)
Theorem C105_in_time : forall k c xs ts r t, 0 <= k_delay k -> runs k c xs ts -> answered_at k c xs r t ->
  t < k_arrived k + Z.max 0 (k_round k) -> (forall i u, sent_at k c xs i u -> t < u + Z.max 0 (k_read k)) ->
  let n := Nat.pred (List.length (s_sent (t_st ts))) in
  (forall i, (i < n)%nat -> failed_attempt (acts xs) i) /\
  ((exists dice rs body, answered (acts xs) n rs /\ In (LRead n body true) (acts xs) /\ ur_status rs < 500 /\
      r = proxied (c_env c) dice (Machine.c_down c) rs body) \/
   (exists dice, failed_attempt (acts xs) n /\ exhausted c (t_st ts) /\ r = gave_up_error c dice)).
Proof. exact answers_in_time. Qed.
Print Assumptions C105_in_time.

Example C105_case :
  (exists ts r, runs clock0 (gets 2) quick ts /\ answered_at clock0 (gets 2) quick r 4 /\ rp_status r = 201 /\ sent_at clock0 (gets 2) quick 1 3 /\
     4 < k_arrived clock0 + Z.max 0 (k_round clock0) /\ forall i u, sent_at clock0 (gets 2) quick i u -> 4 < u + Z.max 0 (k_read clock0)) /\
  (exists r, answered_at clock0 (gets 2) silent r 11 /\ rp_status r = 504).
Proof. split; [exact quick_run|exact silent_run]. Qed.

(** C106: all this for the timeouts and the number of attempts in the document a process was started with, as long as
    the seconds fit into a duration ... *)
Theorem C106_document_partial : forall p h t float yaml d c z n y m w a e dl xs ts, written_in p h float yaml d -> StartupSpec.serves p h t ->
  t_serve t = Upstream c -> sized (t_req t) ->
  number_at (down "roundTripTimeoutSeconds") d z -> StartupSpec.fits z -> lasts z 240 n ->
  number_at (up "readTimeoutSeconds") d y -> StartupSpec.fits y -> lasts y 120 m ->
  number_at (up "maxAttempts") d w -> 0 <= dl -> runs (clock_in t a e dl) c xs ts ->
  (Z.max e (a + Z.max 0 n) + 24 * Z.max 1 w * dl < t_now ts \/ e + Z.max 1 w * (Z.max 0 m + 25 * dl) < t_now ts -> finished (t_st ts)) /\
  (forall r u, answered_at (clock_in t a e dl) c xs r u -> rp_status r = 504 ->
     a + Z.max 0 n <= u \/ exists i v, sent_at (clock_in t a e dl) c xs i v /\ v + Z.max 0 m <= u).
Proof. exact document_in_time. Qed.
Print Assumptions C106_document_partial.

(** ... but with more, requests time out at once. *)
Theorem C106_refuted : exists dn u c xs r, d_roundtrip_timeout dn = 9223372037 /\ up_read_timeout u = 120 /\
  answered_at (clock_of dn u 0 0 1) c xs r 0 /\ rp_status r = 504.
Proof. exact endless_at_once. Qed.
Print Assumptions C106_refuted.

Example C106_case : number_at (down "roundTripTimeoutSeconds") good 0 /\ lasts 0 240 240000000000 /\ number_at (up "readTimeoutSeconds") good 0 /\
  lasts 0 120 120000000000 /\ number_at (up "maxAttempts") good 3 /\ StartupSpec.serves land (host0 "good" "VERSION" "v1") member_of_good /\
  clock_in member_of_good 0 0 1 = Clock 0 0 240000000000 120000000000 1.
Proof. exact good_clock. Qed.
