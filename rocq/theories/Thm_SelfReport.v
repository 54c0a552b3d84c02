(** What the process tells of itself (C138). *)
From Coq Require Import String Ascii List Bool ZArith NArith QArith.
From Coq Require Import Floats.SpecFloat.
From Verif Require Import GoStr Stats StatsSpec CertText Startup LogText LogTextSpec LogTextCases SelfReport SelfReportSpec SelfReportProofs SelfReportCases.
Import ListNotations.
Local Open Scope string_scope.

(** C138: numbers are told as the nearest ones with so many decimals, ... *)
Theorem C138_nearest : forall p x, p <> O -> value_of x <> None -> rounded p x (fixed_text p x).
Proof. exact fixed_rounded. Qed.
Print Assumptions C138_nearest.

(** ... so that larger ones never look smaller, ... *)
Theorem C138_order : forall p x y v w a b, p <> O -> value_of x = Some v -> value_of y = Some w -> (v <= w)%Q ->
  decimal p (fixed_text p x) a -> decimal p (fixed_text p y) b -> (a <= b)%Z.
Proof. exact fixed_order. Qed.
Print Assumptions C138_order.

(** ... and what is no number does not look like one. *)
Theorem C138_unreal : forall p x n, value_of x = None -> ~ decimal p (fixed_text p x) n.
Proof. exact fixed_unreal. Qed.
Print Assumptions C138_unreal.

(** At level debug each sample gives a line that says what was measured, ... *)
Theorem C138_sample_partial : forall h time m, asked_for_debug h -> time_text time -> value_of (me_cpu m) <> None -> value_of (me_mem m) <> None ->
  exists ms, read_line (sample_output h time m) = Some ms /\ NoDup (map fst ms) /\
    reads ms "time" (VStr time) /\ reads ms "message" (VStr "server performance") /\ reads ms "pid" (VInt (me_pid m)) /\
    shares ms "cpuCorePct" (me_cpu m) /\ shares ms "memPct" (me_mem m) /\
    reads ms "rssBytes" (VInt (me_rss m)) /\ reads ms "vmsBytes" (VInt (me_vms m)) /\ reads ms "swapBytes" (VInt (me_swap m)).
Proof. exact sample_asked. Qed.
Print Assumptions C138_sample_partial.

(** ... growth gives one that gives the period and the factor, ... *)
Theorem C138_growth_partial : forall h time hist, asked_for_debug h -> time_text time ->
  if snd (log_samples hist)
  then exists ms, read_line (growth_output h time hist) = Some ms /\ NoDup (map fst ms) /\ reads ms "time" (VStr time) /\
    reads ms "message" (VStr "RSS memory increase for previous 1 day with high factor >=2.0, monitor actively.")
  else growth_output h time hist = "".
Proof. exact growth_read. Qed.
Print Assumptions C138_growth_partial.

(** ... and the uptime is told in microseconds and in words. *)
Theorem C138_uptime_partial : forall h time start now, asked_for_debug h -> time_text time ->
  match uptime_line start now with
  | Some (micros, text) =>
      exists ms, read_line (uptime_output h time start now) = Some ms /\ reads ms "time" (VStr time) /\ reads ms "uptimeMicros" (VInt micros) /\ says ms "message" (VStr text)
  | None => uptime_output h time start now = ""
  end.
Proof. exact uptime_read. Qed.
Print Assumptions C138_uptime_partial.

(** At other levels nothing is told, ... *)
Theorem C138_quiet : forall h time, ~ asked_for_debug h ->
  (forall m, sample_output h time m = "") /\ (forall hist, growth_output h time hist = "") /\ (forall start now, uptime_output h time start now = "").
Proof. exact unasked. Qed.
Print Assumptions C138_quiet.

(** ... the level that is used if none is given among them, although the memory in use has doubled. *)
Theorem C138_told_refuted : exists h hist, h_env h "LOGLEVEL" = "" /\ present hist /\ snd (log_samples hist) = true /\
  forall time, (forall m, sample_output h time m = "") /\ (forall hist, growth_output h time hist = "") /\ (forall start now, uptime_output h time start now = "").
Proof. exact hidden. Qed.
Print Assumptions C138_told_refuted.

(** Both shares are half way between two hundredths. *)
Example C138_case : asked_for_debug chatty_host /\ time_text stamp /\ value_of (me_cpu busy) <> None /\ value_of (me_mem busy) <> None /\
  v_fields (sample_event busy) = [("pid", VInt 4711); ("cpuCorePct", VStr "0.12"); ("memPct", VStr "0.38"); ("rssBytes", VInt 24117248); ("vmsBytes", VInt 741343232); ("swapBytes", VInt 0)] /\
  snd (log_samples twice_as_much) = true /\ (exists l, uptime_line 0 90000000000 = Some l) /\ ~ asked_for_debug silent_host.
Proof.
  destruct busy_said as (A & B & C & D). split; [exact A|]. split; [exact stamp_fine|]. split; [exact B|]. split; [exact C|]. split; [exact D|].
  split; [vm_compute; reflexivity|]. split; [now eexists|]. intros [H|[H|[]]]; discriminate H.
Qed.
