(** Concrete cases for C138. *)
From Coq Require Import String Ascii List Bool ZArith NArith QArith.
From Coq Require Import Floats.SpecFloat.
From Verif Require Import GoStr Stats StatsSpec Startup StartupCases LogText LogTextSpec LogTextCases SelfReport SelfReportSpec SelfReportProofs.
Import ListNotations.
Local Open Scope string_scope.

(** A host where nothing is set, and one where LOGLEVEL is Debug *)
Definition silent_host : host := host0 "" "" "".
Definition chatty_host : host := host0 "" "LOGLEVEL" "Debug".

(** An eighth of a percent of a core, and three eighths of a percent of the memory *)
Definition busy : measure := Measure 4711 (S754_finite false 1 (-3)) (S754_finite false 3 (-3)) 24117248 741343232 0.

Definition twice_as_much : list sample := map (fun r => Sample 4711 r 0) [12058624; 24117248]%Z.

Lemma hidden : exists h hist, h_env h "LOGLEVEL" = "" /\ present hist /\ snd (log_samples hist) = true /\
  forall time, (forall m, sample_output h time m = "") /\ (forall hist, growth_output h time hist = "") /\ (forall start now, uptime_output h time start now = "").
Proof.
  exists silent_host, twice_as_much. split; [reflexivity|]. split; [intros s [<-|[<-|[]]]; discriminate|]. split; [vm_compute; reflexivity|].
  intros time. apply unasked. unfold asked_for_debug. intros [H|[H|[]]]; discriminate H.
Qed.

Lemma busy_said : asked_for_debug chatty_host /\ value_of (me_cpu busy) <> None /\ value_of (me_mem busy) <> None /\
  v_fields (sample_event busy) = [("pid", VInt 4711); ("cpuCorePct", VStr "0.12"); ("memPct", VStr "0.38"); ("rssBytes", VInt 24117248); ("vmsBytes", VInt 741343232); ("swapBytes", VInt 0)].
Proof. split; [now left|]. split; [discriminate|]. split; [discriminate|]. vm_compute. reflexivity. Qed.
