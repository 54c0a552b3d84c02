(** Process statistics (C57, C58, C66). *)
From Coq Require Import List Bool ZArith.
From Coq Require Import Floats.SpecFloat.
From Verif Require Import Stats StatsSpec StatsFloat StatsProofs.
Import ListNotations.

(** C57: the history is the last 24 of the first sample, 24 times, and all later ones ... *)
Theorem C57_recent : forall first later, history first later = last_of 24 (repeat first 24 ++ later).
Proof. exact history_recent. Qed.
Print Assumptions C57_recent.

(** ... and so from any other beginning. *)
Theorem C57_any : forall h later, length h <= 24 ->
  fold_left append_sample later h = last_of 24 (h ++ later) /\ length (fold_left append_sample later h) <= 24.
Proof. exact history_any. Qed.
Print Assumptions C57_any.

Example C57_case : map s_rss (history (Sample 1 7 0) (map (fun x => Sample 1 (Z.of_nat x) 1) (seq 100 22))) =
  (7 :: 7 :: map Z.of_nat (seq 100 22))%Z.
Proof. vm_compute. reflexivity. Qed.

(** C58: below 2^53 bytes exactly the samples of at least twice the oldest size are flagged, ... *)
Theorem C58_exact_partial : forall o h i s, present (o :: h) -> nth_error (o :: h) i = Some s -> (0 <= s_rss s < 2 ^ 53)%Z -> (0 < s_rss o < 2 ^ 53)%Z ->
  exists g, nth_error (fst (log_samples (o :: h))) i = Some g /\ (g_high g = true <-> doubled o s).
Proof. exact flagged_iff. Qed.
Print Assumptions C58_exact_partial.

(** ... above none of those is missed ... *)
Theorem C58_none_missed_partial : forall o h i s, present (o :: h) -> nth_error (o :: h) i = Some s -> uint64 (s_rss s) -> (0 < s_rss o)%Z -> doubled o s ->
  exists g, nth_error (fst (log_samples (o :: h))) i = Some g /\ g_high g = true.
Proof. exact doubled_flagged. Qed.
Print Assumptions C58_none_missed_partial.

(** ... but others may be flagged by rounding, ... *)
Theorem C58_rounding_refuted : exists o s h, present [o; s] /\ uint64 (s_rss o) /\ uint64 (s_rss s) /\ (0 < s_rss o)%Z /\ fst (log_samples [o; s]) = h /\
  map g_high h = [false; true] /\ ~ doubled o s.
Proof. exact huge_refuted. Qed.
Print Assumptions C58_rounding_refuted.

(** ... and nothing is twice zero. *)
Theorem C58_zero_refuted : exists o s h, present [o; s] /\ uint64 (s_rss o) /\ uint64 (s_rss s) /\ fst (log_samples [o; s]) = h /\
  map g_high h = [false; false] /\ doubled o s.
Proof. exact zero_refuted. Qed.
Print Assumptions C58_zero_refuted.

(** A missing sample means that nothing is flagged. *)
Theorem C58_absent : forall h, ~ present h -> fst (log_samples h) = map (fun _ => no_growth) h /\ snd (log_samples h) = false.
Proof. exact absent_unflagged. Qed.
Print Assumptions C58_absent.

(** The message is logged if something is flagged. *)
Theorem C58_message : forall h, snd (log_samples h) = true <-> exists g, In g (fst (log_samples h)) /\ g_high g = true.
Proof. exact message_iff. Qed.
Print Assumptions C58_message.

Example C58_case : map g_high (fst (log_samples (map (fun r => Sample 1 r 0) [1000; 1999; 2000; 900; 5000]%Z))) = [false; false; true; false; true].
Proof. vm_compute. reflexivity. Qed.

(** C66: appending a sample in the middle of a report can crash the process. *)
Theorem C66_refuted : exists s ts, s_pid s <> 0%Z /\ (forall t, In t ts -> t = TAppend s \/ t = TLog) /\ crashed (run (boot s) ts).
Proof. exact crash_refuted. Qed.
Print Assumptions C66_refuted.

(** Otherwise it does not, and reports are those of the history. *)
Theorem C66_whole_partial : forall s ts, reports_whole (boot s) ts -> ~ crashed (run (boot s) ts) /\
  forall n rates, w_log (run (boot s) ts) = LDone n rates -> reported n rates = fst (log_samples (w_hist (run (boot s) ts))).
Proof. exact whole_right. Qed.
Print Assumptions C66_whole_partial.

Theorem C66_appends : forall h s, length h = 24 ->
  run (World h AIdle LIdle) [TAppend s; TAppend s; TAppend s; TAppend s] = World (append_sample h s) AIdle LIdle.
Proof. exact append_turns. Qed.
Print Assumptions C66_appends.

Example C66_case : let s := Sample 1 5 0 in let t := Sample 1 11 1 in
  let ts := ([TAppend t; TAppend t; TAppend t; TAppend t] ++ repeat TLog 53)%list in
  reports_whole (boot s) ts /\
  match w_log (run (boot s) ts) with LDone n rates => map g_high (reported n rates) = (repeat false 23 ++ [true])%list | _ => False end.
Proof. cbv zeta. split; [vm_compute; repeat split|]. vm_compute. reflexivity. Qed.
