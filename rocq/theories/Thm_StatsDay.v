(** Growth of memory over a day (C131). *)
From Coq Require Import List Bool ZArith.
From Verif Require Import Stats StatsSpec StatsDay StatsDaySpec StatsDayProofs.
Import ListNotations.

(** C131: if reports follow each other at least as closely as samples do, then growth is told in some report
    exactly if a sample is at least twice one of at most 23 hours before it. *)
Theorem C131_exactly_partial : forall p first kept reports, (0 <= p)%Z -> more_apart p (map fst kept) -> at_most_apart p reports ->
  Forall sound_sample (first :: map snd kept) ->
  (forall r a, hd_error reports = Some r -> hd_error (map fst kept) = Some a -> (r <= a + p)%Z) ->
  (forall a, In a (map fst kept) -> exists r, In r reports /\ (a < r)%Z) ->
  ((exists r, In r reports /\ message_at first kept r = true) <->
   exists i j, doubles (first :: map snd kept) i j /\ over (first :: map snd kept) i).
Proof. exact told_exactly. Qed.
Print Assumptions C131_exactly_partial.

(** Nothing else is ever told, whenever a report is made. *)
Theorem C131_only : forall p first kept r, (0 <= p)%Z -> more_apart p (map fst kept) -> Forall sound_sample (first :: map snd kept) ->
  message_at first kept r = true -> exists i j, doubles (first :: map snd kept) i j /\ over (first :: map snd kept) i.
Proof. exact told_so. Qed.
Print Assumptions C131_only.

(** What one report tells of the samples so far *)
Theorem C131_report : forall first ks, Forall sound_sample (first :: ks) ->
  (snd (log_samples (history first ks)) = true <->
   exists j s u, length ks - 23 <= j /\ nth_error (first :: ks) (length ks - 23) = Some s /\ nth_error (first :: ks) j = Some u /\ doubled s u).
Proof. exact message_says. Qed.
Print Assumptions C131_report.

(** The message speaks of the previous day: doubling in 24 hours is not told, ... *)
Theorem C131_day_refuted : exists first kept u, more_apart 3600 (map fst kept) /\ Forall sound_sample (first :: map snd kept) /\
  nth_error (first :: map snd kept) 24 = Some u /\ doubled first u /\ forall r, message_at first kept r = false.
Proof. exact slow_untold. Qed.
Print Assumptions C131_day_refuted.

(** ... and an increase is told while there is less memory in use than at the beginning of the day. *)
Theorem C131_fallen_refuted : exists first kept r u, more_apart 3600 (map fst kept) /\ Forall sound_sample (first :: map snd kept) /\
  last (history_at first kept r) first = u /\ hd_error (history_at first kept r) = Some first /\ (s_rss u < s_rss first)%Z /\
  message_at first kept r = true.
Proof. exact fallen_told. Qed.
Print Assumptions C131_fallen_refuted.

(** 300 megabytes in the first hour, half of it for two days, then as much again: samples every 3602 seconds and
    reports every 3600 *)
Example C131_case : let kept := hourly (map mega (300 :: repeat 150 30 ++ repeat 300 30)%Z) in
  let reports := map (fun k => 3600 * Z.of_nat k)%Z (seq 1 61) in
  more_apart 3600 (map fst kept) /\ at_most_apart 3600 reports /\ Forall sound_sample (Sample 1 (mega 290) 0 :: map snd kept) /\
  existsb (message_at (Sample 1 (mega 290) 0) kept) reports = true /\ message_at (Sample 1 (mega 290) 0) kept 108000 = false.
Proof.
  cbv zeta. split; [vm_compute; repeat split; reflexivity|]. split; [vm_compute; repeat split; discriminate|].
  split; [apply sound_all; vm_compute; reflexivity|]. split; vm_compute; reflexivity.
Qed.
