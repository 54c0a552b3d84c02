(** C134: looking for addresses in several goroutines at once. *)
From Coq Require Import String List.
From Verif Require Import Iprex IprexShared IprexSharedSpec IprexSharedProofs IprexSharedCases.
Import ListNotations.
Local Open Scope string_scope.

(** The claim: however many requests look for the address of their client at the same time, each finds the one in its
    own text, none of them panics, each ends, and no two goroutines access the shared patterns with one of them writing
    and nothing ordering them. *)

(** Whatever the order of their accesses, a call that has ended has what a call alone would have found. *)
Theorem C134_alone : forall ms s i c a, searched ms s -> nth_error (fi_calls s) i = Some c -> ca_at c = Returned a -> a = extract_addr (ca_msg c).
Proof. exact found_alone. Qed.
Print Assumptions C134_alone.

(** No call uses a pattern that is not there yet. *)
Theorem C134_whole : forall ms s i c, searched ms s -> nth_error (fi_calls s) i = Some c -> ca_at c <> Crashed.
Proof. exact never_crashed. Qed.
Print Assumptions C134_whole.

(** A call makes at most twelve accesses, and until it has ended it can make the next, whatever the others do. *)
Theorem C134_ends : forall ms s i c, searched ms s -> nth_error (fi_calls s) i = Some c ->
  turns i ms <= 12 /\ ((exists a, ca_at c = Returned a) \/ exists s', searched (ms ++ [Goes i]) s').
Proof. exact call_ends. Qed.
Print Assumptions C134_ends.

(** What holds of the last part: once all patterns are there and nobody is about to set one, there is no race any more. *)
Theorem C134_settled_partial : forall ms s ms' s', searched ms s -> (forall x, get_slot x (fi_patterns s) <> None) -> (forall i x, ~ about_to_write s i x) ->
  searched (ms ++ ms') s' -> ~ racing s'.
Proof. exact settled. Qed.
Print Assumptions C134_settled_partial.

(** The last part is false: the first requests race for the patterns. *)
Theorem C134_refuted : exists ms s, searched ms s /\ racing s.
Proof. exact races. Qed.
Print Assumptions C134_refuted.

(** Two clients at once, both compiling the same patterns, each with its own address in the end. *)
Example C134_case : exists s, searched two_clients s /\
  map ca_at (fi_calls s) = [Returned "192.0.2.7"; Returned "2001:db8::1"].
Proof. exact two_found. Qed.
(** Behind the first request alone, everything is settled. *)
Example C134_settled_case : exists s, searched one_client s /\ (forall x, get_slot x (fi_patterns s) <> None) /\ (forall i x, ~ about_to_write s i x).
Proof. exact one_settled. Qed.
