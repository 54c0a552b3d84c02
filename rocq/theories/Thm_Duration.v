(** Durations that are negative or below a microsecond (C132). *)
From Coq Require Import String List ZArith.
From Verif Require Import GoStr CertText CertTextSpec DurationProofs.
Import ListNotations.
Local Open Scope string_scope.

(** C132: of durations below a microsecond only zero is told; the others leave nothing but a sign. *)
Theorem C132_short_partial : forall n d, (-1000 < d < 1000)%Z ->
  durafmt n d = match Z.compare d 0 with Lt => "-" | Eq => "0 seconds" | Gt => "" end.
Proof. exact durafmt_short. Qed.
Print Assumptions C132_short_partial.

(** Negative ones are told like positive ones, with a sign. *)
Theorem C132_past : forall n d, 1 <= n -> (- 2 ^ 63 < d <= -1000)%Z -> exists ps, durafmt n d = "-" ++ join " " (map phrase ps) /\ tells_truly n ps (- d).
Proof. exact durafmt_past. Qed.
Print Assumptions C132_past.

Example C132_past_case : as_string (- 90000000000) = "-1 minute 30 seconds" /\ as_string 0 = "0 seconds" /\ as_string 999 = "".
Proof. split; [|split]; vm_compute; reflexivity. Qed.
