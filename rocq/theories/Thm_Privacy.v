(** Theorems about what responses and log lines give away of a request: C97.

    [t] and [t'] are settings of SystemSpec, [x] is what else the line shows of the request; [twins]
    says what the two requests have in common. *)
From Coq Require Import String List Bool ZArith.
From Verif Require Import GoStr Header Exchange Jwt JwtCases Machine Handler SystemSpec AccessLog AccessLogSpec AccessLogCases PrivacySpec PrivacyProofs.
Import ListNotations.
Local Open Scope string_scope.

(** C97: of two requests with the same token, whatever their other headers and the bytes of their
    bodies, the same lines are logged and the same responses are written, in every run. *)
Theorem C97_line_partial : forall t t' x es, twins t t' -> same_token t t' -> (logs t x es <-> logs t' x es).
Proof. exact kept_lines. Qed.
Print Assumptions C97_line_partial.

Theorem C97_reply : forall t t' r, twins t t' -> same_token t t' -> (replies t r <-> replies t' r).
Proof. exact kept_replies. Qed.
Print Assumptions C97_reply.

Example C97_case : twins (secret_visit "old" "id=1" "xyz") (secret_visit "old" "id=2" "uvw") /\
  same_token (secret_visit "old" "id=1" "xyz") (secret_visit "old" "id=2" "uvw") /\
  exists e, logs (secret_visit "old" "id=1" "xyz") from_home [e] /\ l_status e = 201%Z /\ l_up e <> None.
Proof. split; [now apply secret_twins|]. split; [reflexivity|]. apply secret_line. now left. Qed.

(** With different tokens this is so if both requests are passed on or neither is, and they get the
    same status: nothing else of a token shows. *)
Theorem C97_token_line_partial : forall t t' x es es', twins t t' -> same_fate t t' -> logs t x es -> logs t' x es' -> es = es'.
Proof. exact token_lines. Qed.
Print Assumptions C97_token_line_partial.

Theorem C97_token_reply : forall t t' r, twins t t' -> same_fate t t' -> (replies t r <-> replies t' r).
Proof. exact token_replies. Qed.
Print Assumptions C97_token_reply.

Example C97_token_case : old_k9 <> "old" /\ twins (secret_visit "old" "id=1" "xyz") (secret_visit old_k9 "id=2" "uvw") /\
  same_fate (secret_visit "old" "id=1" "xyz") (secret_visit old_k9 "id=2" "uvw").
Proof. split; [discriminate|]. split; [now apply secret_twins|exact secret_fate]. Qed.

(** Full C97 is false: the query, left out of the path that is logged, is in the URI of the attempt. *)
Theorem C97_refuted : exists t x e u a b, logs t x [e] /\ q_uri (t_req t) = "/mse6/x?password=hunter2" /\ x_path x = "/mse6/x" /\
  l_warn e = false /\ l_path e = "/mse6/x" /\ l_up e = Some u /\ ue_uri u = a ++ "password=hunter2" ++ b.
Proof. exact query_logged. Qed.
Print Assumptions C97_refuted.
