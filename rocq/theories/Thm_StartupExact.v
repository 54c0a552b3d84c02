(** Exactly which timeouts are those configured (C76, C78). *)
From Coq Require Import String List Bool ZArith.
From Verif Require Import GoStr ConfigSpec Config Startup StartupSpec StartupProofs StartupCases StartupExact.
Import Verif.Config ListNotations.
Local Open Scope Z_scope.

(** C76: those of up to 292 years, and no others *)
Theorem C76_exactly_partial : forall p h l c0, listens p h l -> told (pl_parse p) h c0 ->
  let d := c_down c0 in let v := li_server l in
  sv_read_header v = sv_read v /\
  (lasts (d_read_timeout d) 120 (sv_read v) <-> -9223372036 <= d_read_timeout d <= 9223372036) /\
  (lasts (d_idle_timeout d) 120 (sv_idle v) <-> -9223372036 <= d_idle_timeout d <= 9223372036) /\
  (lasts (d_roundtrip_timeout d) 240 (sv_write v - 1000000000) <-> -9223372036 <= d_roundtrip_timeout d + 1 <= 9223372036).
Proof. exact listener_exactly. Qed.
Print Assumptions C76_exactly_partial.

(** C78 *)
Theorem C78_exactly_partial : forall p h l c0, listens p h l -> told (pl_parse p) h c0 ->
  let u := c_up c0 in let k := li_client l in
  cl_handshake k = cl_dial k /\
  (lasts (up_socket_timeout u) 3 (cl_dial k) <-> -9223372036 <= up_socket_timeout u <= 9223372036) /\
  (lasts (up_idle_timeout u) 120 (cl_idle k) <-> -9223372036 <= up_idle_timeout u <= 9223372036).
Proof. exact client_exactly. Qed.
Print Assumptions C78_exactly_partial.

(** A client whose timeout is the default *)
Example C78_exactly_case : exists l c0, listens ground (host0 "tls" "VERSION" "v1") l /\ told (pl_parse ground) (host0 "tls" "VERSION" "v1") c0 /\
  up_socket_timeout (c_up c0) = 0 /\ cl_dial (li_client l) = 3000000000.
Proof.
  destruct started_tls as [l [H1 _]]. exists l, (site_as "tls" "C" "K" 0 10). split; [exact H1|].
  assert (T : told (pl_parse ground) (host0 "tls" "VERSION" "v1") (site_as "tls" "C" "K" 0 10)) by exact (proj1 (proj2 tls_visit_case)).
  split; [exact T|]. split; [reflexivity|].
  destruct (proj2 (client_exactly _ _ _ _ H1 T)) as [X _]. cbv zeta in X.
  destruct (proj2 X ltac:(vm_compute; split; congruence)) as [k [D E]]. rewrite E. unfold filled in D. vm_compute in D. destruct D as [D|D]; [destruct D as [_ ->]; reflexivity|destruct D as [D _]; exfalso; apply D; reflexivity].
Qed.

(** A listener of either kind: one whose timeouts fit and one with a timeout that does not *)
Example C76_exactly_case : (exists l, listens ground (host0 "tls" "VERSION" "v1") l /\ sv_write (li_server l) = 241000000000) /\
  exists p h l c0, listens p h l /\ told (pl_parse p) h c0 /\ 0 < d_read_timeout (c_down c0) /\ sv_read (li_server l) <= 0.
Proof.
  split; [destruct started_tls as [l [H1 [_ [_ [_ [H3 _]]]]]]; exists l; split; [exact H1|exact H3]|].
  destruct started_long as [p [h [l [c0 [_ [H1 [H2 [H3 H4]]]]]]]]. exists p, h, l, c0. split; [exact H1|]. split; [exact H2|]. split; [exact H3|exact H4].
Qed.
