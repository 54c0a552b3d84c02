(** C142: what clients of CONNECT and of head in small letters get. *)
From Coq Require Import String Ascii List Bool ZArith NArith.
From Verif Require Import GoStr NumberSpec Header HeaderSpec Exchange Machine MachineSpec Handler HandlerSpec HandlerCases SystemSpec ConformSpec ConformCases
  Http2 Http2Spec Http2Cases Http1 Http1Spec Http1Cases Http1Connect.
Import ListNotations.
Local Open Scope string_scope.

(** A client of CONNECT never gets a body, and its connection is closed if there was one. *)
Theorem C142_connect : forall sniff now c t r rs body, relayed t r rs body -> replies t r -> sized (t_req t) -> timely_run t -> canonical_answers (t_run t) ->
  ~ (400 <= ur_status rs < 500)%Z -> to_upper (q_method (t_req t)) = "CONNECT" -> ~ bodiless (hc_head c) (rp_status r) ->
  carries (hc_head c) (h1_write sniff now c r) "" /\ (rp_body r <> "" -> h1_close (h1_write sniff now c r) = true).
Proof. exact connect_carried. Qed.
Print Assumptions C142_connect.

(** A client that spells HEAD otherwise gets no whole message if the upstream says a length. *)
Theorem C142_head : forall sniff now c t r rs body v vs n, relayed t r rs body -> replies t r -> sized (t_req t) -> timely_run t -> canonical_answers (t_run t) ->
  ~ (400 <= ur_status rs < 500)%Z -> to_upper (q_method (t_req t)) = "HEAD" -> ~ bodiless (hc_head c) (rp_status r) ->
  values "Content-Length" (ur_header rs) = v :: vs -> numeral v n -> (0 < n <= 9223372036854775807)%Z -> n <> Z.of_nat (String.length (rp_body r)) ->
  forall b, ~ carries (hc_head c) (h1_write sniff now c r) b.
Proof. exact head_uncarried. Qed.
Print Assumptions C142_head.

(** Both happen. *)
Example C142_connect_case : exists r, relayed (fetch_by "CONNECT" page_answer "abcd" 14) r page_answer "abcd" /\ replies (fetch_by "CONNECT" page_answer "abcd" 14) r /\ rp_status r = 200%Z.
Proof. exact connect_now. Qed.

Example C142_head_case : (exists r, relayed (fetch_by "head" sized_answer "" 14) r sized_answer "" /\ replies (fetch_by "head" sized_answer "" 14) r /\ rp_status r = 200%Z) /\
  values "Content-Length" (ur_header sized_answer) = ["4"].
Proof. split; [exact head_now|reflexivity]. Qed.
