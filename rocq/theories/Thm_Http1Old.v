(** C142: clients of HTTP/1.0 are not told that closed connections are kept. *)
From Coq Require Import String Ascii List Bool ZArith NArith.
From Verif Require Import GoStr Header Exchange Machine MachineSpec Handler HandlerSpec SystemSpec ConformSpec
  Http2 Http2Spec Http2Cases Http1 Http1Spec Http1Cases Http1Client Http1ClientSpec Http1Old.
Import ListNotations.
Local Open Scope string_scope.

(** Missing: requests that were not read to their end (C142_old_refuted, of net/http with any handler). *)
Theorem C142_old_partial : forall sniff now t r, replies t r -> sized (t_req t) -> timely_run t -> canonical_answers (t_run t) ->
  (200 <= rp_status r <= 999)%Z -> (Z.of_nat (String.length (rp_body r)) <= 9223372036854775807)%Z -> framed_method (q_method (t_req t)) ->
  forall m, m = h1_write sniff now (client_of false false (t_req t)) r -> h1_close m = true ->
  values "Connection" (h1_lines m) = [] \/ exists v vs, values "Connection" (h1_lines m) = v :: vs /\ lists_close v.
Proof. exact old_client. Qed.
Print Assumptions C142_old_partial.

Theorem C142_old_refuted : exists q r, values "Content-Length" (rp_header r) = ["2"] /\ rp_body r = "ab" /\ values "Connection" (rp_header r) = [] /\
  forall sniff now, h1_close (h1_write sniff now (client_of false true q) r) = true /\ values "Connection" (h1_lines (h1_write sniff now (client_of false true q) r)) = ["keep-alive"].
Proof. exact old_unread. Qed.
Print Assumptions C142_old_refuted.

Example C142_old_case : exists r, replies (fetch_by "GET" page_answer "abcd" 14) r /\ values "Connection" (rp_header r) = ["keep-alive"] /\
  h1_close (h1_write sniff0 now0 (client_of false false (t_req (fetch_by "GET" page_answer "abcd" 14))) r) = true /\
  values "Connection" (h1_lines (h1_write sniff0 now0 (client_of false false (t_req (fetch_by "GET" page_answer "abcd" 14))) r)) = [].
Proof. exact old_case. Qed.
