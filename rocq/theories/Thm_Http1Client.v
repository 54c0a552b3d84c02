(** C142: which connections are kept, from the headers of the request. *)
From Coq Require Import String Ascii List Bool ZArith NArith.
From Verif Require Import GoStr Header Exchange Machine MachineSpec Handler HandlerSpec SystemSpec ConformSpec
  Http2 Http2Spec Http2Cases Http1 Http1Spec Http1Cases Http1Client Http1ClientSpec Http1ClientProofs.
Import ListNotations.
Local Open Scope string_scope.

(** The client of any request reads exactly the body; missing are CONNECT and HEAD in other letters (C142_connect_refuted, C142_head_refuted). *)
Theorem C142_framed_client_partial : forall sniff now u t r, replies t r -> sized (t_req t) -> timely_run t -> canonical_answers (t_run t) ->
  (200 <= rp_status r <= 999)%Z -> (Z.of_nat (String.length (rp_body r)) <= 9223372036854775807)%Z ->
  framed_method (q_method (t_req t)) -> forall v11 hd, (hd = true <-> q_method (t_req t) = "HEAD") ->
  (bodiless hd (rp_status r) -> carries hd (h1_write sniff now (client_of v11 u (t_req t)) r) "") /\
  (~ bodiless hd (rp_status r) -> carries hd (h1_write sniff now (client_of v11 u (t_req t)) r) (rp_body r)).
Proof. exact framed_client. Qed.
Print Assumptions C142_framed_client_partial.

(** Over HTTP/1.1 a connection is closed exactly if the client asks, if net/http could not read the request to its end, or if the response says so. *)
Theorem C142_closes_client : forall sniff now u t r, replies t r -> sized (t_req t) -> timely_run t -> canonical_answers (t_run t) ->
  (200 <= rp_status r <= 999)%Z -> (Z.of_nat (String.length (rp_body r)) <= 9223372036854775807)%Z ->
  framed_method (q_method (t_req t)) ->
  (h1_close (h1_write sniff now (client_of true u (t_req t)) r) = true <-> asks_close (t_req t) \/ u = true \/ exists vs, values "Connection" (rp_header r) = "close" :: vs).
Proof. exact closes_client. Qed.
Print Assumptions C142_closes_client.

(** Over HTTP/1.0 it is kept only if the client's first Connection header lists keep-alive. *)
Theorem C142_keeps_client : forall sniff now u q r, h1_close (h1_write sniff now (client_of false u q) r) = false ->
  exists v vs, values "Connection" (q_header q) = v :: vs /\ lists_keep v.
Proof. exact keeps_client. Qed.
Print Assumptions C142_keeps_client.

Example C142_client_case : exists r, replies (fetch_by "GET" page_answer "abcd" 14) r /\
  carries false (h1_write sniff0 now0 (client_of true false (t_req (fetch_by "GET" page_answer "abcd" 14))) r) "abcd" /\
  h1_close (h1_write sniff0 now0 (client_of true false (t_req (fetch_by "GET" page_answer "abcd" 14))) r) = false.
Proof. exact page_client. Qed.

Example C142_asks_case : asks_close (closing_by [("Connection", "TE, Close")]) /\ ~ asks_close (closing_by [("Connection", "TE, closed")]).
Proof. exact closing_case. Qed.

Example C142_keep_case : h1_close (h1_write sniff0 now0 (client_of false false (closing_by [("Connection", "Keep-Alive")])) (Response 200 [("Content-Length", "2")] "ab")) = false.
Proof. vm_compute. reflexivity. Qed.
