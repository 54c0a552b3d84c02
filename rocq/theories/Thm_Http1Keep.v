(** C142: connections to clients of HTTP/1.0 are kept, and clients that ask for closing are told. *)
From Coq Require Import String Ascii List Bool ZArith NArith.
From Verif Require Import GoStr Header Exchange Machine MachineSpec Handler HandlerSpec SystemSpec ConformSpec
  Http2 Http2Spec Http2Cases Http1 Http1Spec Http1Cases Http1Client Http1ClientSpec Http1Keep.
Import ListNotations.
Local Open Scope string_scope.

(** If the client of HTTP/1.0 lists keep-alive and the request was read to its end, the connection is kept; the converse is C142_keeps_client. *)
Theorem C142_kept_client : forall sniff now t r, replies t r -> sized (t_req t) -> timely_run t -> canonical_answers (t_run t) ->
  (200 <= rp_status r <= 999)%Z -> (Z.of_nat (String.length (rp_body r)) <= 9223372036854775807)%Z -> framed_method (q_method (t_req t)) ->
  forall hd, (hd = true <-> q_method (t_req t) = "HEAD") -> bodiless hd (rp_status r) \/ values "Content-Length" (rp_header r) <> [] ->
  (forall vs, values "Connection" (rp_header r) <> "close" :: vs) -> forall v vs, values "Connection" (q_header (t_req t)) = v :: vs -> lists_keep v ->
  h1_close (h1_write sniff now (client_of false false (t_req t)) r) = false.
Proof. exact kept_client. Qed.
Print Assumptions C142_kept_client.

Theorem C142_told_client : forall sniff now u t r, replies t r -> sized (t_req t) -> timely_run t -> canonical_answers (t_run t) ->
  (200 <= rp_status r <= 999)%Z -> (Z.of_nat (String.length (rp_body r)) <= 9223372036854775807)%Z -> framed_method (q_method (t_req t)) -> asks_close (t_req t) ->
  exists v, In v (values "Connection" (h1_lines (h1_write sniff now (client_of true u (t_req t)) r))) /\ lists_close v.
Proof. exact told_client. Qed.
Print Assumptions C142_told_client.

Example C142_kept_case : exists r, replies keep_page r /\ h1_close (h1_write sniff0 now0 (client_of false false (t_req keep_page)) r) = false.
Proof. exact keep_case. Qed.

Example C142_told_client_case : exists r, replies close_page r /\ asks_close (t_req close_page) /\
  exists v, In v (values "Connection" (h1_lines (h1_write sniff0 now0 (client_of true false (t_req close_page)) r))) /\ lists_close v.
Proof. exact close_case. Qed.
