(** C142: responses over HTTP/1 are framed by their own bodies. *)
From Coq Require Import String Ascii List Bool ZArith NArith.
From Verif Require Import GoStr NumberSpec Header HeaderSpec Exchange Machine MachineSpec Handler HandlerSpec HandlerCases SystemSpec ConformSpec ConformCases
  Http2 Http2Spec Http2Cases Http1 Http1Spec Http1Proofs Http1Close Http1Here Http1Cases.
Import ListNotations.
Local Open Scope string_scope.

(** The client reads exactly the body, and what follows it is the next message.  Missing: CONNECT, and HEAD in other letters (refuted below). *)
Theorem C142_framed_partial : forall sniff now c t r, replies t r -> sized (t_req t) -> timely_run t -> canonical_answers (t_run t) ->
  (200 <= rp_status r <= 999)%Z -> (Z.of_nat (String.length (rp_body r)) <= 9223372036854775807)%Z ->
  hc_head c = true \/ (to_upper (q_method (t_req t)) <> "HEAD" /\ to_upper (q_method (t_req t)) <> "CONNECT") ->
  (bodiless (hc_head c) (rp_status r) -> carries (hc_head c) (h1_write sniff now c r) "") /\
  (~ bodiless (hc_head c) (rp_status r) -> carries (hc_head c) (h1_write sniff now c r) (rp_body r)).
Proof. exact framed_here. Qed.
Print Assumptions C142_framed_partial.

Theorem C142_connect_refuted : exists t r rs, relayed t r rs "abcd" /\ replies t r /\ (200 <= ur_status rs <= 299)%Z /\
  rp_body r = "abcd" /\ forall sniff now, carries false (h1_write sniff now web r) "" /\ h1_close (h1_write sniff now web r) = true /\
    values "Connection" (h1_lines (h1_write sniff now web r)) = ["keep-alive"].
Proof. exact connect_lost. Qed.
Print Assumptions C142_connect_refuted.

Theorem C142_head_refuted : exists t r rs, relayed t r rs "" /\ replies t r /\ (200 <= ur_status rs <= 299)%Z /\
  forall sniff now b, ~ carries false (h1_write sniff now web r) b.
Proof. exact head_broken. Qed.
Print Assumptions C142_head_refuted.

(** Chunks are only for clients of HTTP/1.1, and no message has two framings. *)
Theorem C142_one_framing : forall sniff now c t r, replies t r -> sized (t_req t) -> timely_run t -> canonical_answers (t_run t) ->
  values "Transfer-Encoding" (h1_lines (h1_write sniff now c r)) <> [] -> hc_11 c = true /\ values "Content-Length" (h1_lines (h1_write sniff now c r)) = [].
Proof. exact both_here. Qed.
Print Assumptions C142_one_framing.

(** Which connections are closed *)
Theorem C142_closes : forall sniff now c t r, replies t r -> sized (t_req t) -> timely_run t -> canonical_answers (t_run t) ->
  (200 <= rp_status r <= 999)%Z -> (Z.of_nat (String.length (rp_body r)) <= 9223372036854775807)%Z ->
  hc_head c = true \/ (to_upper (q_method (t_req t)) <> "HEAD" /\ to_upper (q_method (t_req t)) <> "CONNECT") -> hc_11 c = true ->
  (h1_close (h1_write sniff now c r) = true <-> hc_close c = true \/ hc_unread c = true \/ exists vs, values "Connection" (rp_header r) = "close" :: vs).
Proof. exact closes_here. Qed.
Print Assumptions C142_closes.

(** With a relayed response it is the upstream that decides. *)
Theorem C142_closes_relayed : forall sniff now c t r rs body, relayed t r rs body -> replies t r -> sized (t_req t) -> timely_run t -> canonical_answers (t_run t) ->
  (200 <= rp_status r <= 999)%Z -> (Z.of_nat (String.length (rp_body r)) <= 9223372036854775807)%Z ->
  hc_head c = true \/ (to_upper (q_method (t_req t)) <> "HEAD" /\ to_upper (q_method (t_req t)) <> "CONNECT") ->
  canonical_keys (ur_header rs) -> ~ (400 <= ur_status rs < 500)%Z -> (Z.of_nat (String.length (q_data (t_req t))) <= e_max_body (t_env t))%Z -> hc_11 c = true ->
  (h1_close (h1_write sniff now c r) = true <-> hc_close c = true \/ hc_unread c = true \/ exists vs, values "Connection" (ur_header rs) = "close" :: vs).
Proof. exact closes_relayed. Qed.
Print Assumptions C142_closes_relayed.

(** Connections to clients of HTTP/1.0 are kept only if these ask. *)
Theorem C142_keeps : forall sniff now c r, hc_11 c = false -> h1_close (h1_write sniff now c r) = false -> hc_keep c = true.
Proof. exact keeps_asked. Qed.
Print Assumptions C142_keeps.

(** A client whose connection is closed is told; not the other way round, and not with CONNECT (above). *)
Theorem C142_told_partial : forall sniff now c t r, replies t r -> sized (t_req t) -> canonical_answers (t_run t) ->
  (200 <= rp_status r <= 999)%Z -> (Z.of_nat (String.length (rp_body r)) <= 9223372036854775807)%Z ->
  hc_head c = true \/ (to_upper (q_method (t_req t)) <> "HEAD" /\ to_upper (q_method (t_req t)) <> "CONNECT") -> hc_11 c = true ->
  h1_close (h1_write sniff now c r) = true -> exists v, In v (values "Connection" (h1_lines (h1_write sniff now c r))) /\ lists_close v.
Proof. exact told_here. Qed.
Print Assumptions C142_told_partial.

Theorem C142_told_refuted : exists t r rs body, relayed t r rs body /\ replies t r /\
  forall sniff now, h1_close (h1_write sniff now web r) = false /\ exists v, In v (values "Connection" (h1_lines (h1_write sniff now web r))) /\ lists_close v.
Proof. exact told_kept. Qed.
Print Assumptions C142_told_refuted.

(** The date of every response is the time at which it is written. *)
Theorem C142_date : forall sniff now c t r, replies t r -> sized (t_req t) -> timely_run t -> canonical_answers (t_run t) -> now <> "" ->
  values "Date" (h1_lines (h1_write sniff now c r)) = [now].
Proof. exact date_now. Qed.
Print Assumptions C142_date.

(** The type is the one that the upstream sent.  Missing: an empty Content-Encoding. *)
Theorem C142_type_partial : forall sniff now c t r rs body, relayed t r rs body -> sized (t_req t) -> timely_run t -> canonical_keys (ur_header rs) ->
  ~ (400 <= ur_status rs < 500)%Z -> ur_status rs <> 304%Z -> values "Content-Encoding" (ur_header rs) <> [""] ->
  values "Content-Type" (h1_lines (h1_write sniff now c r)) = values "Content-Type" (ur_header rs).
Proof. exact type_relayed. Qed.
Print Assumptions C142_type_partial.

Theorem C142_type_refuted : exists t r rs body, relayed t r rs body /\ replies t r /\ values "Content-Type" (ur_header rs) = [] /\
  forall sniff now, sniff body <> "" -> values "Content-Type" (h1_lines (h1_write sniff now web r)) = [sniff body].
Proof. exact guessed. Qed.
Print Assumptions C142_type_refuted.

(** The hypotheses hold of a page fetched by a client of HTTP/1.1 and by one of HTTP/1.0 that keeps its connection. *)
Example C142_case : exists r, replies (fetch_by "GET" page_answer "abcd" 14) r /\
  carries false (h1_write sniff0 now0 web r) "abcd" /\ carries false (h1_write sniff0 now0 old_web r) "abcd".
Proof. exact page_carried. Qed.

Example C142_lines_case : forall sniff now c r, relayed (fetch_by "GET" page_answer "abcd" 14) r page_answer "abcd" -> c = web \/ c = old_web -> now = now0 ->
  h1_lines (h1_write sniff now c r) =
    [("Server", "j8a v0.7.2 unknown"); ("Strict-Transport-Security", "max-age=31536000"); ("X-Request-Id", "XR-unknown-uuid"); ("Content-Type", "text/html");
     ("Connection", "keep-alive"); ("Content-Length", "4"); ("Content-Encoding", "identity"); ("Date", now0)] /\ h1_close (h1_write sniff now c r) = false.
Proof. exact page_lines. Qed.

Example C142_chunks_case : h1_bytes (h1_write sniff0 now0 web (Response 200 [("Trailer", "X")] "abcdefghijkl")) =
  "c" ++ crlf ++ "abcdefghijkl" ++ crlf ++ "0" ++ crlf ++ crlf.
Proof. vm_compute. reflexivity. Qed.
