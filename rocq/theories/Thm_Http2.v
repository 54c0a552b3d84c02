(** HTTP/2, spoken with clients in TLS mode (C139). *)
From Coq Require Import String Ascii List Bool ZArith NArith Lia.
From Verif Require Import GoStr NumberSpec Header HeaderSpec Config Exchange ExchangeSpec ExchangeProofs Machine MachineSpec Handler HandlerSpec HandlerCases
  SystemSpec SystemProofs SystemCases ConformSpec ConformProofs ConformCases Startup StartupCases Http2 Http2Spec Http2Proofs Http2Cases.
Import ListNotations.
Local Open Scope string_scope.

(** In TLS mode HTTP/2 is offered whatever the certificate: none of the suites asked for is on the blacklist of RFC 7540,
    and the mandatory one is among them. *)
Theorem C139_offered : forall bad pair d p, tls_config pair d = Some p -> (forall s, In s [4866; 4865; 4867; 49200; 49199]%Z -> bad s = false) ->
  configure_http2 bad (tp_suites p) = true.
Proof. exact offered. Qed.
Print Assumptions C139_offered.

Example C139_offered_case : forall leaf d, exists p, tls_config (fun _ _ => Some [Some leaf]) d = Some p /\ tp_suites p <> [].
Proof. intros leaf d. eexists. split; [reflexivity|discriminate]. Qed.

(** Whatever is relayed, the fields are a status followed by lower case tokens with values free of control characters:
    no upstream header breaks the block of fields. *)
Theorem C139_fields : forall sniff now head r, (forall p, field_value (sniff p)) -> field_value now ->
  exists fields, hm_fields (h2_write sniff now head r) = (":status", itoa_Z (rp_status r)) :: fields /\
    forall k v, In (k, v) fields -> field_name k /\ field_value v.
Proof. exact fields_fine. Qed.
Print Assumptions C139_fields.

(** Full statement: all responses are well-formed.  It holds if the upstream sends none of three headers and the method
    is not CONNECT (or HEAD in a case other than net/http's). *)
Theorem C139_formed_partial : forall sniff now t r head, (forall p, field_value (sniff p)) -> field_value now ->
  replies t r -> sized (t_req t) -> timely_run t -> canonical_answers (t_run t) -> (200 <= rp_status r <= 999)%Z ->
  head = true \/ (to_upper (q_method (t_req t)) <> "HEAD" /\ to_upper (q_method (t_req t)) <> "CONNECT") ->
  (forall rs body, relayed t r rs body -> unspecific rs) ->
  well_formed head (rp_status r) (h2_write sniff now head r).
Proof. exact well_formed_here. Qed.
Print Assumptions C139_formed_partial.

(** With any of the three, no response but those with a status from 400 to 499 is well-formed. *)
Theorem C139_malformed : forall sniff now head t r rs body k v, relayed t r rs body -> sized (t_req t) -> timely_run t -> canonical_keys (ur_header rs) ->
  ~ (400 <= ur_status rs < 500)%Z -> In k let_through -> In v (values k (ur_header rs)) -> field_value v ->
  ~ well_formed head (rp_status r) (h2_write sniff now head r).
Proof. exact malformed. Qed.
Print Assumptions C139_malformed.

Theorem C139_formed_refuted : exists t r rs body, e_tls (t_env t) = true /\ relayed t r rs body /\ sized (t_req t) /\ timely_run t /\ canonical_keys (ur_header rs) /\
  (200 <= rp_status r < 300)%Z /\ forall sniff now head, ~ well_formed head (rp_status r) (h2_write sniff now head r).
Proof. exact hop_refuted. Qed.
Print Assumptions C139_formed_refuted.

(** Other upstream headers arrive with the same values in the same order. *)
Theorem C139_kept : forall sniff now head t r rs body k, replies t r -> relayed t r rs body -> sized (t_req t) -> timely_run t -> canonical_answers (t_run t) ->
  ~ (400 <= ur_status rs < 500)%Z -> ~ In k own_headers -> ~ In k never_copied -> values k (ur_header rs) <> [] -> field_name (lower_text k) ->
  (forall v, In v (values k (ur_header rs)) -> field_value v) ->
  values (lower_text k) (hm_fields (h2_write sniff now head r)) = values k (ur_header rs).
Proof. exact field_same. Qed.
Print Assumptions C139_kept.

(** Unless its body is over the limit, a request winds the client's connection down exactly if the upstream closes its own ... *)
Theorem C139_goaway : forall sniff now head t r rs body, relayed t r rs body -> sized (t_req t) -> timely_run t -> canonical_keys (ur_header rs) ->
  ~ (400 <= ur_status rs < 500)%Z -> (Z.of_nat (String.length (q_data (t_req t))) <= e_max_body (t_env t))%Z ->
  (hm_goaway (h2_write sniff now head r) = true <-> exists vs, values "Connection" (ur_header rs) = "close" :: vs).
Proof. exact goaway_relayed. Qed.
Print Assumptions C139_goaway.

(** ... and nothing the proxy says by itself does. *)
Theorem C139_goaway_source : forall sniff now head t r, replies t r -> sized (t_req t) -> timely_run t -> canonical_answers (t_run t) ->
  (Z.of_nat (String.length (q_data (t_req t))) <= e_max_body (t_env t))%Z -> hm_goaway (h2_write sniff now head r) = true ->
  exists rs body vs, relayed t r rs body /\ values "Connection" (ur_header rs) = "close" :: vs.
Proof. exact goaway_source. Qed.
Print Assumptions C139_goaway_source.

(** That an upstream closing its connection leaves the client's, with the streams of other requests, alone is false. *)
Theorem C139_goaway_refuted : exists t r rs body, e_tls (t_env t) = true /\ relayed t r rs body /\ sized (t_req t) /\ timely_run t /\ canonical_keys (ur_header rs) /\
  (200 <= rp_status r < 300)%Z /\ forall sniff now head, hm_goaway (h2_write sniff now head r) = true.
Proof. exact close_refuted. Qed.
Print Assumptions C139_goaway_refuted.

(** An answer that meets the hypotheses: it closes the connection of the upstream and has none of the three headers. *)
Example C139_case : (exists r, relayed (fetch [] closing_answer "abcd" 14) r closing_answer "abcd" /\ replies (fetch [] closing_answer "abcd" 14) r /\
    (200 <= rp_status r <= 999)%Z /\ hm_goaway (h2_write sniff0 now0 false r) = true /\
    values "x-trace" (hm_fields (h2_write sniff0 now0 false r)) = ["a"; "b"] /\ well_formed false (rp_status r) (h2_write sniff0 now0 false r)) /\
  sized (t_req (fetch [] closing_answer "abcd" 14)) /\ timely_run (fetch [] closing_answer "abcd" 14) /\ canonical_answers (t_run (fetch [] closing_answer "abcd" 14)).
Proof.
  split; [|split; [apply fetch_sized|split; [exact closing_timely|exact closing_answers]]].
  destruct closing_now as (r & R & H & E). exists r. split; [exact R|]. split; [exact H|]. split; [rewrite E; lia|]. split; [|split].
  - apply (C139_goaway sniff0 now0 false _ r closing_answer "abcd" R); [apply fetch_sized|exact closing_timely|exact closing_canonical|cbn; lia|apply fetch_small|now exists []].
  - apply (C139_kept sniff0 now0 false _ r closing_answer "abcd" "X-Trace" H R); [apply fetch_sized|exact closing_timely|exact closing_answers|cbn; lia| | |discriminate| |].
    + cbn. intuition discriminate.
    + cbn. intuition discriminate.
    + apply wire_name_ok. reflexivity.
    + intros v I. cbn in I. destruct I as [<-|[<-|[]]]; apply wire_value_ok; reflexivity.
  - apply (C139_formed_partial sniff0 now0 _ r false sniff_value now_value H); [apply fetch_sized|exact closing_timely|exact closing_answers|rewrite E; lia| |exact (closing_only r)].
    right. split; vm_compute; discriminate.
Qed.
