(** Http1Close for the responses that the proxy gives *)
From Coq Require Import String Ascii List Bool ZArith NArith Lia.
From Verif Require Import GoStr NumberSpec Header HeaderSpec Exchange ExchangeSpec ExchangeProofs Machine MachineSpec Handler HandlerSpec SystemSpec SystemProofs
  HeadProofs ConformSpec ConformProofs Http2 Http2Spec Http2Proofs Http1 Http1Spec Http1Proofs Http1Close.
Import ListNotations.
Local Open Scope string_scope.

Section Here.
Variables (sniff : string -> string) (now : string) (c : h1_client) (t : setting) (r : response).
Hypotheses (H : replies t r) (Hq : sized (t_req t)) (Ht : timely_run t) (Hc : canonical_answers (t_run t)) (Hs : (200 <= rp_status r <= 999)%Z)
  (Big : (Z.of_nat (String.length (rp_body r)) <= 9223372036854775807)%Z)
  (Hm : hc_head c = true \/ (to_upper (q_method (t_req t)) <> "HEAD" /\ to_upper (q_method (t_req t)) <> "CONNECT")).

Lemma honest_here : bodiless (hc_head c) (rp_status r) \/ (honest_length r /\ (Z.of_nat (String.length (rp_body r)) <= 9223372036854775807)%Z).
Proof.
  destruct Hm as [E|[M1 M2]]; [left; now left|]. destruct (Z.eq_dec (rp_status r) 204) as [E|E]; [left; right; right; now left|].
  right. split; [|exact Big]. apply (length_any t r H Hq Hc); [exact E|lia|exact M1|exact M2].
Qed.

Lemma both_here : values "Transfer-Encoding" (h1_lines (h1_write sniff now c r)) <> [] -> hc_11 c = true /\ values "Content-Length" (h1_lines (h1_write sniff now c r)) = [].
Proof. apply no_both. exact (no_transfer t r H Hq Ht Hc). Qed.

Lemma closes_here : hc_11 c = true ->
  (h1_close (h1_write sniff now c r) = true <-> hc_close c = true \/ hc_unread c = true \/ exists vs, values "Connection" (rp_header r) = "close" :: vs).
Proof. intros V. apply closes_iff; [exact V|exact (no_transfer t r H Hq Ht Hc)|exact honest_here]. Qed.

Lemma told_here : hc_11 c = true -> h1_close (h1_write sniff now c r) = true ->
  exists v, In v (values "Connection" (h1_lines (h1_write sniff now c r))) /\ lists_close v.
Proof. intros V. apply told_closed; [exact V|exact honest_here]. Qed.
End Here.

(** A relayed response *)
Lemma closes_relayed : forall sniff now c t r rs body, relayed t r rs body -> replies t r -> sized (t_req t) -> timely_run t -> canonical_answers (t_run t) ->
  (200 <= rp_status r <= 999)%Z -> (Z.of_nat (String.length (rp_body r)) <= 9223372036854775807)%Z ->
  hc_head c = true \/ (to_upper (q_method (t_req t)) <> "HEAD" /\ to_upper (q_method (t_req t)) <> "CONNECT") ->
  canonical_keys (ur_header rs) -> ~ (400 <= ur_status rs < 500)%Z -> (Z.of_nat (String.length (q_data (t_req t))) <= e_max_body (t_env t))%Z -> hc_11 c = true ->
  (h1_close (h1_write sniff now c r) = true <-> hc_close c = true \/ hc_unread c = true \/ exists vs, values "Connection" (ur_header rs) = "close" :: vs).
Proof.
  intros sniff now c t r rs body R H Hq Ht Hc Hs Big Hm Hk Hn Hd V. rewrite (closes_here sniff now c t r H Hq Ht Hc Hs Big Hm V), (connection_relayed t r rs body R Hq Ht Hk Hn Hd). tauto.
Qed.
