(** Cases and counterexamples for Thm_Http2: one attempt, answered at once. *)
From Coq Require Import String Ascii List Bool ZArith NArith Lia.
From Verif Require Import GoStr NumberSpec Header HeaderSpec Config Exchange ExchangeSpec ExchangeProofs Machine MachineSpec Handler HandlerSpec HandlerCases
  SystemSpec SystemProofs SystemCases ConformSpec ConformProofs ConformCases Startup Http2 Http2Spec Http2Proofs.
Import ListNotations.
Local Open Scope string_scope.

Definition sniff0 (p : string) : string := "text/plain; charset=utf-8".
Definition now0 : string := "Mon, 16 Nov 2026 20:53:10 GMT".

Lemma sniff_value : forall p, field_value (sniff0 p).
Proof. intros p. apply wire_value_ok. reflexivity. Qed.
Lemma now_value : field_value now0.
Proof. apply wire_value_ok. reflexivity. Qed.

(** What servers of node.js say on connections they keep, one that is done with its connection, and a harmless one *)
Definition alive_answer : up_response := UpResp 200 [("Connection", "keep-alive"); ("Keep-Alive", "timeout=5"); ("X-Trace", "a"); ("X-Trace", "b")].
Definition closing_answer : up_response := UpResp 200 [("Connection", "close"); ("X-Trace", "a"); ("X-Trace", "b")].

Lemma alive_now : exists r, relayed (fetch [] alive_answer "abcd" 14) r alive_answer "abcd" /\ replies (fetch [] alive_answer "abcd" 14) r /\ rp_status r = 200%Z.
Proof. relayed_now. Qed.
Lemma closing_now : exists r, relayed (fetch [] closing_answer "abcd" 14) r closing_answer "abcd" /\ replies (fetch [] closing_answer "abcd" 14) r /\ rp_status r = 200%Z.
Proof. relayed_now. Qed.
Lemma alive_timely : timely_run (fetch [] alive_answer "abcd" 14). Proof. timely_now. Qed.
Lemma closing_timely : timely_run (fetch [] closing_answer "abcd" 14). Proof. timely_now. Qed.
Lemma alive_canonical : canonical_keys (ur_header alive_answer).
Proof. intros k v H. repeat (destruct H as [H|H]; [injection H as <- <-; reflexivity|]). destruct H. Qed.
Lemma closing_canonical : canonical_keys (ur_header closing_answer).
Proof. intros k v H. repeat (destruct H as [H|H]; [injection H as <- <-; reflexivity|]). destruct H. Qed.

Lemma closing_answers : canonical_answers (t_run (fetch [] closing_answer "abcd" 14)).
Proof. intros i rs H. repeat (destruct H as [H|H]; [try discriminate H; injection H as _ <-; exact closing_canonical|]). destruct H. Qed.

Lemma closing_only : forall r rs body, relayed (fetch [] closing_answer "abcd" 14) r rs body -> unspecific rs.
Proof.
  intros r rs body (c & s & _ & _ & _ & H & _). assert (rs = closing_answer) as ->.
  { repeat (destruct H as [H|H]; [try discriminate H; injection H as _ <-; reflexivity|]). destruct H. }
  intros k I. cbn [let_through In] in I. destruct I as [<-|[<-|[<-|[]]]]; reflexivity.
Qed.

Lemma fetch_small : forall rs body n, (Z.of_nat (String.length (q_data (t_req (fetch [] rs body n)))) <= e_max_body (t_env (fetch [] rs body n)))%Z.
Proof. intros. vm_compute. discriminate. Qed.

Lemma hop_refuted : exists t r rs body, e_tls (t_env t) = true /\ relayed t r rs body /\ sized (t_req t) /\ timely_run t /\ canonical_keys (ur_header rs) /\
  (200 <= rp_status r < 300)%Z /\ forall sniff now head, ~ well_formed head (rp_status r) (h2_write sniff now head r).
Proof.
  destruct alive_now as (r & R & _ & E). exists (fetch [] alive_answer "abcd" 14), r, alive_answer, "abcd". split; [reflexivity|]. split; [exact R|]. split; [apply fetch_sized|].
  split; [exact alive_timely|]. split; [exact alive_canonical|]. split; [rewrite E; lia|]. intros sniff now head.
  apply (malformed sniff now head _ r alive_answer "abcd" "Keep-Alive" "timeout=5" R); [apply fetch_sized|exact alive_timely|exact alive_canonical|cbn; lia|now left|now left|].
  apply wire_value_ok. reflexivity.
Qed.

Lemma close_refuted : exists t r rs body, e_tls (t_env t) = true /\ relayed t r rs body /\ sized (t_req t) /\ timely_run t /\ canonical_keys (ur_header rs) /\
  (200 <= rp_status r < 300)%Z /\ forall sniff now head, hm_goaway (h2_write sniff now head r) = true.
Proof.
  destruct closing_now as (r & R & _ & E). exists (fetch [] closing_answer "abcd" 14), r, closing_answer, "abcd". split; [reflexivity|]. split; [exact R|]. split; [apply fetch_sized|].
  split; [exact closing_timely|]. split; [exact closing_canonical|]. split; [rewrite E; lia|]. intros sniff now head.
  apply (goaway_relayed sniff now head _ r closing_answer "abcd" R); [apply fetch_sized|exact closing_timely|exact closing_canonical|cbn; lia|apply fetch_small|now exists []].
Qed.
