(** Proofs for Thm_Http1Old. *)
From Coq Require Import String Ascii List Bool ZArith NArith Lia.
From Verif Require Import GoStr NumberSpec Header HeaderSpec HeaderProofs Exchange ExchangeSpec ExchangeProofs Machine MachineSpec Handler HandlerSpec SystemSpec SystemProofs
  HeadProofs ConformSpec ConformProofs Http2 Http2Spec Http2Proofs Http1 Http1Spec Http1Proofs Http1Close Http1Here HandlerCases ConformCases Http2Cases Http1Cases Http1Client Http1ClientSpec Http1ClientProofs.
Import ListNotations.
Local Open Scope string_scope.

Lemma other_line : forall k (v : string), k <> "Connection" -> values "Connection" (if String.eqb v "" then [] else [(k, v)]) = [].
Proof. intros k v N. destruct (String.eqb v ""); [reflexivity|]. unfold values. cbn [filter map fst snd]. assert (E : String.eqb "Connection" k = false) by (apply String.eqb_neq; congruence). first [now rewrite E|rewrite String.eqb_sym; now rewrite E]. Qed.

Lemma dropped_connection : forall b1 b2 b3 b4 : bool, existsb (String.eqb "Connection") (if b1 then [] else if b2 then ["Content-Type"; "Content-Length"; "Transfer-Encoding"] else ["Content-Length"; "Transfer-Encoding"])
       || (existsb (String.eqb "Connection") (if b3 then ["Content-Length"] else []) || (existsb (String.eqb "Connection") (if b4 then ["Transfer-Encoding"] else []) || existsb (String.eqb "Connection") [])) = false.
Proof. intros [] [] [] []; reflexivity. Qed.

Lemma dropped_too : forall b1 b2 b3 b4 : bool, existsb (String.eqb "Connection") (if b1 then [] else if b2 then ["Content-Type"; "Content-Length"; "Transfer-Encoding"] else ["Content-Length"; "Transfer-Encoding"])
       || (existsb (String.eqb "Connection") (if b3 then ["Content-Length"] else []) || (existsb (String.eqb "Connection") (if b4 then ["Transfer-Encoding"] else []) || existsb (String.eqb "Connection") ["Connection"])) = true.
Proof. intros [] [] [] []; reflexivity. Qed.

(** A closed connection of HTTP/1.0 is not said to be kept. *)
Lemma old_here : forall sniff now c r, hc_11 c = false -> hc_unread c = false -> values "Transfer-Encoding" (rp_header r) = [] ->
  bodiless (hc_head c) (rp_status r) \/ (honest_length r /\ (Z.of_nat (String.length (rp_body r)) <= 9223372036854775807)%Z) ->
  h1_close (h1_write sniff now c r) = true ->
  values "Connection" (h1_lines (h1_write sniff now c r)) = [] \/ exists v vs, values "Connection" (h1_lines (h1_write sniff now c r)) = v :: vs /\ lists_close v.
Proof.
  intros sniff now c r V U TE HL. unfold h1_write. cbn [h1_close h1_lines]. rewrite (no_mismatch c r HL), orb_false_r, (te_none r TE), V, U. change (String.eqb "" "") with true. change (String.eqb "" "identity") with false. cbn [negb andb].
  match goal with |- context [match match atoi ?d with Some z => if (0 <=? z)%Z then Some z else None | None => None end with Some _ => true | None => ?e end] => set (cl := match match atoi d with Some z => if (0 <=? z)%Z then Some z else None | None => None end with Some _ => true | None => e end) end.
  rewrite ?andb_true_r, ?andb_false_r, ?orb_false_r. cbn [negb andb orb].
  intros K. rewrite K. rewrite !values_app, dropped_values, !existsb_app. rewrite !(other_line "Date"), !(other_line "Content-Length"), !(other_line "Content-Type"), !(other_line "Transfer-Encoding") by discriminate. cbn [andb].
  destruct (close_token true (get "Connection" (rp_header r))) eqn:T; cbn [negb].
  - right. rewrite dropped_connection. rewrite get_values in T by reflexivity. destruct (values "Connection" (rp_header r)) as [|v vs]; [discriminate T|]. rewrite !andb_false_r.
    exists v, vs. split; [|now apply token_close]. cbn. now rewrite app_nil_r.
  - left. rewrite dropped_too. cbn [app]. rewrite get_values in K by reflexivity. clearbody cl. destruct (values "Connection" (rp_header r)) as [|v vs]; [|now rewrite !andb_false_r].
    change (String.eqb "" "close") with false in K. rewrite orb_false_r in K. destruct (hc_keep c); [|reflexivity]. destruct (hc_head c); [discriminate K|]. destruct cl; [now rewrite !andb_false_r in K|]. destruct (body_allowed (rp_status r)); [reflexivity|discriminate K].
Qed.

Lemma old_client : forall sniff now t r, replies t r -> sized (t_req t) -> timely_run t -> canonical_answers (t_run t) ->
  (200 <= rp_status r <= 999)%Z -> (Z.of_nat (String.length (rp_body r)) <= 9223372036854775807)%Z -> framed_method (q_method (t_req t)) ->
  forall m, m = h1_write sniff now (client_of false false (t_req t)) r -> h1_close m = true ->
  values "Connection" (h1_lines m) = [] \/ exists v vs, values "Connection" (h1_lines m) = v :: vs /\ lists_close v.
Proof.
  intros sniff now t r H Hq Ht Hc Hs Big M m ->. apply old_here; [reflexivity|reflexivity|exact (no_transfer t r H Hq Ht Hc)|].
  exact (honest_here (client_of false false (t_req t)) t r H Hq Hc Hs Big (method_head false false (t_req t) M)).
Qed.

(** The page for a client of HTTP/1.0 that asks for nothing: the upstream's Connection: keep-alive is taken out. *)
Lemma old_case : exists r, replies (fetch_by "GET" page_answer "abcd" 14) r /\ values "Connection" (rp_header r) = ["keep-alive"] /\
  h1_close (h1_write sniff0 now0 (client_of false false (t_req (fetch_by "GET" page_answer "abcd" 14))) r) = true /\
  values "Connection" (h1_lines (h1_write sniff0 now0 (client_of false false (t_req (fetch_by "GET" page_answer "abcd" 14))) r)) = [].
Proof.
  destruct page_now as (r & R & H & St). exists r. split; [exact H|].
  destruct (relayed_proxied _ r _ _ R (by_sized _ _ _ _) page_timely) as (dice & -> & _). clear R H St. vm_compute. repeat split; reflexivity.
Qed.

(** If the request was not read to its end, a client of HTTP/1.0 is told that the connection is kept although it is closed. *)
Lemma old_unread : exists q r, values "Content-Length" (rp_header r) = ["2"] /\ rp_body r = "ab" /\ values "Connection" (rp_header r) = [] /\
  forall sniff now, h1_close (h1_write sniff now (client_of false true q) r) = true /\ values "Connection" (h1_lines (h1_write sniff now (client_of false true q) r)) = ["keep-alive"].
Proof.
  exists (closing_by [("Connection", "Keep-Alive")]), (Response 413 [("Content-Type", "text/html"); ("Content-Length", "2")] "ab"). repeat split; intros; destruct now; reflexivity.
Qed.
