(** Proofs for Thm_Http1Keep. *)
From Coq Require Import String Ascii List Bool ZArith NArith Lia.
From Verif Require Import GoStr NumberSpec Header HeaderSpec HeaderProofs Exchange ExchangeSpec ExchangeProofs Machine MachineSpec Handler HandlerSpec SystemSpec SystemProofs
  HeadProofs ConformSpec ConformProofs Http2 Http2Spec Http2Proofs Http1 Http1Spec Http1Proofs Http1Close Http1Here HandlerCases ConformCases Http2Cases Http1Cases Http1Client Http1ClientSpec Http1ClientProofs.
Import ListNotations.
Local Open Scope string_scope.

Lemma token_keeps : forall a w b start, to_upper w = "KEEP-ALIVE" -> (a = "" /\ start = true) \/ (exists a' c, a = a' ++ String c "" /\ separates c) ->
  b = "" \/ (exists c b', b = String c b' /\ separates c) -> keep_token start (a ++ w ++ b) = true.
Proof.
  induction a as [|x a IH]; intros w b start U P Q.
  - destruct P as [[_ ->]|(a' & c & E & _)]; [|destruct a'; discriminate E].
    assert (L : String.length w = 10) by (rewrite <- to_upper_length, U; reflexivity).
    pose proof (substring_app w b) as S1. pose proof (get_app w b) as S2. rewrite L in S1, S2. cbn [append].
    destruct (w ++ b) as [|y v] eqn:E; [destruct w; [discriminate U|discriminate E]|]. cbn [keep_token]. rewrite S1, S2, U.
    change (String.eqb "KEEP-ALIVE" "KEEP-ALIVE") with true. cbn [andb]. destruct Q as [->|(c & b' & -> & Sc)]; [reflexivity|]. cbn [String.get]. apply boundary_separates in Sc. now rewrite Sc.
  - cbn [append keep_token]. apply orb_true_iff. right. apply IH; [exact U| |exact Q].
    destruct P as [[P _]|(a' & c & E & Sc)]; [discriminate P|]. destruct a' as [|y a']; cbn [append] in E; injection E as -> E.
    + left. split; [exact E|now apply boundary_separates].
    + right. exists a', c. now split.
Qed.

Lemma lists_keeps : forall v, lists_keep v -> keep_token true v = true.
Proof. intros v (a & w & b & -> & U & P & Q). apply token_keeps; [exact U| |exact Q]. destruct P as [->|P]; [left; now split|now right]. Qed.

Lemma kept_here : forall sniff now c r, hc_11 c = false -> hc_keep c = true -> hc_unread c = false -> values "Transfer-Encoding" (rp_header r) = [] ->
  (Z.of_nat (String.length (rp_body r)) <= 9223372036854775807)%Z -> (forall vs, values "Connection" (rp_header r) <> "close" :: vs) ->
  bodiless (hc_head c) (rp_status r) \/ values "Content-Length" (rp_header r) = [itoa_Z (Z.of_nat (String.length (rp_body r)))] ->
  h1_close (h1_write sniff now c r) = false.
Proof.
  intros sniff now c r V K U TE Big NC B.
  assert (HL : bodiless (hc_head c) (rp_status r) \/ (honest_length r /\ (Z.of_nat (String.length (rp_body r)) <= 9223372036854775807)%Z)) by (destruct B as [B|B]; [now left|right; split; [now right|exact Big]]).
  assert (CC : String.eqb (get "Connection" (rp_header r)) "close" = false).
  { rewrite get_values by reflexivity. destruct (values "Connection" (rp_header r)) as [|v vs]; [reflexivity|]. apply String.eqb_neq. intros ->. now apply (NC vs). }
  unfold h1_write. cbn [h1_close]. rewrite (no_mismatch c r HL), (te_none r TE), V, K, U, CC. cbn [String.eqb negb andb orb]. rewrite ?andb_true_r, ?andb_false_r, ?orb_false_r.
  destruct B as [B|B].
  - destruct (hc_head c) eqn:Hd; [reflexivity|]. destruct (body_allowed (rp_status r)) eqn:A; [now apply allowed_iff in A|]. cbn [negb andb orb]. now rewrite !orb_true_r.
  - rewrite get_values, B, (itoa_Z_atoi _ Big) by reflexivity. assert (L : Z.leb 0 (Z.of_nat (String.length (rp_body r))) = true) by (apply Z.leb_le; lia). rewrite L.
    rewrite orb_true_r. cbn [orb negb andb]. now rewrite ?andb_false_r.
Qed.

(** A client of HTTP/1.0 that asks gets its connection kept, if the response has a length or no body. *)
Lemma kept_client : forall sniff now t r, replies t r -> sized (t_req t) -> timely_run t -> canonical_answers (t_run t) ->
  (200 <= rp_status r <= 999)%Z -> (Z.of_nat (String.length (rp_body r)) <= 9223372036854775807)%Z -> framed_method (q_method (t_req t)) ->
  forall hd, (hd = true <-> q_method (t_req t) = "HEAD") -> bodiless hd (rp_status r) \/ values "Content-Length" (rp_header r) <> [] ->
  (forall vs, values "Connection" (rp_header r) <> "close" :: vs) -> forall v vs, values "Connection" (q_header (t_req t)) = v :: vs -> lists_keep v ->
  h1_close (h1_write sniff now (client_of false false (t_req t)) r) = false.
Proof.
  intros sniff now t r H Hq Ht Hc Hs Big M hd E B NC v vs Ev Lv. assert (X : hd = hc_head (client_of false false (t_req t))).
  { unfold client_of. cbn [hc_head]. destruct (String.eqb_spec (q_method (t_req t)) "HEAD") as [Y|Y]; [now apply E|]. destruct hd; [elim Y; now apply E|reflexivity]. }
  apply kept_here; [reflexivity| |reflexivity|exact (no_transfer t r H Hq Ht Hc)|exact Big|exact NC|].
  - unfold client_of. cbn [hc_keep negb andb]. rewrite get_values, Ev by reflexivity. now apply lists_keeps.
  - rewrite <- X. destruct B as [B|B]; [now left|]. rewrite X. destruct (honest_here (client_of false false (t_req t)) t r H Hq Hc Hs Big (method_head false false (t_req t) M)) as [Y|[[Y|Y] _]]; [now left|contradiction|now right].
Qed.

(** A page for a client of HTTP/1.0 that lists keep-alive *)
Definition keep_page : setting := Setting toy lib always live chance0 (ask "GET" "/mse6/x" "/mse6/x" [("Connection", "Keep-Alive")]) (at_once page_answer "abcd" 14).

Lemma keep_now : exists r, relayed keep_page r page_answer "abcd" /\ replies keep_page r /\ rp_status r = 200%Z. Proof. relayed_now. Qed.
Lemma keep_timely : timely_run keep_page. Proof. timely_now. Qed.
Lemma keep_answers : canonical_answers (t_run keep_page). Proof. answers_now. Qed.

Lemma keep_case : exists r, replies keep_page r /\ h1_close (h1_write sniff0 now0 (client_of false false (t_req keep_page)) r) = false.
Proof.
  destruct keep_now as (r & R & H & St). exists r. split; [exact H|].
  assert (Sq : sized (t_req keep_page)) by (unfold sized; cbn; lia).
  assert (Rp : rp_body r = "abcd" /\ values "Content-Length" (rp_header r) = ["4"] /\ values "Connection" (rp_header r) = ["keep-alive"]) by
    (destruct (relayed_proxied _ r _ _ R Sq keep_timely) as (dice & -> & _); vm_compute; repeat split; reflexivity).
  destruct Rp as (Bd & CL & Cn).
  apply (kept_client sniff0 now0 keep_page r H Sq keep_timely keep_answers) with (hd := false) (v := "Keep-Alive") (vs := []).
  - rewrite St. lia.
  - rewrite Bd. cbn. lia.
  - right. split; vm_compute; discriminate.
  - split; intros X; vm_compute in X; discriminate X.
  - right. rewrite CL. discriminate.
  - intros vs. rewrite Cn. discriminate.
  - reflexivity.
  - exists "", "Keep-Alive", "". split; [reflexivity|]. split; [reflexivity|]. split; now left.
Qed.

(** Whoever asks over HTTP/1.1 for the connection to be closed is told so. *)
Lemma told_client : forall sniff now u t r, replies t r -> sized (t_req t) -> timely_run t -> canonical_answers (t_run t) ->
  (200 <= rp_status r <= 999)%Z -> (Z.of_nat (String.length (rp_body r)) <= 9223372036854775807)%Z -> framed_method (q_method (t_req t)) -> asks_close (t_req t) ->
  exists v, In v (values "Connection" (h1_lines (h1_write sniff now (client_of true u (t_req t)) r))) /\ lists_close v.
Proof.
  intros sniff now u t r H Hq Ht Hc Hs Big M A. apply (told_here sniff now _ t r H Hq Hc Hs Big (method_head true u (t_req t) M)); [reflexivity|].
  apply closes_client; auto.
Qed.

(** A page for a client that asks for its connection to be closed behind *)
Definition close_page : setting := Setting toy lib always live chance0 (ask "GET" "/mse6/x" "/mse6/x" [("Connection", "TE, Close")]) (at_once page_answer "abcd" 14).

Lemma close_now : exists r, relayed close_page r page_answer "abcd" /\ replies close_page r /\ rp_status r = 200%Z. Proof. relayed_now. Qed.
Lemma close_timely : timely_run close_page. Proof. timely_now. Qed.
Lemma close_answers : canonical_answers (t_run close_page). Proof. answers_now. Qed.

Lemma close_case : exists r, replies close_page r /\ asks_close (t_req close_page) /\
  exists v, In v (values "Connection" (h1_lines (h1_write sniff0 now0 (client_of true false (t_req close_page)) r))) /\ lists_close v.
Proof.
  destruct close_now as (r & R & H & St). exists r. split; [exact H|].
  assert (Sq : sized (t_req close_page)) by (unfold sized; cbn; lia).
  assert (Bd : rp_body r = "abcd") by (destruct (relayed_proxied _ r _ _ R Sq close_timely) as (dice & -> & _); vm_compute; reflexivity).
  assert (A : asks_close (t_req close_page)) by (apply (proj1 (asks_iff false _)); vm_compute; reflexivity).
  split; [exact A|]. apply (told_client sniff0 now0 false close_page r H Sq close_timely close_answers); [rewrite St; lia|rewrite Bd; cbn; lia| |exact A].
  right. split; vm_compute; discriminate.
Qed.
