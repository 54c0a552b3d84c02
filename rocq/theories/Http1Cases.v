(** Cases and counterexamples for Thm_Http1: one attempt, answered at once. *)
From Coq Require Import String Ascii List Bool ZArith NArith Lia.
From Verif Require Import GoStr NumberSpec Header HeaderSpec Config Exchange ExchangeSpec ExchangeProofs Machine MachineSpec Handler HandlerSpec HandlerCases
  HeadProofs SystemSpec SystemProofs SystemCases ConformSpec ConformProofs ConformCases Http2 Http2Spec Http2Proofs Http2Cases Http1 Http1Spec Http1Proofs Http1Close.
Import ListNotations.
Local Open Scope string_scope.

Definition fetch_by (m : string) (rs : up_response) (body : string) (n : nat) : setting :=
  Setting toy lib always live chance0 (ask m "/mse6/x" "/mse6/x" []) (at_once rs body n).

Definition web : h1_client := H1Client true false false false false.
Definition old_web : h1_client := H1Client false false true false false.

Definition page_answer : up_response := UpResp 200 [("Content-Type", "text/html"); ("Connection", "keep-alive")].
Definition sized_answer : up_response := UpResp 200 [("Content-Length", "4")].
Definition listing_answer : up_response := UpResp 200 [("Connection", "close, upgrade")].
Definition blank_answer : up_response := UpResp 200 [("Content-Encoding", "")].

Ltac canonical_now := let H := fresh in intros ? ? H; repeat (destruct H as [H|H]; [injection H as <- <-; reflexivity|]); destruct H.
Ltac answers_now := let H := fresh in intros ? ? H; repeat (destruct H as [H|H]; [try discriminate H; injection H as _ <-; canonical_now|]); destruct H.

Lemma page_now : exists r, relayed (fetch_by "GET" page_answer "abcd" 14) r page_answer "abcd" /\ replies (fetch_by "GET" page_answer "abcd" 14) r /\ rp_status r = 200%Z.
Proof. relayed_now. Qed.
Lemma page_timely : timely_run (fetch_by "GET" page_answer "abcd" 14). Proof. timely_now. Qed.
Lemma page_answers : canonical_answers (t_run (fetch_by "GET" page_answer "abcd" 14)). Proof. answers_now. Qed.
Lemma by_sized : forall m rs body n, sized (t_req (fetch_by m rs body n)).
Proof. intros. unfold sized. cbn. lia. Qed.

Lemma connect_now : exists r, relayed (fetch_by "CONNECT" page_answer "abcd" 14) r page_answer "abcd" /\ replies (fetch_by "CONNECT" page_answer "abcd" 14) r /\ rp_status r = 200%Z.
Proof. relayed_now. Qed.
Lemma head_now : exists r, relayed (fetch_by "head" sized_answer "" 14) r sized_answer "" /\ replies (fetch_by "head" sized_answer "" 14) r /\ rp_status r = 200%Z.
Proof. relayed_now. Qed.
Lemma listing_now : exists r, relayed (fetch_by "GET" listing_answer "abcd" 14) r listing_answer "abcd" /\ replies (fetch_by "GET" listing_answer "abcd" 14) r /\ rp_status r = 200%Z.
Proof. relayed_now. Qed.
Lemma blank_now : exists r, relayed (fetch_by "GET" blank_answer "abcd" 14) r blank_answer "abcd" /\ replies (fetch_by "GET" blank_answer "abcd" 14) r /\ rp_status r = 200%Z.
Proof. relayed_now. Qed.

Lemma page_lines : forall sniff now c r, relayed (fetch_by "GET" page_answer "abcd" 14) r page_answer "abcd" -> c = web \/ c = old_web -> now = now0 ->
  h1_lines (h1_write sniff now c r) =
    [("Server", "j8a v0.7.2 unknown"); ("Strict-Transport-Security", "max-age=31536000"); ("X-Request-Id", "XR-unknown-uuid"); ("Content-Type", "text/html");
     ("Connection", "keep-alive"); ("Content-Length", "4"); ("Content-Encoding", "identity"); ("Date", now0)] /\ h1_close (h1_write sniff now c r) = false.
Proof.
  intros sniff now c r R K ->. destruct (relayed_proxied _ r _ _ R (by_sized _ _ _ _) page_timely) as (dice & -> & _). clear R. destruct K as [->| ->]; vm_compute; split; reflexivity.
Qed.

Lemma method_plain : forall rs body n, to_upper (q_method (t_req (fetch_by "GET" rs body n))) <> "HEAD" /\ to_upper (q_method (t_req (fetch_by "GET" rs body n))) <> "CONNECT".
Proof. intros. split; vm_compute; discriminate. Qed.

Lemma page_carried : exists r, replies (fetch_by "GET" page_answer "abcd" 14) r /\ carries false (h1_write sniff0 now0 web r) "abcd" /\ carries false (h1_write sniff0 now0 old_web r) "abcd".
Proof.
  destruct page_now as (r & R & H & St). exists r. split; [exact H|].
  assert (Bd : rp_body r = "abcd") by (destruct (relayed_proxied _ r _ _ R (by_sized _ _ _ _) page_timely) as (dice & -> & _); vm_compute; reflexivity).
  assert (NB : ~ bodiless false (rp_status r)) by (rewrite St; intros [X|[X|[X|X]]]; (discriminate X || lia)).
  assert (All : forall c, hc_head c = false -> carries false (h1_write sniff0 now0 c r) "abcd").
  { intros c Hh. rewrite <- Bd, <- Hh. apply (framed_here sniff0 now0 c _ r H (by_sized _ _ _ _) page_timely page_answers).
    - rewrite St. lia.
    - rewrite Bd. cbn. lia.
    - right. apply method_plain.
    - now rewrite Hh. }
  split; apply All; reflexivity.
Qed.

(** A CONNECT loses the body that its upstream sent. *)
Lemma connect_lost : exists t r rs, relayed t r rs "abcd" /\ replies t r /\ (200 <= ur_status rs <= 299)%Z /\
  rp_body r = "abcd" /\ forall sniff now, carries false (h1_write sniff now web r) "" /\ h1_close (h1_write sniff now web r) = true /\
    values "Connection" (h1_lines (h1_write sniff now web r)) = ["keep-alive"].
Proof.
  destruct connect_now as (r & R & H & St). exists (fetch_by "CONNECT" page_answer "abcd" 14), r, page_answer. split; [exact R|]. split; [exact H|]. split; [cbn; lia|].
  assert (T : timely_run (fetch_by "CONNECT" page_answer "abcd" 14)) by timely_now.
  destruct (relayed_proxied _ r _ _ R (by_sized _ _ _ _) T) as (dice & -> & _). clear. split; [vm_compute; reflexivity|]. intros sniff now. split; [|split; destruct now; vm_compute; reflexivity].
  split; [|vm_compute; discriminate]. intros _. eapply cr_sized with (v := "0").
  - vm_compute. intros [X|[[_ X]|[X|X]]]; (discriminate X || congruence).
  - destruct now; vm_compute; reflexivity.
  - destruct now; vm_compute; reflexivity.
  - apply (itoa_Z_numeral 0).
  - vm_compute. reflexivity.
Qed.

(** A request whose method is head in lower case gets the length of a body that never comes. *)
Lemma head_broken : exists t r rs, relayed t r rs "" /\ replies t r /\ (200 <= ur_status rs <= 299)%Z /\ forall sniff now b, ~ carries false (h1_write sniff now web r) b.
Proof.
  destruct head_now as (r & R & H & St). exists (fetch_by "head" sized_answer "" 14), r, sized_answer. split; [exact R|]. split; [exact H|]. split; [cbn; lia|].
  assert (T : timely_run (fetch_by "head" sized_answer "" 14)) by timely_now.
  destruct (relayed_proxied _ r _ _ R (by_sized _ _ _ _) T) as (dice & -> & _). clear. intros sniff now b [C _].
  assert (K : h1_close (h1_write sniff now web (proxied (t_env (fetch_by "head" sized_answer "" 14)) dice (parsed (fetch_by "head" sized_answer "" 14)) sized_answer "")) = true) by (vm_compute; reflexivity).
  specialize (C K). remember (h1_write _ _ _ _) as m eqn:M.
  assert (Em : h1_bytes m = "") by (rewrite M; vm_compute; reflexivity).
  assert (Cl : values "Content-Length" (h1_lines m) = ["4"]) by (rewrite M; destruct now; vm_compute; reflexivity).
  assert (Te : values "Transfer-Encoding" (h1_lines m) = []) by (rewrite M; destruct now; vm_compute; reflexivity).
  assert (Ms : h1_status m = 200%Z) by (rewrite M; vm_compute; reflexivity). clear M. rewrite Em, Ms in C.
  inversion C as [B|body rest NB TE|v body rest NB TE CL NU EQ|NB TE CL]; subst.
  - destruct B as [X|[X|[X|X]]]; (discriminate X || lia).
  - rewrite Te in TE. discriminate TE.
  - rewrite Cl in CL. injection CL as <-. destruct b; [|discriminate EQ]. cbn in NU.
    pose proof (numeral_one "4" 0 4 NU (itoa_Z_numeral 4)) as X. discriminate X.
  - rewrite Cl in CL. discriminate CL.
Qed.

(** A Connection line that lists close, and a connection that is kept *)
Lemma told_kept : exists t r rs body, relayed t r rs body /\ replies t r /\
  forall sniff now, h1_close (h1_write sniff now web r) = false /\ exists v, In v (values "Connection" (h1_lines (h1_write sniff now web r))) /\ lists_close v.
Proof.
  destruct listing_now as (r & R & H & St). exists (fetch_by "GET" listing_answer "abcd" 14), r, listing_answer, "abcd". split; [exact R|]. split; [exact H|].
  assert (T : timely_run (fetch_by "GET" listing_answer "abcd" 14)) by timely_now.
  destruct (relayed_proxied _ r _ _ R (by_sized _ _ _ _) T) as (dice & -> & _). clear. intros sniff now. split; [vm_compute; reflexivity|].
  exists "close, upgrade". split; [vm_compute; now left|]. exists "", "close", ", upgrade". split; [reflexivity|]. split; [reflexivity|]. split; [now left|]. right.
  exists ","%char, " upgrade". split; [reflexivity|]. right. now left.
Qed.

(** A type that the upstream did not send *)
Lemma guessed : exists t r rs body, relayed t r rs body /\ replies t r /\ values "Content-Type" (ur_header rs) = [] /\
  forall sniff now, sniff body <> "" -> values "Content-Type" (h1_lines (h1_write sniff now web r)) = [sniff body].
Proof.
  destruct blank_now as (r & R & H & St). exists (fetch_by "GET" blank_answer "abcd" 14), r, blank_answer, "abcd". split; [exact R|]. split; [exact H|]. split; [reflexivity|].
  assert (T : timely_run (fetch_by "GET" blank_answer "abcd" 14)) by timely_now.
  destruct (relayed_proxied _ r _ _ R (by_sized _ _ _ _) T) as (dice & -> & _). clear. intros sniff now NE. unfold h1_write. cbn [h1_lines]. rewrite !values_app, !optional_values.
  remember (sniff "abcd") as g eqn:G. destruct now; vm_compute; rewrite <- G; (destruct g; [congruence|]); reflexivity.
Qed.
