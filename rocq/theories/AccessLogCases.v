(** Cases for Thm_AccessLog, and runs that log nothing or something else than what was sent. *)
From Coq Require Import String Ascii List Bool ZArith NArith Lia.
From Verif Require Import GoStr Header HeaderSpec Iprex IprexSpec Json JsonSpec JsonProofs Policy Config Exchange ExchangeSpec ExchangeProofs Jwt Machine MachineSpec MachineRaces
  Handler HandlerSpec HandlerCases SystemSpec SystemProofs SystemCases AccessLog AccessLogSpec AccessLogProofs.
Import ListNotations.
Local Open Scope string_scope.

(** * [logs] and [replies], computed *)

Definition lines_of (t : setting) (x : wire) : option (list entry) :=
  match mux_serve (about_paths (Config.c_routes (t_cfg t))) (t_in t) with
  | TAbout => Some [about_entry (t_env t) x (ch_fresh (t_chance t)) (t_req t)]
  | TProxy =>
      match decide (t_env t) (t_lib t) (t_new t) (t_cfg t) (t_chance t) (t_req t) with
      | Refuse status message =>
          Some [refusal_entry (t_env t) x (t_req t) (parse_incoming (t_env t) (ch_fresh (t_chance t)) (t_req t)) status message]
      | Attempt c label => option_map ls_lines (lexec c label x (t_req t) linit (t_run t))
      | Burst => Some []
      end
  | _ => Some []
  end.

Lemma lines_of_logs : forall t x es, lines_of t x = Some es -> logs t x es.
Proof.
  intros t x es H. unfold lines_of, logs in *. destruct (mux_serve _ _); try (injection H as <-; reflexivity).
  destruct (decide _ _ _ _ _ _) as [st m|c lab|]; try (injection H as <-; reflexivity).
  destruct (lexec _ _ _ _ _ _) as [ls|]; [|discriminate H]. exists ls. split; [reflexivity|]. now injection H as <-.
Qed.

Lemma some_lines : forall A t x (f : entry -> A) vs, option_map (map f) (lines_of t x) = Some vs -> exists es, logs t x es /\ map f es = vs.
Proof.
  intros A t x f vs H. destruct (lines_of t x) as [es|] eqn:E; [|discriminate H]. exists es. split; [now apply lines_of_logs|].
  now injection H.
Qed.

Lemma one_line : forall A t x (f : entry -> A) v, option_map (map f) (lines_of t x) = Some [v] -> exists e, logs t x [e] /\ f e = v.
Proof.
  intros A t x f v H. destruct (some_lines A t x f _ H) as (es & H1 & H2). destruct es as [|e [|e' es]]; try discriminate H2.
  exists e. split; [exact H1|]. now injection H2.
Qed.

Definition replies_of (t : setting) : list response :=
  match t_serve t with
  | About r => [r]
  | Answered r => [r]
  | Upstream c => match exec c init (t_run t) with Some s => s_out s | None => [] end
  | _ => []
  end.

Lemma replies_of_replies : forall t r, In r (replies_of t) -> replies t r.
Proof.
  intros t r H. unfold replies_of in H. destruct (t_serve t) as [tt|r'|r'|c|] eqn:E; cbn [In] in H; try contradiction.
  - left. destruct H as [->|[]]. exact E.
  - right. left. destruct H as [->|[]]. exact E.
  - right. right. destruct (exec c init (t_run t)) as [s|] eqn:X; [|destruct H]. exists c, s. split; [split; assumption|exact H].
Qed.

Lemma one_reply : forall A t (f : response -> A) v, map f (replies_of t) = [v] -> exists r, replies t r /\ f r = v.
Proof.
  intros A t f v H. destruct (replies_of t) as [|r l] eqn:E; [discriminate H|]. exists r. injection H as H _. split; [|exact H].
  apply replies_of_replies. rewrite E. now left.
Qed.

(** * Lines *)

Definition from_home : wire := Wire "/mse6/x" "10.1.2.3:51000" 1 1 None.

Lemma visit_line : exists e, logs visit from_home [e] /\
  (l_status e, l_id e, l_method e, l_addr e, l_warn e, l_encoding e) = (201%Z, "mine", "GET", "10.1.2.3", false, "identity") /\
  l_up e = Some (UpEntry "http://localhost:60083/x?y=1" "default" 201 false "2/4").
Proof.
  destruct (one_line _ visit from_home (fun e => ((l_status e, l_id e, l_method e, l_addr e, l_warn e, l_encoding e), l_up e))
    ((201%Z, "mine", "GET", "10.1.2.3", false, "identity"), Some (UpEntry "http://localhost:60083/x?y=1" "default" 201 false "2/4")))
    as (e & H1 & H2); [vm_compute; reflexivity|]. exists e. split; [exact H1|]. split; [exact (f_equal fst H2)|exact (f_equal snd H2)].
Qed.

Lemma ended : forall t c, t_serve t = Upstream c -> option_map s_pc (exec c init (t_run t)) = Some PDone -> over t.
Proof.
  intros t c H V c' s [H1 H2]. assert (c' = c) by congruence. subst c'. rewrite H2 in V. left. now injection V.
Qed.

Lemma visit_over : over visit.
Proof. apply (ended visit (conf_of visit)); [exact visit_upstream|vm_compute; reflexivity]. Qed.

(** The request is refused with an error document. *)
Definition refused : setting :=
  Setting toy lib always live chance0 (ask "GET" "/gone" "/gone" [("X-Request-Id", "mine")]) [].

Lemma refused_case : exists e r, logs refused from_home [e] /\ replies refused r /\ sized (t_req refused) /\ timely_run refused /\
  utf8 (e_id (t_env refused)) /\ utf8 (e_version (t_env refused)) /\ no_gzip_client (t_req refused) /\ rp_status r = 503%Z /\
  l_error e = Some "unable to map upstream resource".
Proof.
  destruct (one_line _ refused from_home l_error (Some "unable to map upstream resource")) as (e & H1 & H2); [vm_compute; reflexivity|].
  destruct (one_reply _ refused rp_status 503%Z) as (r & R1 & R2); [vm_compute; reflexivity|].
  exists e, r. split; [exact H1|]. split; [exact R1|]. split; [unfold sized; cbn; lia|].
  split; [intros c s [H _]; vm_compute in H; discriminate H|]. split; [apply ascii_is_utf8; intros c H; repeat (apply orb_prop in H; destruct H as [H|H]; [apply Ascii.eqb_eq in H; subst c; reflexivity|]); discriminate H|].
  split; [apply ascii_is_utf8; intros c H; repeat (apply orb_prop in H; destruct H as [H|H]; [apply Ascii.eqb_eq in H; subst c; reflexivity|]); discriminate H|]. split; [intros v F; destruct F|]. split; assumption.
Qed.

(** * Findings *)

(** C71: attempt 0 fails after it has timed out, and its goroutine stores the missing response in
    attempt 1 between the two places where the line reads it. *)
Definition unlogged : setting :=
  Setting toy lib always live chance0 (ask "get" "/mse6/x?y=1" "/mse6/x" [])
    ([LMain 0; LDo 0 None; LUpTimer 0; LSel CUp; LMain 0; LMain 0; LMain 0;
      LMain 0; LDo 1 (Some created); LSetResp 1; LCloseHdr 1; LSel CComplete; LMain 0; LMain 0;
      LStatus 1; LRead 1 "ok" true; LGz 1; LCloseBody 1; LSel CComplete] ++ repeat (LMain 0) 15 ++ [LSetResp 0; LMain 0])%list.

Lemma no_line : exists t x r, replies t r /\ rp_status r = 201%Z /\ over t /\ logs t x [].
Proof.
  destruct (one_reply _ unlogged rp_status 201%Z) as (r & R1 & R2); [vm_compute; reflexivity|].
  destruct (some_lines _ unlogged from_home l_status []) as (es & L1 & L2); [vm_compute; reflexivity|].
  exists unlogged, from_home, r. split; [exact R1|]. split; [exact R2|]. split.
  - assert (V : t_serve unlogged = Upstream (conf_of unlogged)) by (vm_compute; reflexivity).
    assert (P : option_map s_pc (exec (conf_of unlogged) init (t_run unlogged)) = Some PPanic) by (vm_compute; reflexivity).
    intros c' s [H1 H2]. rewrite V in H1. injection H1 as <-. rewrite H2 in P. right. now injection P.
  - destruct es; [exact L1|discriminate L2].
Qed.

(** C72: a late status makes the response an error with the body of the upstream; the line says "none". *)
Definition misnamed : setting :=
  Setting toy lib always live chance0 (ask "get" "/mse6/x?y=1" "/mse6/x" []) (late_status (UpResp 503 []) ++ [LMain 0])%list.

Lemma late_message : exists t x e r, logs t x [e] /\ replies t r /\ (400 <= rp_status r)%Z /\ no_gzip_client (t_req t) /\
  l_error e = Some "none" /\ rp_body r = "ok".
Proof.
  destruct (one_line _ misnamed from_home l_error (Some "none")) as (e & H1 & H2); [vm_compute; reflexivity|].
  destruct (one_reply _ misnamed (fun r => (rp_status r, rp_body r)) (503%Z, "ok")) as (r & R1 & R2); [vm_compute; reflexivity|].
  exists misnamed, from_home, e, r. split; [exact H1|]. split; [exact R1|]. injection R2 as R2 R3. split; [rewrite R2; lia|].
  split; [intros v F; destruct F|]. split; assumption.
Qed.

(** C73: the four kinds of responses whose line names another encoding *)
Definition gzip_client : header := [("Accept-Encoding", "gzip")].

Definition about_visit : setting := Setting toy lib always live chance0 (ask "GET" "/about" "/about" gzip_client) [].
Definition gzip_refused : setting := Setting toy lib always live chance0 (ask "GET" "/gone" "/gone" gzip_client) [].
Definition br_refused : setting :=
  Setting toy lib always live chance0 (ask "GET" "/x" "/x" [])
    (MachineRaces.answer (UpResp 404 [("Content-Encoding", "br")]) "gone" ++ repeat (LMain 0) 9)%list.
Definition empty_answer : setting :=
  Setting toy lib always live chance0 (ask "GET" "/x" "/x" gzip_client)
    (MachineRaces.answer (UpResp 204 []) "" ++ repeat (LMain 0) 12)%list.

Ltac encodings t enc st ces :=
  let e := fresh "e" in let r := fresh "r" in let H1 := fresh in let H2 := fresh in let R1 := fresh in let R2 := fresh in
  destruct (one_line _ t from_home l_encoding enc) as (e & H1 & H2); [vm_compute; reflexivity|];
  destruct (one_reply _ t (fun r => (rp_status r, values "Content-Encoding" (rp_header r))) (st, ces)) as (r & R1 & R2); [vm_compute; reflexivity|];
  exists t, from_home, e, r; injection R2 as R2 R3; split; [eassumption|]; split; [eassumption|]; split; [assumption|]; split; assumption.

Lemma about_encoding : exists t x e r, logs t x [e] /\ replies t r /\ rp_status r = 200%Z /\
  values "Content-Encoding" (rp_header r) = ["gzip"] /\ l_encoding e = "identity".
Proof. encodings about_visit "identity" 200%Z ["gzip"]. Qed.

Lemma refused_encoding : exists t x e r, logs t x [e] /\ replies t r /\ rp_status r = 503%Z /\
  values "Content-Encoding" (rp_header r) = [] /\ l_encoding e = "gzip".
Proof. encodings gzip_refused "gzip" 503%Z (@nil string). Qed.

Lemma br_encoding : exists t x e r, logs t x [e] /\ replies t r /\ rp_status r = 404%Z /\
  values "Content-Encoding" (rp_header r) = [] /\ l_encoding e = "br".
Proof. encodings br_refused "br" 404%Z (@nil string). Qed.

Lemma empty_encoding : exists t x e r, logs t x [e] /\ replies t r /\ rp_status r = 204%Z /\
  values "Content-Encoding" (rp_header r) = [] /\ l_encoding e = "gzip".
Proof. encodings empty_answer "gzip" 204%Z (@nil string). Qed.

Lemma relayed_reply : forall A t (f : response -> A) r rs body v, relayed t r rs body -> map f (replies_of t) = [v] -> f r = v.
Proof.
  intros A t f r rs body v (c & s & [R1 R2] & O & _) H. unfold replies_of in H. rewrite R1, R2, O in H. cbn [map] in H. injection H as H. exact H.
Qed.

Lemma visit_body : exists e r, logs visit from_home [e] /\ relayed visit r created "ok" /\ canonical_keys (ur_header created) /\
  ~ (400 <= ur_status created < 500)%Z /\ rp_body r = "ok".
Proof.
  destruct visit_line as (e & H1 & _). destruct visit_relayed as (r & H2 & _). exists e, r. split; [exact H1|]. split; [exact H2|].
  split; [intros k v [K|[]]; injection K as <- <-; reflexivity|]. split; [cbn; lia|].
  apply (relayed_reply _ visit rp_body r created "ok" "ok" H2). vm_compute. reflexivity.
Qed.

(** C74: four attempts without an answer *)
Definition failing (i : nat) : list label := [LMain 0; LDo i None; LSetResp i; LCloseHdr i; LSel CComplete; LMain 0; LMain 0; LMain 0].

Definition unanswered : setting :=
  Setting toy lib always live chance0 (ask "GET" "/x" "/x" [])
    (failing 0 ++ failing 1 ++ failing 2 ++ failing 3 ++ repeat (LMain 0) 3)%list.

Lemma run_ends : forall t c n, t_serve t = Upstream c ->
  option_map (fun s => (s_pc s, length (s_sent s))) (exec c init (t_run t)) = Some (PDone, n) ->
  over t /\ exists ys, sends t ys /\ length ys = n.
Proof.
  intros t c n V P. destruct (exec c init (t_run t)) as [s|] eqn:E; [|discriminate P]. cbn [option_map] in P. injection P as P1 P2. split.
  - intros c' s' [R1 R2]. assert (c' = c) by congruence. subst c'. assert (s' = s) by congruence. subst s'. left. exact P1.
  - exists (s_sent s). split; [exists c, s; split; [split; assumption|reflexivity]|exact P2].
Qed.

Lemma on_time_run : forall t c, t_serve t = Upstream c -> on_time c init (t_run t) -> timely_run t.
Proof. intros t c V H c' s [R _]. assert (c' = c) by congruence. subst c'. exact H. Qed.

Lemma unmentioned : exists t x e ys, logs t x [e] /\ timely_run t /\ over t /\ sends t ys /\ length ys = 4 /\ l_up e = None.
Proof.
  assert (V : t_serve unanswered = Upstream (conf_of unanswered)) by (vm_compute; reflexivity).
  destruct (one_line _ unanswered from_home l_up None) as (e & H1 & H2); [vm_compute; reflexivity|].
  destruct (run_ends unanswered (conf_of unanswered) 4 V) as (H3 & ys & H4 & H5); [vm_compute; reflexivity|].
  exists unanswered, from_home, e, ys. split; [exact H1|]. split.
  - apply (on_time_run unanswered (conf_of unanswered) V). clear. vm_compute. tauto.
  - split; [exact H3|]. split; [exact H4|]. split; [exact H5|exact H2].
Qed.
