(** A case for Thm_System: the first attempt fails, the second is answered. *)
From Coq Require Import String Ascii List Bool ZArith NArith Lia.
From Verif Require Import GoStr Header HeaderSpec Regex Policy Config ConfigSpec Exchange ExchangeSpec ExchangeProofs Jwt JwtSpec JwtCases Machine MachineSpec MachineRaces
  Handler HandlerSpec HandlerCases SystemSpec.
Import ListNotations.
Local Open Scope string_scope.

Definition second_try : list label :=
  ([LMain 0; LDo 0 None; LSetResp 0; LCloseHdr 0; LSel CComplete; LMain 0; LMain 0; LMain 0; LMain 0;
    LDo 1 (Some created); LSetResp 1; LCloseHdr 1; LSel CComplete; LMain 0; LMain 0; LStatus 1; LRead 1 "ok" true;
    LGz 1; LCloseBody 1; LSel CComplete] ++ repeat (LMain 0) 16)%list.

(** A request to the site of HandlerCases, on the route "/mse6" with transform "/" *)
Definition visit : setting :=
  Setting toy lib always live chance0 (ask "get" "/mse6/x?y=1" "/mse6/x" [("X-Request-Id", "mine"); ("Server", "me")]) second_try.

Definition conf_of (t : setting) : conf := match t_serve t with Upstream c => c | _ => gets 1 end.

Lemma visit_conf : forall c, t_serve visit = Upstream c -> c = conf_of visit.
Proof. intros c H. unfold conf_of. rewrite H. reflexivity. Qed.

Lemma visit_upstream : t_serve visit = Upstream (conf_of visit).
Proof. vm_compute. reflexivity. Qed.

Lemma ran_outcome : forall t c us ss, t_serve t = Upstream c ->
  option_map (fun s => (map uq_uri (s_sent s), map rp_status (s_out s))) (exec c init (t_run t)) = Some (us, ss) ->
  exists s, ran t c s /\ map uq_uri (s_sent s) = us /\ map rp_status (s_out s) = ss.
Proof.
  intros t c us ss H V. destruct (exec c init (t_run t)) as [s|] eqn:E; [|discriminate V].
  exists s. split; [split; [exact H|exact E]|]. cbn [option_map] in V. injection V as V1 V2. split; assumption.
Qed.

Lemma visit_ran : exists s, ran visit (conf_of visit) s /\
  map uq_uri (s_sent s) = ["http://localhost:60083/x?y=1"; "http://localhost:60083/x?y=1"] /\ map rp_status (s_out s) = [201%Z].
Proof. apply ran_outcome; [exact visit_upstream|vm_compute; reflexivity]. Qed.

Lemma visit_timely : timely_run visit.
Proof. intros c s [H _]. rewrite (visit_conf c H). clear. vm_compute. tauto. Qed.

Lemma visit_sized : sized (t_req visit).
Proof. unfold sized. cbn. lia. Qed.

Lemma visit_asks : exists x, asks visit x /\ uq_uri x = "http://localhost:60083/x?y=1".
Proof.
  destruct visit_ran as (s & H & U & _). destruct (s_sent s) as [|x l] eqn:E; [discriminate U|]. injection U as U _.
  exists x. split; [|exact U]. exists (x :: l)%list. split; [exists (conf_of visit), s; now split|now left].
Qed.

Lemma visit_relayed : exists r, relayed visit r created "ok" /\ replies visit r.
Proof.
  destruct visit_ran as (s & H & U & R). destruct (s_out s) as [|r [|r' l]] eqn:E; try discriminate R. exists r. injection R as R.
  assert (L : length (s_sent s) = 2) by (rewrite <- (map_length uq_uri), U; reflexivity).
  split.
  - exists (conf_of visit), s. split; [exact H|]. split; [exact E|]. split; [rewrite R; cbn; lia|]. rewrite L. split; cbn; tauto.
  - right. right. exists (conf_of visit), s. split; [exact H|]. rewrite E. now left.
Qed.

Lemma visit_canonical : canonical_answers (t_run visit) /\ canonical_keys (q_header (t_req visit)).
Proof.
  split.
  - intros i rs H. repeat (destruct H as [H|H]; [try discriminate H; injection H as _ <-; intros k v [K|[]]; injection K as <- <-; reflexivity|]).
    destruct H.
  - intros k v [H|[H|[]]]; injection H as <- <-; reflexivity.
Qed.

(** Eleven bytes where ten are allowed *)
Definition upload : setting :=
  Setting toy lib always (Cfg [] (c_routes live) [] (c_resources live) (Down 0 0 0 10 "TLS" 443 "" "") (Upst 0 0 0 0 4 false)) chance0
    (Incoming (Req "PUT" "/todo" "/todo" [] 11 "hello world" true) "/todo") [].

Lemma upload_case : proxied_request (t_cfg upload) (t_in upload) /\ honest_length (t_req upload) /\ configured upload /\
  (0 <= d_max_body (Config.c_down (t_cfg upload)) < Z.of_nat (String.length (q_data (t_req upload))))%Z.
Proof.
  split; [vm_compute; reflexivity|]. split; [repeat split; cbn; lia|]. split; [split; [reflexivity|split; reflexivity]|]. cbn. lia.
Qed.

Lemma upload_reply : configured upload /\ sized (t_req upload) /\ canonical_answers (t_run upload) /\
  exists r, replies upload r /\ rp_status r = 413%Z.
Proof.
  split; [split; [reflexivity|split; reflexivity]|]. split; [unfold sized; cbn; lia|]. split; [intros i rs []|].
  eexists. split; [right; left; vm_compute; reflexivity|reflexivity].
Qed.
