(** Cases for Thm_TraceLog. *)
From Coq Require Import String Ascii List Bool ZArith NArith Lia.
From Verif Require Import GoStr Header HeaderSpec Kid KidSpec KidProofs Regex Policy Config ConfigSpec ConfigProofs Routing Exchange ExchangeProofs Jwt JwtSpec JwtCases Machine MachineSpec MachineRaces
  Handler HandlerSpec HandlerCases SystemSpec SystemCases AccessLog AccessLogCases PrivacySpec PrivacyProofs TraceLog TraceLogSpec TraceLogProofs TraceLogServer.
Import ListNotations.
Local Open Scope string_scope.

Definition trace_of (t : setting) (x : wire) : option (list tevent) :=
  match mux_serve (about_paths (Config.c_routes (t_cfg t))) (t_in t) with
  | TAbout => Some (incoming_lines (t_env t) x (ch_fresh (t_chance t)) (t_req t))
  | TProxy =>
      let es0 := handler_lines (t_env t) (t_lib t) (t_cfg t) (t_chance t) x (t_req t) in
      match t_serve t with
      | Upstream c => match exec c init (t_run t) with Some _ => Some (es0 ++ attempt_uris c x init (t_run t))%list | None => None end
      | _ => Some es0
      end
  | _ => Some []
  end.

Lemma trace_there : forall t x es, trace_of t x = Some es -> exists ls, traces t x ls /\ events ls = es.
Proof.
  intros t x es H. eexists. split.
  - exists es. split; [reflexivity|]. unfold trace_of in H. destruct (mux_serve _ _); try (injection H as <-; reflexivity).
    cbv zeta in *. destruct (t_serve t) as [g|r|r|c|]; try (injection H as <-; reflexivity).
    destruct (exec c init (t_run t)); [|discriminate H]. injection H as <-. split; [discriminate|reflexivity].
  - unfold events. rewrite map_map. apply map_id.
Qed.

(** Two attempts on a route without a token *)
Lemma visit_trace : exists ls, traces visit from_home ls /\
  events ls = [TBody BNone; TParsed "/mse6/x" "GET" 0; TDefault "/mse6" "http://localhost:60083"; TUri "/mse6/x" "http://localhost:60083/x?y=1"; TUri "/mse6/x" "http://localhost:60083/x?y=1"].
Proof. apply trace_there. vm_compute. reflexivity. Qed.

Definition at_admin : wire := Wire "/admin" "10.1.2.3:51000" 1 1 None.

(** A token that is accepted, one with an unknown kid as well, one that is rejected, none at all *)
Lemma token_trace : exists ls, traces (secret_visit "old" "id=1" "xyz") at_admin ls /\
  events ls = [TBody (BRead 3 3); TParsed "/admin" "PUT" 3; TJwt (JwtEntry "/admin" None (Some (DateClaims None None None)) None);
    TDefault "/admin" "http://localhost:60083"; TUri "/admin" "http://localhost:60083/admin"].
Proof. apply trace_there. vm_compute. reflexivity. Qed.

Lemma rotation_trace : exists ls, traces (secret_visit old_k9 "id=1" "xyz") at_admin ls /\
  events ls = [TBody (BRead 3 3); TParsed "/admin" "PUT" 3; TRotate "/admin" "auth" "k9";
    TJwt (JwtEntry "/admin" (Some "k9") (Some (DateClaims None None None)) None);
    TDefault "/admin" "http://localhost:60083"; TUri "/admin" "http://localhost:60083/admin"].
Proof. apply trace_there. vm_compute. reflexivity. Qed.

Lemma reject_trace : exists ls, traces (secret_visit "new" "id=1" "xyz") at_admin ls /\
  events ls = [TBody (BRead 3 3); TParsed "/admin" "PUT" 3; TJwt (JwtEntry "/admin" None None (Some CParse))].
Proof. apply trace_there. vm_compute. reflexivity. Qed.

Lemma upload_trace : exists ls, traces upload at_admin ls /\ events ls = [TBody (BRefused 11 10); TParsed "/admin" "PUT" 0].
Proof. apply trace_there. vm_compute. reflexivity. Qed.

Lemma secret_sized : forall k c b, sized (t_req (secret_visit k c b)).
Proof. intros k c b. unfold sized. cbn. lia. Qed.

Lemma secret_sound : forall k c b, sound_request (t_env (secret_visit k c b)) (t_req (secret_visit k c b)).
Proof.
  intros k c b. split; [apply secret_sized|]. split; [cbn; tauto|]. intros [_ H2]. revert H2. cbn. lia.
Qed.

Definition admin_route : route := Route "/admin" None "" "todos" "" "auth".

Lemma secret_routed : forall k c b, exists r, routed (secret_visit k c b) r /\ r_path r = "/admin" /\ r_jwt r = "auth".
Proof.
  intros k c b. eexists. split; [split; [vm_compute; reflexivity|split; [apply secret_sound|vm_compute; reflexivity]]|]. split; reflexivity.
Qed.

Lemma answered : forall t st, match t_serve t with Answered r => Some (rp_status r) | _ => None end = Some st -> answered_with t st.
Proof. intros t st H. unfold answered_with. destruct (t_serve t) as [g|r|r|c|]; try discriminate H. exists r. split; [reflexivity|]. now injection H. Qed.

Lemma reject_401 : answered_with (secret_visit "new" "id=1" "xyz") 401.
Proof. apply answered. vm_compute. reflexivity. Qed.

Lemma upload_413 : answered_with upload 413.
Proof. apply answered. vm_compute. reflexivity. Qed.

Lemma secret_asks : exists y, asks (secret_visit "old" "id=1" "xyz") y /\ uq_uri y = "http://localhost:60083/admin" /\ uq_body y = "xyz".
Proof.
  assert (H : option_map (fun s => map (fun y => (uq_uri y, uq_body y)) (s_sent s)) (exec (conf_of (secret_visit "old" "id=1" "xyz")) init (t_run (secret_visit "old" "id=1" "xyz"))) =
    Some [("http://localhost:60083/admin", "xyz")]) by (vm_compute; reflexivity).
  destruct (exec _ init _) as [s|] eqn:E; [|discriminate H]. cbn [option_map] in H. destruct (s_sent s) as [|y [|y' l]] eqn:Q; try discriminate H.
  exists y. assert (H1 : (uq_uri y, uq_body y) = ("http://localhost:60083/admin", "xyz")) by now injection H as -> ->. injection H1 as H1 H2.
  split; [|split; assumption]. exists [y]. split; [|now left]. exists (conf_of (secret_visit "old" "id=1" "xyz")), s.
  split; [|exact Q]. split; [vm_compute; reflexivity|exact E].
Qed.

Lemma visit_routed : exists r, routed visit r /\ r_path r = "/mse6".
Proof.
  eexists. split; [split; [vm_compute; reflexivity|split; [|vm_compute; reflexivity]]|reflexivity].
  split; [unfold sized; cbn; lia|]. split; [cbn; tauto|]. intros [H1 H2]. revert H1. cbn. lia.
Qed.

(** * Policies *)

(** A route with a policy, which draws the label "default", and one server with label [lab] *)
Definition labelled (lab : string) : setting :=
  Setting toy lib always (Cfg [("split", [])] [Route "/" None "" "todos" "split" ""] [] [("todos", Some [RM "" ["other"] (Url "http" "one" 80); RM "" [lab] (Url "http" "two" 80)])]
      (Down 0 0 0 0 "" 0 "" "") (Upst 0 0 0 0 4 false)) chance0 (ask "GET" "/x" "/x" []) second_try.

Lemma mapped_trace : exists ls, traces (labelled "default") from_home ls /\
  events ls = [TBody BNone; TParsed "/mse6/x" "GET" 0; TMapped "/" "http://two:80" "default" "split"; TUri "/mse6/x" "http://two:80/x"; TUri "/mse6/x" "http://two:80/x"].
Proof. apply trace_there. vm_compute. reflexivity. Qed.

Lemma unmapped_trace : exists ls, traces (labelled "green") from_home ls /\ events ls = [TBody BNone; TParsed "/mse6/x" "GET" 0; TUnmapped "/"].
Proof. apply trace_there. vm_compute. reflexivity. Qed.

Lemma labelled_routed : forall lab, exists r, routed (labelled lab) r /\ r_path r = "/" /\ r_policy r = "split" /\ has_resource (labelled lab) r.
Proof.
  intros lab. eexists. split; [split; [vm_compute; reflexivity|split; [|vm_compute; reflexivity]]|].
  - split; [unfold sized; cbn; lia|]. split; [cbn; tauto|]. intros [H1 H2]. revert H1. cbn. lia.
  - split; [reflexivity|]. split; [reflexivity|]. eexists. reflexivity.
Qed.

Lemma unmapped_503 : answered_with (labelled "green") 503.
Proof. apply answered. vm_compute. reflexivity. Qed.

(** * Findings *)

(** C112: nothing is logged about the server if the resource of the route is not configured. *)
Lemma unmapped_silent : exists so srt cfg0 t x ls r, in_use so srt cfg0 (t_cfg t) /\ traces t x ls /\ routed t r /\ answered_with t 503 /\
  forall e, In e (events ls) -> ~ of_server e.
Proof.
  set (t := Setting toy lib always live chance0 (ask "GET" "/gone" "/gone" []) []).
  destruct (trace_there t from_home [TBody BNone; TParsed "/mse6/x" "GET" 0]) as (ls & T & E); [vm_compute; reflexivity|].
  exists key_source, isort_routes, site, t, from_home, ls. eexists. split; [exact live_in_use|]. split; [exact T|].
  split; [split; [vm_compute; reflexivity|split; [|vm_compute; reflexivity]]|].
  - split; [unfold sized; cbn; lia|]. split; [cbn; tauto|]. intros [H1 H2]. revert H1. cbn. lia.
  - split; [apply answered; vm_compute; reflexivity|]. rewrite E. intros e [<-|[<-|[]]] F; exact F.
Qed.

(** C111: a token that expired in 1970 is rejected for its dates, while the line shows none. *)
Lemma expired_unshown : exists so srt cfg0 t x ls e r j0 skew d, in_use so srt cfg0 (t_cfg t) /\ honest (t_lib t) /\ traces t x ls /\ sized (t_req t) /\
  In (TJwt e) (events ls) /\ routed t r /\ lookup (r_jwt r) (c_jwt cfg0) = Some (Some j0) /\ skew_configured (j_skew j0) skew /\
  je_cause e = Some CDates /\ je_dates e = Some d /\ shown_in_time (ch_now (t_chance t)) skew d.
Proof.
  set (t := Setting toy (small (Claims None None (Some 0%Z))) always live chance0 (t_in (secret_visit "old" "id=1" "xyz")) []).
  destruct (trace_there t at_admin [TBody (BRead 3 3); TParsed "/admin" "PUT" 3; TJwt (JwtEntry "/admin" None (Some (DateClaims None None None)) (Some CDates))])
    as (ls & T & E); [vm_compute; reflexivity|].
  destruct (secret_routed "old" "id=1" "xyz") as (r & R & _ & J).
  exists key_source, isort_routes, site, t, at_admin, ls. eexists. exists r, rs256, 120%Z. eexists. split; [exact live_in_use|]. split; [apply small_honest|]. split; [exact T|].
  split; [exact (secret_sized "old" "id=1" "xyz")|]. split; [rewrite E; right; right; left; reflexivity|]. split; [exact R|].
  split; [rewrite J; reflexivity|]. split; [now left|]. split; [reflexivity|]. split; [reflexivity|]. repeat split; intros z Z; discriminate Z.
Qed.

(** C111: nothing is logged about a token that ends the handler with a panic. *)
Lemma junk_unlogged : exists so srt cfg0 t x ls r, in_use so srt cfg0 (t_cfg t) /\ honest (t_lib t) /\ traces t x ls /\ routed t r /\ r_jwt r <> "" /\
  forall e, ~ In (TJwt e) (events ls).
Proof.
  set (t := secret_visit "junk" "id=1" "xyz").
  destruct (trace_there t at_admin [TBody (BRead 3 3); TParsed "/admin" "PUT" 3]) as (ls & T & E); [vm_compute; reflexivity|].
  destruct (secret_routed "junk" "id=1" "xyz") as (r & R & _ & J).
  exists key_source, isort_routes, site, t, at_admin, ls, r. split; [exact live_in_use|]. split; [apply small_honest|]. split; [exact T|]. split; [exact R|].
  split; [rewrite J; discriminate|]. rewrite E. intros e [F|[F|[]]]; discriminate F.
Qed.

(** * Tokens that look alike *)

Definition trusting : library := Library (fun _ => Some 1) (fun _ => Some no_dates) (fun _ _ _ => Some no_dates).

Definition trusted (token cookie body : string) : setting :=
  Setting toy trusting always live chance0 (t_in (secret_visit token cookie body)) (t_run (secret_visit token cookie body)).

Lemma trusted_alike : alike_auth (trusted "old" "id=1" "xyz") (trusted "new" "id=2" "uvw").
Proof.
  exists "Bearer old", "Bearer new". split; [reflexivity|]. split; [reflexivity|]. right. exists "old", "new".
  split; [apply bearer_of; no_space|]. split; [apply bearer_of; no_space|]. split; [reflexivity|]. split; [reflexivity|]. split; [reflexivity|].
  intros kid K. assert (A := proj2 (no_kid "old")). assert (B := proj2 (no_kid "new")).
  split; intros N; exfalso; [apply (B ltac:(vm_compute; reflexivity) kid K N)|apply (A ltac:(vm_compute; reflexivity) kid K N)].
Qed.

Lemma trusted_trace : exists ls, traces (trusted "old" "id=1" "xyz") at_admin ls /\
  events ls = [TBody (BRead 3 3); TParsed "/admin" "PUT" 3; TJwt (JwtEntry "/admin" None (Some (DateClaims None None None)) None);
    TDefault "/admin" "http://localhost:60083"; TUri "/admin" "http://localhost:60083/admin"].
Proof. apply trace_there. vm_compute. reflexivity. Qed.
