(** Cases for Thm_Handler: one configuration and a few requests. *)
From Coq Require Import String Ascii List Bool ZArith NArith Lia.
From Verif Require Import GoStr Regex RegexSpec Header Policy Config ConfigSpec ConfigProofs Routing Exchange Jwt JwtSpec JwtCases Machine Handler HandlerSpec HandlerProofs ExchangeProofs.
Import ListNotations.
Local Open Scope string_scope.

Definition site_routes : list route :=
  [Route "/" None "" "todos" "" ""; Route "/admin" None "" "todos" "" "auth"; Route "/about" None "" "about" "" "auth";
   Route "/empty" None "" "none" "" ""; Route "/mse6" None "/" "todos" "" ""; Route "/gone" None "" "nowhere" "" ""].

Definition site_with (rs : list route) : config jwt :=
  Cfg [] rs [("auth", Some rs256)] [("todos", Some [RM "" [] (Url "" "localhost" 60083)]); ("none", Some [])]
      (Down 0 0 0 0 "" 0 "" "") (Upst 0 0 0 0 4 false).

Definition site : config jwt := site_with site_routes.

Definition key_source : sources := Sources (fun _ => no_pem) (fun _ => "") (fun _ => Some doc_old).

Definition booted (c : config jwt) : config jwt := match Config.boot jwt (jwt_checked key_source) isort_routes c with Some c' => c' | None => c end.

Definition live : config jwt := booted site.

Lemma booted_in_use : forall rs, Config.boot jwt (jwt_checked key_source) isort_routes (site_with rs) <> None ->
  c_jwt (booted (site_with rs)) = [("auth", Some (boot rs256 (Some doc_old)))] ->
  in_use key_source isort_routes (site_with rs) (booted (site_with rs)).
Proof.
  intros rs H Hj. split; [apply isort_sorts|]. exists (booted (site_with rs)). unfold booted at 1.
  destruct (Config.boot _ _ _ (site_with rs)) as [c|] eqn:E; [|congruence].
  split; [reflexivity|]. repeat (split; [reflexivity|]). rewrite Hj. constructor; [|constructor]. split; [reflexivity|].
  exists rs256, [doc_old], (boot rs256 (Some doc_old)). split; [reflexivity|]. split; [reflexivity|]. exact rs256_reached.
Qed.

Lemma live_in_use : in_use key_source isort_routes site live.
Proof. apply booted_in_use; [vm_compute; discriminate|vm_compute; reflexivity]. Qed.

Definition lib : library := small no_dates.
Definition chance0 : chance := Chance 0 "uuid" (fun _ => "default") 1600000000.
Definition ask (method raw path : string) (h : header) : incoming := Incoming (Req method raw raw h 0 "" true) path.

(** An http.NewRequest without errors *)
Definition always (_ _ : string) : bool := true.

Definition answer (method raw path : string) (h : header) : outcome := serve toy lib always live chance0 (ask method raw path h).

(** C20: an oversized request with an unknown method gets 413. *)
Lemma patch_413 : exists so srt cfg0 cfg E L nr ch i r, in_use so srt cfg0 cfg /\ proxied_request cfg i /\ sized (i_req i) /\
  ~ In (to_upper (q_method (i_req i))) known_methods /\ serve E L nr cfg ch i = Answered r /\ rp_status r = 413%Z.
Proof.
  exists key_source, isort_routes, site, live, toy, lib, always, chance0, (Incoming (Req "PATCH" "/x" "/x" [] 10 "0123456789" true) "/x").
  eexists. split; [exact live_in_use|]. split; [vm_compute; reflexivity|]. split; [unfold sized; cbn; lia|].
  split; [intros H; repeat (destruct H as [H|H]; [discriminate H|]); exact H|]. split; [vm_compute; reflexivity|reflexivity].
Qed.

(** C39 and C63: a token that is no JWS message *)
Lemma junk_panics : exists so srt cfg0 cfg E L nr ch i r, in_use so srt cfg0 cfg /\ honest L /\ proxied_request cfg i /\ sound_request E (i_req i) /\
  select_route (c_routes cfg) (q_raw_uri (i_req i)) = Some r /\ ~ admitted L cfg ch r (get "Authorization" (q_header (i_req i))) /\
  serve E L nr cfg ch i = Panicked.
Proof.
  exists key_source, isort_routes, site, live, toy, lib, always, chance0, (ask "GET" "/admin" "/admin" [("Authorization", "Bearer junk")]).
  eexists. split; [exact live_in_use|]. split; [apply small_honest|]. split; [vm_compute; reflexivity|].
  split; [split; [unfold sized; cbn; lia|]; split; [now left|intros [H _]; apply H; reflexivity]|].
  split; [vm_compute; reflexivity|]. split; [|vm_compute; reflexivity].
  intros [H|[j [H1 H2]]]; [vm_compute in H; discriminate H|]. vm_compute in H1. injection H1 as <-. vm_compute in H2. discriminate H2.
Qed.

(** C49: the about page without a token *)
Lemma about_open : exists so srt cfg0 cfg E L nr ch i r rs, in_use so srt cfg0 cfg /\ honest L /\
  select_route (c_routes cfg) (q_raw_uri (i_req i)) = Some r /\ r_resource r = "about" /\ r_jwt r <> "" /\
  get "Authorization" (q_header (i_req i)) = "" /\ serve E L nr cfg ch i = About rs /\ rp_status rs = 200%Z.
Proof.
  exists key_source, isort_routes, site, live, toy, lib, always, chance0, (ask "GET" "/about" "/about" []).
  eexists. eexists. split; [exact live_in_use|]. split; [apply small_honest|]. split; [vm_compute; reflexivity|].
  split; [reflexivity|]. split; [discriminate|]. split; [reflexivity|]. split; [vm_compute; reflexivity|reflexivity].
Qed.

(** C63: a route to a resource without servers *)
Lemma empty_panics : exists so srt cfg0 cfg E L nr ch i, in_use so srt cfg0 cfg /\ honest L /\ proxied_request cfg i /\ sound_request E (i_req i) /\
  readable L (get "Authorization" (q_header (i_req i))) /\ serve E L nr cfg ch i = Panicked.
Proof.
  exists key_source, isort_routes, site, live, toy, lib, always, chance0, (ask "GET" "/empty" "/empty" []).
  split; [exact live_in_use|]. split; [apply small_honest|]. split; [vm_compute; reflexivity|].
  split; [split; [unfold sized; cbn; lia|]; split; [now left|intros [H _]; apply H; reflexivity]|].
  split; [|vm_compute; reflexivity]. intros token [s [rest [_ [_ [H _]]]]]. cbn in H. destruct s; discriminate H.
Qed.

(** C63: a URL that net/url cannot parse *)
Lemma bad_url_panics : forall nr, rejects_bad_ports nr ->
  exists so srt cfg0 cfg E L ch i c, in_use so srt cfg0 cfg /\ honest L /\ proxied_request cfg i /\ sound_request E (i_req i) /\
    readable L (get "Authorization" (q_header (i_req i))) /\ serve E L nr cfg ch i = Upstream c /\
    uq_uri (c_request c) = "http://localhost:60083foo" /\
    c_ok c = false /\ exists s, main_step c 0 init = Some s /\ s_pc s = PPanic.
Proof.
  intros nr Hnr.
  exists key_source, isort_routes, site, live, toy, lib, chance0, (ask "GET" "/mse6foo" "/mse6foo" []).
  assert (Hn : nr "GET" "http://localhost:60083foo" = false).
  { apply Hnr. exists "http", "localhost", "60083foo", "f"%char. split; [reflexivity|]. split; [now left|]. split; [|split; [reflexivity|vm_compute; intros [_ H]; now apply H]].
    intros c Hc. repeat (destruct Hc as [<-|Hc]; [reflexivity|]). contradiction. }
  eexists. split; [exact live_in_use|]. split; [apply small_honest|]. split; [vm_compute; reflexivity|].
  split; [split; [unfold sized; cbn; lia|]; split; [now left|intros [H _]; apply H; reflexivity]|].
  split; [intros token [s [rest [_ [_ [H _]]]]]; cbn in H; destruct s; discriminate H|].
  split.
  { vm_compute. rewrite Hn. reflexivity. }
  split; [reflexivity|]. split; [reflexivity|]. eexists. split; [reflexivity|reflexivity].
Qed.

(** C64: the path /admin, once protected and once not *)
Lemma encoded_escape : exists so srt cfg0 cfg E L nr ch i i' r c, in_use so srt cfg0 cfg /\ honest L /\
  names_path (q_raw_uri (i_req i)) (i_path i) /\ names_path (q_raw_uri (i_req i')) (i_path i') /\ i_path i' = i_path i /\
  select_route (c_routes cfg) (q_raw_uri (i_req i)) = Some r /\ r_jwt r <> "" /\
  (exists rs, serve E L nr cfg ch i = Answered rs /\ rp_status rs = 401%Z) /\ q_header (i_req i') = q_header (i_req i) /\
  serve E L nr cfg ch i' = Upstream c /\ uq_uri (c_request c) = "http://localhost:60083/%61dmin".
Proof.
  exists key_source, isort_routes, site, live, toy, lib, always, chance0, (ask "GET" "/admin" "/admin" []), (ask "GET" "/%61dmin" "/admin" []).
  eexists. eexists. split; [exact live_in_use|]. split; [apply small_honest|].
  split; [exists "/admin", ""; repeat split; now left|]. split; [exists "/%61dmin", ""; repeat split; now left|]. split; [reflexivity|].
  split; [vm_compute; reflexivity|]. split; [discriminate|].
  split; [eexists; split; [vm_compute; reflexivity|reflexivity]|]. split; [reflexivity|]. split; [vm_compute; reflexivity|reflexivity].
Qed.

(** C67: CONNECT requests keep their path. *)
Lemma connect_dots : exists so srt cfg0 cfg E L nr ch i c, in_use so srt cfg0 cfg /\ names_path (q_raw_uri (i_req i)) (i_path i) /\
  ~ clean (i_path i) /\ serve E L nr cfg ch i = Upstream c /\ uq_uri (c_request c) = "http://localhost:60083/a/../admin".
Proof.
  exists key_source, isort_routes, site, live, toy, lib, always, chance0, (ask "CONNECT" "/a/../admin" "/a/../admin" []).
  eexists. split; [exact live_in_use|]. split; [exists "/a/../admin", ""; repeat split; now left|].
  split; [intros H; apply clean_path_iff in H; vm_compute in H; discriminate H|]. split; [vm_compute; reflexivity|reflexivity].
Qed.

(** C68 *)
Definition twice : list route := [Route "/info" None "" "about" "" ""; Route "info" None "" "about" "" ""].
Definition at_root : list route := [Route "/" None "" "about" "" ""].

Lemma boots_but_panics : forall rs, rs = twice \/ rs = at_root ->
  exists so srt cfg0 cfg, in_use so srt cfg0 cfg /\ c_routes cfg0 = rs /\ mux_ok (c_routes cfg) = false.
Proof.
  intros rs [->| ->].
  - exists key_source, isort_routes, (site_with twice), (booted (site_with twice)).
    split; [apply booted_in_use; [vm_compute; discriminate|vm_compute; reflexivity]|]. split; [reflexivity|vm_compute; reflexivity].
  - exists key_source, isort_routes, (site_with at_root), (booted (site_with at_root)).
    split; [apply booted_in_use; [vm_compute; discriminate|vm_compute; reflexivity]|]. split; [reflexivity|vm_compute; reflexivity].
Qed.

(** C69: a request on the about route that is not answered with the about page, and one answered with it
    whose route is another *)
Lemma about_disagree : exists so srt cfg0 cfg E L nr ch i i' r r', in_use so srt cfg0 cfg /\
  names_path (q_raw_uri (i_req i)) (i_path i) /\ names_path (q_raw_uri (i_req i')) (i_path i') /\
  select_route (c_routes cfg) (q_raw_uri (i_req i)) = Some r /\ r_resource r = "about" /\
  (exists rs, serve E L nr cfg ch i = Answered rs /\ rp_status rs = 503%Z) /\
  select_route (c_routes cfg) (q_raw_uri (i_req i')) = Some r' /\ r_resource r' <> "about" /\
  (exists rs, serve E L nr cfg ch i' = About rs).
Proof.
  exists key_source, isort_routes, site, live, toy, lib, always, chance0,
    (ask "GET" "/about/more" "/about/more" [("Authorization", "Bearer old")]), (ask "GET" "/%61bout" "/about" []).
  eexists. eexists. split; [exact live_in_use|].
  split; [exists "/about/more", ""; repeat split; now left|]. split; [exists "/%61bout", ""; repeat split; now left|].
  split; [vm_compute; reflexivity|]. split; [reflexivity|]. split; [eexists; split; [vm_compute; reflexivity|reflexivity]|].
  split; [vm_compute; reflexivity|]. split; [discriminate|]. eexists. vm_compute. reflexivity.
Qed.

(** An about route below which everything is about *)
Definition below : list route := [Route "/" None "" "todos" "" ""; Route "/info/" None "" "about" "" ""].

Lemma below_in_use : in_use key_source isort_routes (site_with below) (booted (site_with below)).
Proof. apply booted_in_use; [vm_compute; discriminate|vm_compute; reflexivity]. Qed.

Lemma below_about : forall p, about_path (site_with below) p <-> p = "/info/".
Proof.
  intro p. split.
  - intros (r0 & [<-|[<-|[]]] & H1 & <-); [discriminate H1|reflexivity].
  - intros ->. exists (Route "/info/" None "" "about" "" ""). split; [right; now left|]. now split.
Qed.

Lemma below_lacks : lacks_slash (site_with below) "/info" /\ covered (site_with below) "/info/x" /\ ~ lacks_slash (site_with below) "/info/x".
Proof.
  split; [|split].
  - split; [discriminate|]. split.
    + intros q E. assert (G : ends_with_slash "/info" = true) by (apply ends_iff; now exists q). discriminate G.
    + split; [intros [E|E]; [discriminate E|apply below_about in E; discriminate E]|]. right. now apply below_about.
  - right. exists "/info", "x". split; [now apply below_about|reflexivity].
  - intros (_ & _ & _ & [E|E]); [discriminate E|apply below_about in E; discriminate E].
Qed.
