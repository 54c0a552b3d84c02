(** Theorems about serving requests: C02, C14, C20, C39, C49, C63, C64 and C67 to C69. *)
From Coq Require Import String Ascii List Bool ZArith NArith Lia.
From Verif Require Import GoStr Regex RegexSpec Header Policy Config ConfigSpec ConfigProofs Routing Exchange ExchangeProofs Jwt JwtSpec JwtCases Machine Handler HandlerSpec HandlerProofs HandlerCases.
Import ListNotations.
Local Open Scope string_scope.

(** C02: exactly the requests without a matching route get 404 (and go nowhere). *)
Theorem C02_unmatched_404 : forall so srt cfg0 cfg E L nr ch i,
  in_use so srt cfg0 cfg -> proxied_request cfg i -> sound_request E (i_req i) ->
  ((forall r0, In r0 (c_routes cfg0) -> ~ route_matches r0 (q_raw_uri (i_req i))) <->
   exists r, serve E L nr cfg ch i = Answered r /\ rp_status r = 404%Z).
Proof. exact unmatched_404. Qed.
Print Assumptions C02_unmatched_404.

(** C14: of the requests let through, exactly those on a route without a server get 503. *)
Theorem C14_unmapped_503 : forall E L nr cfg ch i r,
  proxied_request cfg i -> sound_request E (i_req i) ->
  select_route (c_routes cfg) (q_raw_uri (i_req i)) = Some r -> admitted L cfg ch r (get "Authorization" (q_header (i_req i))) ->
  (serverless cfg ch r <-> exists rs, serve E L nr cfg ch i = Answered rs /\ rp_status rs = 503%Z).
Proof. exact serverless_503. Qed.
Print Assumptions C14_unmapped_503.

(** The requests of the site of HandlerCases, for C14 and C02: no server, a server, a wrong token, no route *)
Example C14_case :
  status_of (answer "GET" "/gone" "/gone" []) = Some 503%Z /\
  contacts_upstream (answer "GET" "/todo?x=1" "/todo" []) /\
  status_of (answer "GET" "/admin" "/admin" [("Authorization", "Bearer new")]) = Some 401%Z /\
  contacts_upstream (answer "GET" "/admin" "/admin" [("Authorization", "Bearer old")]) /\
  status_of (answer "GET" "http://host/x" "/x" []) = Some 404%Z.
Proof. split; [vm_compute; reflexivity|]. split; [eexists; vm_compute; reflexivity|]. split; [vm_compute; reflexivity|]. split; [eexists; vm_compute; reflexivity|vm_compute; reflexivity]. Qed.

(** C20 does not hold when the body is too large: 413 comes first. *)
Theorem C20_refuted : exists so srt cfg0 cfg E L nr ch i r, in_use so srt cfg0 cfg /\ proxied_request cfg i /\ sized (i_req i) /\
  ~ In (to_upper (q_method (i_req i))) known_methods /\ serve E L nr cfg ch i = Answered r /\ rp_status r = 413%Z.
Proof. exact patch_413. Qed.
Print Assumptions C20_refuted.

(** C20 otherwise: other methods get 400 from the proxy handler.  (The about page is served for any method.) *)
Theorem C20_method_partial : forall E L nr cfg ch i,
  proxied_request cfg i -> sized (i_req i) -> ~ In (to_upper (q_method (i_req i))) known_methods ->
  exists r, serve E L nr cfg ch i = Answered r /\
    (oversized E (i_req i) -> rp_status r = 413%Z) /\ (~ oversized E (i_req i) -> rp_status r = 400%Z).
Proof. exact bad_method. Qed.
Print Assumptions C20_method_partial.

(** C20: whatever is sent upstream has a known method and a body of acceptable size. *)
Theorem C20_upstream : forall E L nr cfg ch i c, serve E L nr cfg ch i = Upstream c -> sized (i_req i) ->
  proxied_request cfg i /\ sound_request E (i_req i).
Proof. exact upstream_sound. Qed.
Print Assumptions C20_upstream.

Example C20_case : status_of (answer "PATCH" "/todo" "/todo" []) = Some 400%Z /\ contacts_upstream (answer "delete" "/todo" "/todo" []).
Proof. split; [vm_compute; reflexivity|eexists; vm_compute; reflexivity]. Qed.

(** C39: an upstream attempt for a route with a jwt implies a token that verifies with a key of that
    jwt, which comes from the configured key or from a published document. *)
Theorem C39_no_upstream : forall so srt cfg0 cfg E L nr ch i c,
  in_use so srt cfg0 cfg -> serve E L nr cfg ch i = Upstream c -> sized (i_req i) ->
  exists r, select_route (c_routes cfg) (q_raw_uri (i_req i)) = Some r /\
    (r_jwt r <> "" -> exists j0 docs j token,
       lookup (r_jwt r) (c_jwt cfg0) = Some (Some j0) /\ lookup (r_jwt r) (c_jwt cfg) = Some (Some j) /\
       reached (so_pem so (r_jwt r)) (so_kid so (r_jwt r)) (named (r_jwt r) j0) docs j /\
       bearer (get "Authorization" (q_header (i_req i))) token /\
       fst (validate_jwt L (ch_now ch) j (get "Authorization" (q_header (i_req i)))) = Valid /\
       (In (j_alg j0) signing -> exists kid k cl, In (kid, k) (keys j) /\ lib_verify L (j_alg j0) k token = Some cl /\ fits (j_alg j0) k /\
          ((j_key j0 <> "" /\ stands_for (so_pem so (r_jwt r)) j0 k) \/ published docs (j_alg j0) kid k))).
Proof. exact upstream_token. Qed.
Print Assumptions C39_no_upstream.

(** C39: exactly the requests without a valid token get 401, if what they carry is a JWS message. *)
Theorem C39_401_partial : forall so srt cfg0 cfg E L nr ch i r,
  in_use so srt cfg0 cfg -> honest L -> proxied_request cfg i -> sound_request E (i_req i) ->
  select_route (c_routes cfg) (q_raw_uri (i_req i)) = Some r -> readable L (get "Authorization" (q_header (i_req i))) ->
  (~ admitted L cfg ch r (get "Authorization" (q_header (i_req i))) <->
   exists rs, serve E L nr cfg ch i = Answered rs /\ rp_status rs = 401%Z).
Proof. exact not_admitted_401. Qed.
Print Assumptions C39_401_partial.

(** C39: otherwise there is no 401 but a panic. *)
Theorem C39_refuted : exists so srt cfg0 cfg E L nr ch i r,
  in_use so srt cfg0 cfg /\ honest L /\ proxied_request cfg i /\ sound_request E (i_req i) /\
  select_route (c_routes cfg) (q_raw_uri (i_req i)) = Some r /\ ~ admitted L cfg ch r (get "Authorization" (q_header (i_req i))) /\
  serve E L nr cfg ch i = Panicked.
Proof. exact junk_panics. Qed.
Print Assumptions C39_refuted.

Example C39_case : in_use key_source isort_routes site live /\ honest lib /\ proxied_request live (ask "GET" "/admin" "/admin" []) /\
  sound_request toy (i_req (ask "GET" "/admin" "/admin" [])).
Proof.
  split; [exact live_in_use|]. split; [apply small_honest|]. split; [vm_compute; reflexivity|].
  split; [unfold sized; cbn; lia|]. split; [now left|]. intros [H _]. now apply H.
Qed.

(** C49 does not hold. *)
Theorem C49_refuted : exists so srt cfg0 cfg E L nr ch i r rs, in_use so srt cfg0 cfg /\ honest L /\
  select_route (c_routes cfg) (q_raw_uri (i_req i)) = Some r /\ r_resource r = "about" /\ r_jwt r <> "" /\
  get "Authorization" (q_header (i_req i)) = "" /\ serve E L nr cfg ch i = About rs /\ rp_status rs = 200%Z.
Proof. exact about_open. Qed.
Print Assumptions C49_refuted.

(** C49: in fact the jwt of an about route never matters. *)
Theorem C49_never_checked : forall so srt cfg0 cfg E L nr ch i,
  in_use so srt cfg0 cfg -> about_path cfg0 (i_path i) -> clean (i_path i) -> q_raw_uri (i_req i) <> "*" ->
  exists r, serve E L nr cfg ch i = About r /\ rp_status r = 200%Z.
Proof. exact about_any. Qed.
Print Assumptions C49_never_checked.

Example C49_case : about_path site "/about" /\ clean "/about".
Proof.
  split; [exists (Route "/about" None "" "about" "" "auth"); split; [do 2 right; now left|now split]|].
  apply clean_path_iff. vm_compute. reflexivity.
Qed.

(** C63 does not hold: a resource with an empty list of servers *)
Theorem C63_empty_refuted : exists so srt cfg0 cfg E L nr ch i,
  in_use so srt cfg0 cfg /\ honest L /\ proxied_request cfg i /\ sound_request E (i_req i) /\
  readable L (get "Authorization" (q_header (i_req i))) /\ serve E L nr cfg ch i = Panicked.
Proof. exact empty_panics. Qed.
Print Assumptions C63_empty_refuted.

(** C63 does not hold: a request whose upstream URL has no valid port *)
Theorem C63_url_refuted : forall nr, rejects_bad_ports nr ->
  exists so srt cfg0 cfg E L ch i c, in_use so srt cfg0 cfg /\ honest L /\ proxied_request cfg i /\ sound_request E (i_req i) /\
    readable L (get "Authorization" (q_header (i_req i))) /\ serve E L nr cfg ch i = Upstream c /\
    uq_uri (c_request c) = "http://localhost:60083foo" /\
    c_ok c = false /\ exists s, main_step c 0 init = Some s /\ s_pc s = PPanic.
Proof. exact bad_url_panics. Qed.
Print Assumptions C63_url_refuted.

(** C63 for configurations without empty resources and readable tokens *)
Theorem C63_total_partial : forall so srt cfg0 cfg E L nr ch i,
  in_use so srt cfg0 cfg -> honest L -> proxied_request cfg i -> sized (i_req i) ->
  no_empty_resource cfg0 -> readable L (get "Authorization" (q_header (i_req i))) ->
  (exists r, serve E L nr cfg ch i = Answered r /\ In (rp_status r) [400; 401; 404; 413; 503]%Z) \/
  (exists c, serve E L nr cfg ch i = Upstream c /\ (nr (uq_method (c_request c)) (uq_uri (c_request c)) = true -> c_ok c = true)).
Proof. exact serving_total. Qed.
Print Assumptions C63_total_partial.

Example C63_case : no_empty_resource (Cfg [] site_routes [] [("todos", Some [RM "" [] (Url "" "localhost" 60083)]); ("nil", None)]
  (Down 0 0 0 0 "" 0 "" "") (Upst 0 0 0 0 4 false)) /\ readable lib "Bearer old".
Proof.
  split; [intros n [H|[H|[]]]; discriminate H|]. intros token H. rewrite (JwtProofs.bearer_unique _ _ "old" H (bearer_of "old" ltac:(no_space))). discriminate.
Qed.

(** C64 does not hold: one path, protected and not, depending on how it is written *)
Theorem C64_refuted : exists so srt cfg0 cfg E L nr ch i i' r c, in_use so srt cfg0 cfg /\ honest L /\
  names_path (q_raw_uri (i_req i)) (i_path i) /\ names_path (q_raw_uri (i_req i')) (i_path i') /\ i_path i' = i_path i /\
  select_route (c_routes cfg) (q_raw_uri (i_req i)) = Some r /\ r_jwt r <> "" /\
  (exists rs, serve E L nr cfg ch i = Answered rs /\ rp_status rs = 401%Z) /\ q_header (i_req i') = q_header (i_req i) /\
  serve E L nr cfg ch i' = Upstream c /\ uq_uri (c_request c) = "http://localhost:60083/%61dmin".
Proof. exact encoded_escape. Qed.
Print Assumptions C64_refuted.

(** C64 for paths that are not encoded: queries do not matter. *)
Theorem C64_plain_partial : forall so srt cfg0 cfg raw raw' path,
  in_use so srt cfg0 cfg -> simple_routes cfg0 -> plain raw path -> plain raw' path ->
  select_route (c_routes cfg) raw = select_route (c_routes cfg) raw'.
Proof. exact plain_same_route. Qed.
Print Assumptions C64_plain_partial.

(** C64, the other direction: an encoded URI never gets to a route its decoded path is not under. *)
Theorem C64_under_partial : forall so srt cfg0 cfg raw path r,
  in_use so srt cfg0 cfg -> simple_routes cfg0 -> names_path raw path ->
  select_route (c_routes cfg) raw = Some r -> exists t, path = r_path r ++ t.
Proof. exact matched_is_under. Qed.
Print Assumptions C64_under_partial.

Example C64_case : simple_routes site /\ plain "/admin/x?y=%61" "/admin/x" /\ names_path "/admin%2Fx?a" "/admin/x".
Proof.
  split; [intros r H; repeat (destruct H as [<-|H]; [repeat split|]); contradiction|].
  split; [exists "?y=%61"; repeat split; right; now exists "y=%61"|exists "/admin%2Fx", "?a"; repeat split; right; now exists "a"].
Qed.

(** C67 does not hold for CONNECT requests. *)
Theorem C67_refuted : exists so srt cfg0 cfg E L nr ch i c, in_use so srt cfg0 cfg /\ names_path (q_raw_uri (i_req i)) (i_path i) /\
  ~ clean (i_path i) /\ serve E L nr cfg ch i = Upstream c /\ uq_uri (c_request c) = "http://localhost:60083/a/../admin".
Proof. exact connect_dots. Qed.
Print Assumptions C67_refuted.

(** C67 for all others *)
Theorem C67_clean_partial : forall cfg i, proxied_request cfg i -> q_method (i_req i) <> "CONNECT" -> clean (i_path i).
Proof. exact proxied_clean. Qed.
Print Assumptions C67_clean_partial.

(** C67: what is not clean is redirected to the simplest way to write it (and maybe one more slash). *)
Theorem C67_redirected : forall so srt cfg0 cfg E L nr ch i, in_use so srt cfg0 cfg -> q_raw_uri (i_req i) <> "*" ->
  q_method (i_req i) <> "CONNECT" -> ~ clean (i_path i) ->
  exists p, simplest (i_path i) p /\
    (lacks_slash cfg0 p -> serve E L nr cfg ch i = ByLibrary (TRedirect (p ++ "/"))) /\
    (~ lacks_slash cfg0 p -> serve E L nr cfg ch i = ByLibrary (TRedirect p)).
Proof. exact redirected_simplest. Qed.
Print Assumptions C67_redirected.

Example C67_case : answer "GET" "/a/%2e%2e//admin/" "/a/..//admin/" [] = ByLibrary (TRedirect "/admin/").
Proof. vm_compute. reflexivity. Qed.

(** C68 does not hold: two about routes with one path, or one with the path "/" *)
Theorem C68_refuted : forall rs, rs = twice \/ rs = at_root ->
  exists so srt cfg0 cfg, in_use so srt cfg0 cfg /\ c_routes cfg0 = rs /\ mux_ok (c_routes cfg) = false.
Proof. exact boots_but_panics. Qed.
Print Assumptions C68_refuted.

(** C68: these are the only ways in which paths cannot be registered. *)
Theorem C68_exactly_partial : forall so srt cfg0 cfg, in_use so srt cfg0 cfg ->
  (mux_ok (c_routes cfg) = true <-> NoDup ("/" :: configured_about_paths cfg0)).
Proof. exact mux_ok_iff. Qed.
Print Assumptions C68_exactly_partial.

Example C68_case : NoDup ("/" :: configured_about_paths site).
Proof. cbn. repeat constructor; cbn; intuition discriminate. Qed.

(** C69 does not hold, in either direction. *)
Theorem C69_refuted : exists so srt cfg0 cfg E L nr ch i i' r r', in_use so srt cfg0 cfg /\
  names_path (q_raw_uri (i_req i)) (i_path i) /\ names_path (q_raw_uri (i_req i')) (i_path i') /\
  select_route (c_routes cfg) (q_raw_uri (i_req i)) = Some r /\ r_resource r = "about" /\
  (exists rs, serve E L nr cfg ch i = Answered rs /\ rp_status rs = 503%Z) /\
  select_route (c_routes cfg) (q_raw_uri (i_req i')) = Some r' /\ r_resource r' <> "about" /\
  (exists rs, serve E L nr cfg ch i' = About rs).
Proof. exact about_disagree. Qed.
Print Assumptions C69_refuted.

(** C69: the about page is served only at, or below, the path of an about route. *)
Theorem C69_only_partial : forall so srt cfg0 cfg E L nr ch i r, in_use so srt cfg0 cfg -> serve E L nr cfg ch i = About r ->
  exists p, about_path cfg0 p /\ (i_path i = p \/ ((exists q, p = q ++ "/") /\ exists t, i_path i = p ++ t)).
Proof. exact about_served. Qed.
Print Assumptions C69_only_partial.

(** C69: which requests get the about page, which are proxied and which are redirected *)
Theorem C69_dispatch_partial : forall so srt cfg0 cfg E L nr ch i, in_use so srt cfg0 cfg -> q_raw_uri (i_req i) <> "*" ->
  q_method (i_req i) = "CONNECT" \/ clean (i_path i) ->
  let p := i_path i in
  (serve E L nr cfg ch i = ByLibrary (TRedirect (p ++ "/")) <-> lacks_slash cfg0 p) /\
  ((exists r, serve E L nr cfg ch i = About r) <-> covered cfg0 p /\ ~ lacks_slash cfg0 p) /\
  (proxied_request cfg i <-> (exists t, p = "/" ++ t) /\ ~ covered cfg0 p /\ ~ lacks_slash cfg0 p) /\
  (serve E L nr cfg ch i = ByLibrary TNotFound <-> ~ (exists t, p = "/" ++ t) /\ ~ covered cfg0 p /\ ~ lacks_slash cfg0 p).
Proof. exact dispatched. Qed.
Print Assumptions C69_dispatch_partial.

Example C69_slash : in_use key_source isort_routes (site_with below) (booted (site_with below)) /\
  lacks_slash (site_with below) "/info" /\ covered (site_with below) "/info/x" /\ ~ lacks_slash (site_with below) "/info/x".
Proof. split; [exact below_in_use|]. exact below_lacks. Qed.

Example C69_case : exists r, answer "PATCH" "/about?x" "/about" [] = About r.
Proof. eexists. vm_compute. reflexivity. Qed.
