(** A process that serves many requests while key sets are refreshed (C87 to C91). *)
From Coq Require Import String Ascii List Bool ZArith NArith.
From Verif Require Import GoStr Header Policy Config ConfigSpec Routing Exchange ExchangeSpec Jwt JwtSpec JwtCases JwksRate JwksRateSpec
  Machine MachineSpec MachineRaces Handler HandlerSpec HandlerCases SystemSpec Startup StartupSpec Process ProcessSpec ProcessProofs ProcessCases.
From Verif Require KidSpec.
Import Verif.Config Verif.JwtSpec Verif.Startup Verif.Process Verif.ProcessSpec ListNotations.
Local Open Scope string_scope.

(** C87: at any time, what goes upstream on a route with a jwt came with a token signed with a key configured
    or published until then for that jwt, and in time. *)
Theorem C87_opens : forall m k i ch es1 es es2 p1 p v c, comes_in k i ch es1 es es2 -> after m es1 p1 -> after m es p ->
  nth_error (p_visits p) k = Some v -> v_out v = Upstream c -> sized (i_req i) ->
  exists r, select_route (c_routes (li_config (dm_listener m))) (q_raw_uri (i_req i)) = Some r /\
    (r_jwt r <> "" -> exists j0 token skew, defined m (r_jwt r) j0 /\ bearer (authorization i) token /\
       (In (j_alg j0) signing -> exists kid key cl, lib_verify (dm_lib m) (j_alg j0) key token = Some cl /\ fits (j_alg j0) key /\ allowed m p1 (r_jwt r) j0 kid key) /\
       (0 <= skew)%Z /\ skew_configured (j_skew j0) skew /\
       (forall cl, (0 <= p_now p1)%Z -> lib_parse (dm_lib m) token = Some cl -> dated cl -> in_time (unix (p_now p1)) skew cl)).
Proof. exact opens. Qed.
Print Assumptions C87_opens.

Theorem C87_keys : forall m es p n j kid k, after m es p -> now_is p n j -> In (kid, k) (keys j) ->
  exists j0, defined m n j0 /\ fits (j_alg j0) k /\ allowed m p n j0 kid k.
Proof. exact keys_from. Qed.
Print Assumptions C87_keys.

Example C87_case : comes_in 2 (with_token "/admin" old_k9) (chance_at 1600000000) day12 days (tl day3) /\ after daemon0 day12 (state_after day12) /\
  after daemon0 days (state_after days) /\ sized (i_req (with_token "/admin" old_k9)) /\
  status_at 0 (state_after days) = Some (Some 401%Z) /\ goes_up 1 (state_after days) = true /\ goes_up 2 (state_after days) = true /\
  since (state_after day1) "auth" = [] /\ since (state_after day12) "auth" = [doc_k9].
Proof.
  split; [split; reflexivity|]. split; [exact day12_happens|]. split; [exact days_happen|]. split; [discriminate|]. repeat split; vm_compute; reflexivity.
Qed.

(** C88: one refresh of a jwt at a time, ... *)
Theorem C88_one : forall m es p n k k' f f', after m es p -> refresher p k n f -> refresher p k' n f' -> busy f -> busy f' -> k = k'.
Proof. exact one_refresher. Qed.
Print Assumptions C88_one.

(** ... its lock is taken exactly meanwhile, ... *)
Theorem C88_lock : forall m es p n, after m es p -> (p_locked p n = true <-> exists k f, refresher p k n f /\ busy f).
Proof. exact locked_iff. Qed.
Print Assumptions C88_lock.

(** ... they begin ten seconds apart, except perhaps the first two for a jwt with a key of its own, ... *)
Theorem C88_spaced_partial : forall m es p n, after m es p ->
  (fetched_at_boot m n -> spaced_out (begun p n)) /\ ten_seconds_apart (begun p n).
Proof. exact starts_spaced. Qed.
Print Assumptions C88_spaced_partial.

(** ... which can begin at the same time; ... *)
Theorem C88_refuted : exists m es p n j0, after m es p /\ defined m n j0 /\ ~ spaced_out (begun p n).
Proof. exact adjacent. Qed.
Print Assumptions C88_refuted.

(** ... each was asked for by a request of its own, ... *)
Theorem C88_asked : forall m es p n, after m es p -> length (begun p n) <= length (asked p n).
Proof. exact begun_asked. Qed.
Print Assumptions C88_asked.

(** ... and requests ask for one exactly if they have a token for a route with that jwt that names an unknown
    kid. *)
Theorem C88_asks : forall m k i ch es1 es es2 p1 p v n, comes_in k i ch es1 es es2 -> after m es1 p1 -> after m es p ->
  nth_error (p_visits p) k = Some v -> sized (i_req i) ->
  (v_rotated v = Some n <->
   proxied_request (li_config (dm_listener m)) i /\ sound_request (li_env (dm_listener m)) (i_req i) /\
   exists r j0 j token sigs kid, select_route (c_routes (li_config (dm_listener m))) (q_raw_uri (i_req i)) = Some r /\ r_jwt r <> "" /\ n = r_jwt r /\
     defined m n j0 /\ In (j_alg j0) signing /\ j_url j0 <> "" /\ now_is p1 n j /\
     bearer (authorization i) token /\ lib_signatures (dm_lib m) token = Some (S sigs) /\ kid <> "" /\ KidSpec.names_kid token kid /\ ~ known j kid).
Proof. exact rotated_iff. Qed.
Print Assumptions C88_asks.

Example C88_case : after daemon0 later (state_after later) /\ fetched_at_boot daemon0 "auth" /\
  begun (state_after later) "auth" = [noon + 10000000000; noon]%Z /\ length (asked (state_after later) "auth") = 2 /\
  p_gs (state_after later) = [("auth", FEnd); ("auth", FFetch)] /\ length (p_visits (state_after later)) = 5.
Proof.
  split; [exact later_happens|]. split; [exists rs256; repeat split; discriminate|]. repeat split; vm_compute; reflexivity.
Qed.

(** C89: when a refresh is done with a document, a new key in it is in use, provided the entry gets its turn, ... *)
Theorem C89_installed_partial : forall m es1 p1 k n j0 j1 ks d key es2 p2 f,
  after m es1 p1 -> refresher p1 k n FFetch -> defined m n j0 -> now_is p1 n j1 ->
  has_turn (j_alg j0) d ks -> ~ known j1 (jk_kid d) -> jk_raw d = Some key -> fits (j_alg j0) key -> (forall s, key <> KSecret s) ->
  executes m p1 (Load k (Some ks) :: es2) = Some p2 -> refresher p2 k n f -> past_keys f ->
  exists j2, now_is p2 n j2 /\ find_key (keys j2) (jk_kid d) = Some key.
Proof. exact key_arrives. Qed.
Print Assumptions C89_installed_partial.

(** ... and tokens signed with a key in use are not refused, ... *)
Theorem C89_accepted : forall m es p n j0 j kid key i ch r token sigs cl skew,
  after m es p -> defined m n j0 -> now_is p n j -> find_key (keys j) kid = Some key -> honest (dm_lib m) ->
  ch_now ch = unix (p_now p) -> proxied_request (li_config (dm_listener m)) i -> sound_request (li_env (dm_listener m)) (i_req i) ->
  select_route (c_routes (li_config (dm_listener m))) (q_raw_uri (i_req i)) = Some r -> r_jwt r = n ->
  bearer (authorization i) token -> lib_signatures (dm_lib m) token = Some (S sigs) -> In (j_alg j0) signing -> lib_verify (dm_lib m) (j_alg j0) key token = Some cl ->
  skew_configured (j_skew j0) skew -> moderate (ch_now ch) skew -> in_time (ch_now ch) skew cl ->
  forall rs, serve (li_env (dm_listener m)) (dm_lib m) (dm_new m) (config_at m p) ch i = Answered rs -> rp_status rs <> 401%Z.
Proof. exact key_accepted. Qed.
Print Assumptions C89_accepted.

(** ... so a request with a token for a key published since can be repeated with success without any time passing. *)
Theorem C89_retry_partial : forall m es p i ch r n j0 j token sigs ks d key cl skew,
  after m es p -> p_dead p = false -> p_locked p n = false -> defined m n j0 -> now_is p n j -> honest (dm_lib m) ->
  ch_now ch = unix (p_now p) -> proxied_request (li_config (dm_listener m)) i -> sound_request (li_env (dm_listener m)) (i_req i) ->
  select_route (c_routes (li_config (dm_listener m))) (q_raw_uri (i_req i)) = Some r -> r_jwt r = n -> n <> "" -> j_url j0 <> "" ->
  bearer (authorization i) token -> lib_signatures (dm_lib m) token = Some (S sigs) -> KidSpec.names_kid token (jk_kid d) -> jk_kid d <> "" -> ~ known j (jk_kid d) ->
  processable (j_alg j0) ks -> has_turn (j_alg j0) d ks -> jk_raw d = Some key -> fits (j_alg j0) key -> (forall s, key <> KSecret s) ->
  lib_verify (dm_lib m) (j_alg j0) key token = Some cl ->
  skew_configured (j_skew j0) skew -> moderate (ch_now ch) skew -> in_time (ch_now ch) skew cl ->
  exists k es' p', executes m p (Arrive i ch :: es') = Some p' /\ p_now p' = p_now p /\
    (forall e, In e es' -> e = Load k None \/ e = Load k (Some ks)) /\
    forall rs, serve (li_env (dm_listener m)) (dm_lib m) (dm_new m) (config_at m p') ch i = Answered rs -> rp_status rs <> 401%Z.
Proof. exact retry. Qed.
Print Assumptions C89_retry_partial.

Example C89_case : after daemon0 [] (state_after []) /\ p_dead (state_after []) = false /\ p_locked (state_after []) "auth" = false /\ defined daemon0 "auth" rs256 /\
  now_is (state_after []) "auth" (auth_after []) /\ honest (dm_lib daemon0) /\ ch_now (chance_at 1600000000) = unix (p_now (state_after [])) /\
  proxied_request (li_config hub_listener) (with_token "/admin" old_k9) /\ sound_request (li_env hub_listener) (i_req (with_token "/admin" old_k9)) /\
  option_map r_jwt (select_route (c_routes (li_config hub_listener)) "/admin") = Some "auth" /\
  bearer (authorization (with_token "/admin" old_k9)) old_k9 /\ lib_signatures lib old_k9 = Some 1 /\ KidSpec.names_kid old_k9 "k9" /\ ~ known (auth_after []) "k9" /\
  processable "RS256" doc_k9 /\ has_turn "RS256" (Jwk "k9" "RS256" (Some (KRsa 1))) doc_k9 /\ fits "RS256" (KRsa 1) /\ lib_verify lib "RS256" (KRsa 1) old_k9 = Some no_dates /\
  moderate 1600000000 120 /\ in_time 1600000000 120 no_dates /\
  status_of (serve (li_env hub_listener) lib always (config_at daemon0 (state_after [])) (chance_at 1600000000) (with_token "/admin" old_k9)) = Some 401%Z.
Proof. exact k9_retry. Qed.

Example C89_installed_case : refresher (state_after day1) 0 "auth" FFetch /\ executes daemon0 (state_after day1) (Load 0 (Some doc_k9) :: day2) = Some (state_after day12) /\
  refresher (state_after day12) 0 "auth" FTest /\ past_keys FTest /\ find_key (keys (auth_after day12)) "k9" = Some (KRsa 1).
Proof.
  split; [vm_compute; reflexivity|]. split; [apply (reaches_more day1 (Load 0 (Some doc_k9) :: day2)); vm_compute; reflexivity|].
  split; [vm_compute; reflexivity|]. split; [exact I|vm_compute; reflexivity].
Qed.

(** C90: each request is served as if it were alone, with the key sets of the moment it came in, so all claims
    about single requests hold for it, ... *)
Theorem C90_alone : forall m k i ch es1 es es2 p, comes_in k i ch es1 es es2 -> after m es p ->
  exists p1 v, after m es1 p1 /\ nth_error (p_visits p) k = Some v /\ v_in v = i /\ v_chance v = ch /\
    let t := Setting (li_env (dm_listener m)) (dm_lib m) (dm_new m) (config_at m p1) ch i (labels_of k es2) in
    StartupSpec.serves (dm_place m) (dm_host m) t /\ v_out v = t_serve t /\ (forall c, v_out v = Upstream c -> ran t c (v_state v)) /\
    ((forall c, v_out v <> Upstream c) -> v_state v = init).
Proof. exact alone. Qed.
Print Assumptions C90_alone.

(** ... and without a jwt on its route nothing else in the process matters to it. *)
Theorem C90_independent : forall m es es' p p' k k' i ch a b a' b' v v' now', comes_in k i ch a es b -> comes_in k' i ch a' es' b' ->
  after m es p -> after (Daemon (dm_place m) (dm_host m) (dm_listener m) (dm_told m) (dm_lib m) (dm_new m) now') es' p' ->
  nth_error (p_visits p) k = Some v -> nth_error (p_visits p') k' = Some v' ->
  (forall r, select_route (c_routes (li_config (dm_listener m))) (q_raw_uri (i_req i)) = Some r -> r_jwt r = "") ->
  labels_of k b = labels_of k' b' -> v_out v' = v_out v /\ v_state v' = v_state v.
Proof. exact independent. Qed.
Print Assumptions C90_independent.

Example C90_case : after daemon0 mixed (state_after mixed) /\ after daemon0 single (state_after single) /\
  comes_in 1 plain_get (chance_at 1600000000) (firstn 2 mixed) mixed (skipn 3 mixed) /\ comes_in 0 plain_get (chance_at 1600000000) [] single (tl single) /\
  (forall r, select_route (c_routes (li_config hub_listener)) "/mse6" = Some r -> r_jwt r = "") /\
  labels_of 1 (skipn 3 mixed) = labels_of 0 (tl single) /\ length (labels_of 0 (tl single)) = 28 /\
  option_map (fun v => map (fun r => (rp_status r, rp_body r)) (s_out (v_state v))) (nth_error (p_visits (state_after mixed)) 1) = Some [(201%Z, "ok")].
Proof. exact mixed_single. Qed.

(** C91: keys once in use stay in use ... *)
Theorem C91_stay : forall m es es' p p' n j, after m es p -> executes m p es' = Some p' -> now_is p n j ->
  exists j' a, now_is p' n j' /\ keys j' = (keys j ++ a)%list.
Proof. exact (fun m es es' => keys_stay m es' es). Qed.
Print Assumptions C91_stay.

(** ... also if they are withdrawn: a token for a key that is not in the only document fetched since boot is
    accepted after all of that document has been processed. *)
Theorem C91_refuted : exists m es p k n j0 doc key token i v c, after m (es ++ [Arrive i (chance_at 1600000000)])%list p /\ arrivals es = k /\ honest (dm_lib m) /\
  defined m n j0 /\ since p n = [doc] /\ (forall g f, refresher p g n f -> past_keys f) /\
  (forall d, In d doc -> jk_raw d <> Some key) /\ (forall cl key', lib_verify (dm_lib m) (j_alg j0) key' token = Some cl -> key' = key) /\
  (exists r, select_route (c_routes (li_config (dm_listener m))) (q_raw_uri (i_req i)) = Some r /\ r_jwt r = n) /\ In (j_alg j0) signing /\
  bearer (authorization i) token /\ nth_error (p_visits p) k = Some v /\ v_out v = Upstream c.
Proof. exact withdrawn. Qed.
Print Assumptions C91_refuted.

Example C91_case : after daemon0 day1 (state_after day1) /\ executes daemon0 (state_after day1) (Load 0 (Some doc_k9) :: day2) = Some (state_after day12) /\
  keys (auth_after day1) = [("k1", KRsa 2)] /\ keys (auth_after day12) = [("k1", KRsa 2); ("k9", KRsa 1)].
Proof.
  split; [exact day1_happens|]. split; [apply (reaches_more day1 (Load 0 (Some doc_k9) :: day2)); vm_compute; reflexivity|]. split; vm_compute; reflexivity.
Qed.

(** C65 for the whole process: it ends by itself only because of a key that is no ECDSA key in a document
    fetched for an ES algorithm, ... *)
Theorem C65_process_partial : forall m es p, after m es p -> p_dead p = true ->
  exists n j0 doc d, defined m n j0 /\ In doc (since p n) /\ In d doc /\ In (j_alg j0) ["ES256"; "ES384"; "ES512"] /\ jk_alg d = j_alg j0 /\ forall b x, jk_raw d <> Some (KEc b x).
Proof. exact death_cause. Qed.
Print Assumptions C65_process_partial.

(** ... and then one request without a valid token is enough. *)
Theorem C65_process_refuted : exists m es p i ch v rs, after m (Arrive i ch :: es)%list p /\ (forall e, In e es -> exists doc, e = Load 0 doc) /\ p_visits p = [v] /\ v_out v = Answered rs /\ rp_status rs = 401%Z /\
  p_dead p = true /\ forall e, executes m p [e] = None.
Proof. exact killed. Qed.
Print Assumptions C65_process_refuted.
