(** Configuration, routing and upstream URLs (C01 to C09, C14 to C17, C37). *)
From Coq Require Import String Ascii List Bool ZArith.
From Verif Require Import GoStr Regex RegexSpec RegexProofs RegexGrammar Policy PolicyProofs Config Routing ConfigSpec ConfigProofs.
Import ListNotations.
Local Open Scope string_scope.

(** C01: the route that serves a request is a configured route that matches it, and no configured
    route that matches has a longer path (counted with its leading slash). *)
Theorem C01_most_specific : forall J jv srt (c c' : config J) uri r,
  sorts_routes srt -> boot J jv srt c = Some c' -> select_route (c_routes c') uri = Some r ->
  (exists r0, In r0 (c_routes c) /\ booted_from r0 r /\ route_matches r0 uri) /\
  forall r0, In r0 (c_routes c) -> route_matches r0 uri ->
    (String.length (slashed (r_path r0)) <= String.length (r_path r))%nat.
Proof. exact select_longest. Qed.
Print Assumptions C01_most_specific.

(** C01: and some route serves it whenever one matches. *)
Theorem C01_served : forall J jv srt (c c' : config J) uri,
  sorts_routes srt -> boot J jv srt c = Some c' ->
  (select_route (c_routes c') uri = None <-> forall r0, In r0 (c_routes c) -> ~ route_matches r0 uri).
Proof. exact select_none. Qed.
Print Assumptions C01_served.

Example C01_case : exists c', boot unit demo_validate isort_routes demo_config = Some c' /\ sorts_routes isort_routes /\
  option_map r_path (select_route (c_routes c') "/todos/admin/1") = Some "/todos/admin" /\
  option_map r_path (select_route (c_routes c') "/todos/1") = Some "/todos".
Proof. eexists. split; [vm_compute; reflexivity|]. split; [exact isort_sorts|]. split; vm_compute; reflexivity. Qed.

(** C02: a literal path is a prefix match on the request URI.  (For a path without a leading slash see
    C03.)  The 404 part is [C02_unmatched_404] in Thm_Handler. *)
Theorem C02_literal_prefix : forall J jv srt (c c' : config J) r uri,
  sorts_routes srt -> boot J jv srt c = Some c' -> In r (c_routes c') ->
  forall r0, In r0 (c_routes c) -> booted_from r0 r -> literal (r_path r0) = true ->
  (match_uri r uri = true <-> exists rest, uri = r_path r0 ++ rest).
Proof. exact literal_route. Qed.
Print Assumptions C02_literal_prefix.

Example C02_case : literal "/todos/admin" = true.
Proof. reflexivity. Qed.

(** C03 does not hold: a literal path without a leading slash matches no request at all, because the
    expression is compiled before the slash is added. *)
Theorem C03_slash_refuted : forall r0 uri, literal (r_path r0) = true -> r_path r0 <> "" ->
  (forall t, r_path r0 <> "/" ++ t) -> (exists t, uri = "/" ++ t) -> ~ route_matches r0 uri.
Proof. exact no_slash_never. Qed.
Print Assumptions C03_slash_refuted.

(** C03, with the whole boot: the server starts with such a route and answers nothing on it, whereas
    the path as booted starts with the URI. *)
Theorem C03_boot_refuted : forall srt, sorts_routes srt ->
  let c := with_routes [Route "todos" None "" "todos" "" ""] demo_config in
  exists c', boot unit demo_validate srt c = Some c' /\
    select_route (c_routes c') "/todos" = None /\ map r_path (c_routes c') = ["/todos"].
Proof. exact no_slash_boot. Qed.
Print Assumptions C03_boot_refuted.

(** C04 does not hold: the second alternative of "/a|/b" matches in the query string. *)
Theorem C04_alternative_refuted :
  route_matches alt_route "/x?q=/b" /\
  exists x, written x (r_path alt_route) /\ ~ leads x "/x?q=/b".
Proof. exact alt_unanchored. Qed.
Print Assumptions C04_alternative_refuted.

(** C04 does not hold: "*/b" is no expression, but "^*/b" is one, and it matches anywhere. *)
Theorem C04_operator_refuted : route_matches star_route "/x?q=/b" /\ (forall x, ~ written x (r_path star_route)).
Proof. exact star_unanchored. Qed.
Print Assumptions C04_operator_refuted.

(** C04, what holds: a path that is an expression and not a top-level alternation matches exactly the URIs
    with a matching prefix. *)
Theorem C04_anchored_partial : forall r0 uri x, written x (r_path r0) -> (forall a b, x <> XAlt a b) ->
  (route_matches r0 uri <-> leads x uri).
Proof. exact anchored_route. Qed.
Print Assumptions C04_anchored_partial.

(** C04, and a top-level alternation is anchored in its first alternative only. *)
Theorem C04_alternation_partial : forall r0 uri a b, written (XAlt a b) (r_path r0) ->
  (route_matches r0 uri <-> leads a uri \/ found b uri).
Proof. exact alternation_route. Qed.
Print Assumptions C04_alternation_partial.

(** C04, and an operator at the beginning of a path applies to the anchor. *)
Theorem C04_operator_partial : forall r0 uri o n h p x, r_path r0 = o ++ p -> operator o n h -> written x p ->
  (route_matches r0 uri <-> match x with XAlt a b => loosely n a uri \/ found b uri | _ => loosely n x uri end).
Proof. exact operator_route. Qed.
Print Assumptions C04_operator_partial.

(** C04, and there are no other paths that a route can have. *)
Theorem C04_cases_partial : forall J jv srt (c c' : config J) r0, boot J jv srt c = Some c' -> In r0 (c_routes c) ->
  (exists x, written x (r_path r0)) \/
  exists o n h p x, r_path r0 = o ++ p /\ operator o n h /\ written x p.
Proof. exact boot_route_cases. Qed.
Print Assumptions C04_cases_partial.

Example C04_case : (exists x, written x "/v[0-9]+/(x|y)" /\ forall a b, x <> XAlt a b) /\
  (exists a b, written (XAlt a b) "/a|/b") /\ operator "{2,3}" 2 (Some 3).
Proof. exact anchor_cases. Qed.

(** C05: defaults for zero parameters, other parameters kept. *)
Theorem C05_down_defaults : forall J jv srt (c c' : config J), boot J jv srt c = Some c' ->
  let d := c_down c in let d' := c_down c' in
  filled (d_read_timeout d) 120 (d_read_timeout d') /\
  filled (d_roundtrip_timeout d) 240 (d_roundtrip_timeout d') /\
  filled (d_idle_timeout d) 120 (d_idle_timeout d') /\
  filled (d_max_body d) 2097152 (d_max_body d') /\
  d_mode d' = (if String.eqb (d_mode d) "" then "HTTP" else to_upper (d_mode d)) /\
  filled (d_port d) (if String.eqb (to_upper (d_mode d)) "TLS" then 443 else 8080) (d_port d') /\
  d_cert d' = d_cert d /\ d_key d' = d_key d.
Proof. exact boot_down_filled. Qed.
Print Assumptions C05_down_defaults.

Theorem C05_up_defaults : forall J jv srt (c c' : config J), boot J jv srt c = Some c' ->
  let u := c_up c in let u' := c_up c' in
  filled (up_pool u) 32768 (up_pool u') /\ filled (up_idle_timeout u) 120 (up_idle_timeout u') /\
  filled (up_socket_timeout u) 3 (up_socket_timeout u') /\ filled (up_read_timeout u) 120 (up_read_timeout u') /\
  filled (up_max_attempts u) 1 (up_max_attempts u') /\ up_skip_verify u' = up_skip_verify u.
Proof. exact boot_up_filled. Qed.
Print Assumptions C05_up_defaults.

(** C05: the passes are idempotent. *)
Theorem C05_idempotent : forall J (c : config J),
  set_default_down (set_default_down c) = set_default_down c /\ set_default_up (set_default_up c) = set_default_up c.
Proof. exact defaults_idem. Qed.
Print Assumptions C05_idempotent.

Example C05_case : exists c', boot unit demo_validate isort_routes demo_config = Some c' /\
  d_roundtrip_timeout (c_down c') = 30%Z /\ d_port (c_down c') = 443%Z /\ up_max_attempts (c_up c') = 4%Z /\
  up_pool (c_up c') = 32768%Z.
Proof. eexists. split; [vm_compute; reflexivity|]. repeat split. Qed.

(** C06: the server starts exactly on valid configurations. *)
Theorem C06_boot_iff_valid : forall J jv srt (c : config J), boot J jv srt c <> None <-> valid_config jv c.
Proof. exact boot_valid_iff. Qed.
Print Assumptions C06_boot_iff_valid.

Example C06_case :
  boot unit demo_validate isort_routes demo_config <> None /\
  boot unit demo_validate isort_routes (with_routes [Route "/a(" None "" "" "" ""] demo_config) = None /\
  boot unit demo_validate isort_routes (with_routes [Route "/a" None "x" "" "" ""] demo_config) = None /\
  boot unit demo_validate isort_routes (with_routes [Route "/a" None "" "" "" "jwt2"] demo_config) = None /\
  boot unit (fun _ _ => None) isort_routes demo_config = None.
Proof. repeat split; vm_compute; try reflexivity; discriminate. Qed.

(** C07: a -c file decides alone. *)
Theorem C07_file_wins : forall J parse cfile env env' files files', cfile <> "" -> files cfile = files' cfile ->
  load J parse cfile env files = load J parse cfile env' files'.
Proof. exact load_file. Qed.
Print Assumptions C07_file_wins.

(** C07: without it the environment variable decides alone. *)
Theorem C07_env_wins : forall J parse env files files', env <> "" ->
  load J parse "" env files = load J parse "" env files'.
Proof. exact load_env. Qed.
Print Assumptions C07_env_wins.

(** C07: whatever is loaded has routes and came from the source with the highest priority. *)
Theorem C07_no_fallback : forall J parse cfile env files c, load J parse cfile env files = Some c ->
  c_routes c <> [] /\
  ((cfile <> "" /\ exists s, files cfile = Some s /\ c = parse s) \/
   (cfile = "" /\ env <> "" /\ c = parse env) \/
   (cfile = "" /\ env = "" /\ exists s, files "j8acfg.yml" = Some s /\ c = parse s)).
Proof. exact load_inv. Qed.
Print Assumptions C07_no_fallback.

Example C07_case :
  let parse := fun s => if String.eqb s "good" then demo_config else with_routes [] demo_config in
  let files := fun f => if String.eqb f "j8acfg.yml" then Some "good" else if String.eqb f "bad.yml" then Some "bad" else None in
  load unit parse "" "" files = Some demo_config /\ load unit parse "bad.yml" "good" files = None /\
  load unit parse "" "bad" files = None /\ load unit parse "missing.yml" "good" files = None.
Proof. repeat split. Qed.

(** C08: schemes after boot. *)
Theorem C08_schemes : forall J jv srt (c c' : config J) name ms',
  boot J jv srt c = Some c' -> lookup name (c_resources c') = Some (Some ms') ->
  exists ms, lookup name (c_resources c) = Some (Some ms) /\
    Forall2 (fun m m' =>
      let s := u_scheme (rm_url m) in let s' := u_scheme (rm_url m') in
      (known_scheme s -> s' = "http" \/ s' = "https") /\
      (known_scheme s -> (s' = "https" <-> exists a b, s = a ++ "https" ++ b)) /\
      (~ known_scheme s -> s' = s) /\
      rm_labels m' = rm_labels m /\ rm_name m' = name /\
      u_host (rm_url m') = u_host (rm_url m) /\ u_port (rm_url m') = u_port (rm_url m)) ms ms'.
Proof. exact boot_schemes_spec. Qed.
Print Assumptions C08_schemes.

Theorem C08_idempotent : forall J (c : config J), reapply_schemes (reapply_schemes c) = reapply_schemes c.
Proof. exact schemes_idem. Qed.
Print Assumptions C08_idempotent.

Example C08_case : known_scheme "" /\ known_scheme "xhttpsx" /\ ~ known_scheme "ftp" /\
  norm_scheme "xhttpsx" = "https".
Proof.
  split; [now left|]. split; [right; exists "x", "sx"; reflexivity|]. split; [|reflexivity].
  intros [H|[a [b H]]]; [discriminate|]. destruct a as [|? [|? [|? [|? ?]]]]; discriminate.
Qed.

(** C09 does not hold for the name "default": a policy the user configured under it is replaced. *)
Theorem C09_default_refuted : exists (c c' : config unit) (p : fpolicy),
  boot unit demo_validate isort_routes c = Some c' /\
  lookup "default" (c_policies c) = Some p /\ lookup "default" (c_policies c') <> Some p.
Proof. exact default_policy_lost. Qed.
Print Assumptions C09_default_refuted.

(** C09, what holds: every other policy is kept and "default" has the one label "default" of weight 1. *)
Theorem C09_others_partial : forall J jv srt (c c' : config J) name, boot J jv srt c = Some c' ->
  (name <> "default" -> lookup name (c_policies c') = lookup name (c_policies c)) /\
  exists w, lookup "default" (c_policies c') = Some [LW "default" w] /\ w = f64_one.
Proof. exact policies_kept. Qed.
Print Assumptions C09_others_partial.

Example C09_case : exists c', boot unit demo_validate isort_routes demo_config = Some c' /\
  option_map (map lw_label) (lookup "ab" (c_policies c')) = Some ["green"; "blue"].
Proof. eexists. split; [vm_compute; reflexivity|]. reflexivity. Qed.

(** C14: where a request on a route goes.  The 503 part is [C14_unmapped_503] in Thm_Handler. *)
Theorem C14_mapped : forall J choose (c : config J) r u label,
  map_url choose c r = Mapped u label <->
  exists ms, lookup (r_resource r) (c_resources c) = Some (Some ms) /\
  ((r_policy r = "" /\ label = "default" /\ exists m post, ms = m :: post /\ rm_url m = u) \/
   (r_policy r <> "" /\
    label = choose (match lookup (r_policy r) (c_policies c) with Some p => p | None => [] end) /\
    exists pre m post, ms = (pre ++ m :: post)%list /\ In label (rm_labels m) /\ rm_url m = u /\
      forall m', In m' pre -> ~ In label (rm_labels m'))).
Proof. exact map_url_mapped. Qed.
Print Assumptions C14_mapped.

Theorem C14_unmapped : forall J choose (c : config J) r,
  map_url choose c r = Unmapped <->
  (forall ms, lookup (r_resource r) (c_resources c) = Some (Some ms) ->
     r_policy r <> "" /\
     forall m, In m ms ->
       ~ In (choose (match lookup (r_policy r) (c_policies c) with Some p => p | None => [] end)) (rm_labels m)).
Proof. exact map_url_unmapped. Qed.
Print Assumptions C14_unmapped.

Example C14_case :
  map_url (fun _ => "blue") demo_config (Route "/todos" None "" "todos" "ab" "") = Mapped (Url "xhttpsx" "localhost" 8082) "blue" /\
  map_url (fun _ => "red") demo_config (Route "/todos" None "" "todos" "ab" "") = Unmapped /\
  map_url (fun _ => "red") demo_config (Route "/todos" None "" "nosuch" "" "") = Unmapped.
Proof. repeat split. Qed.

(** C15: without a transform. *)
Theorem C15_forwarded : forall r u uri, r_transform r = "" ->
  resolve_upstream_uri r u uri = u_scheme u ++ "://" ++ u_host u ++ ":" ++ itoa (u_port u) ++ uri.
Proof. exact resolve_plain. Qed.
Print Assumptions C15_forwarded.

Example C15_case :
  resolve_upstream_uri (Route "/todos" None "" "todos" "" "") (Url "http" "localhost" 8081) "/todos/1?a=b" =
  "http://localhost:8081/todos/1?a=b".
Proof. vm_compute. reflexivity. Qed.

(** C16 does not hold for a path that is a regular expression: the matched prefix stays and the query
    string is rewritten. *)
Theorem C16_regex_refuted :
  match_uri regex_route "/v1/x?next=/v[0-9]" = true /\
  resolve_upstream_uri regex_route ssrf_url "/v1/x?next=/v[0-9]" =
    "http://localhost:60083/v1/x?next=/api".
Proof. exact transform_refuted. Qed.
Print Assumptions C16_regex_refuted.

(** C16, what holds: on a booted route with a literal path starting with a slash, every request it
    matches has its path prefix, and only that, replaced. *)
Theorem C16_literal_partial : forall J jv srt (c c' : config J) r r0 u uri,
  sorts_routes srt -> boot J jv srt c = Some c' -> In r (c_routes c') -> In r0 (c_routes c) ->
  booted_from r0 r -> literal (r_path r0) = true -> (exists x, r_path r0 = "/" ++ x) ->
  r_transform r0 <> "" -> match_uri r uri = true ->
  exists rest, uri = r_path r0 ++ rest /\
    resolve_upstream_uri r u uri =
    u_scheme u ++ "://" ++ u_host u ++ ":" ++ itoa (u_port u) ++
    (if String.eqb (r_transform r0) "/" then "" else r_transform r0) ++ rest.
Proof. exact transform_literal. Qed.
Print Assumptions C16_literal_partial.

Example C16_case : exists c', boot unit demo_validate isort_routes demo_config = Some c' /\
  exists r, In r (c_routes c') /\ match_uri r "/todos/admin/todos/admin?x=/todos/admin" = true /\
    resolve_upstream_uri r (Url "http" "localhost" 8081) "/todos/admin/todos/admin?x=/todos/admin" =
    "http://localhost:8081/adm/todos/admin?x=/todos/admin".
Proof.
  eexists. split; [vm_compute; reflexivity|]. eexists. split; [left; reflexivity|]. split; vm_compute; reflexivity.
Qed.

(** C17 does not hold: on a route with transform "/" a request for "/mse6@evil.com/x" goes to evil.com. *)
Theorem C17_steer_refuted :
  plain_server ssrf_url /\ transform_ok ssrf_route = true /\
  match_uri ssrf_route "/mse6@evil.com/x" = true /\
  host_port (resolve_upstream_uri ssrf_route ssrf_url "/mse6@evil.com/x") "evil.com" /\
  "evil.com" <> u_host ssrf_url ++ ":" ++ itoa (u_port ssrf_url).
Proof. exact steer_refuted. Qed.
Print Assumptions C17_steer_refuted.

(** C17, what holds: host and port are those of the server unless the transform is "/" and something
    other than "/", "?" or "#" follows the route path in the URI. *)
Theorem C17_host_partial : forall r u uri hp,
  plain_server u -> (exists x, uri = "/" ++ x) -> (exists x, r_path r = "/" ++ x) ->
  r_transform r = "" \/ (exists x, r_transform r = "/" ++ x) ->
  (r_transform r = "/" -> safe_removal (r_path r) uri) ->
  (host_port (resolve_upstream_uri r u uri) hp <-> hp = u_host u ++ ":" ++ itoa (u_port u)).
Proof. exact steer_partial. Qed.
Print Assumptions C17_host_partial.

Example C17_case : safe_removal "/mse6" "/mse6/x@y" /\ plain_server ssrf_url.
Proof.
  split.
  - intros rest H. cbn in H. injection H as <-. right. exists "/"%char, "x@y". split; [now left | reflexivity].
  - exact (proj1 steer_refuted).
Qed.

(** C37: the server's write timeout is longer than the round trip timeout. *)
Theorem C37_write_timeout : forall d,
  (0 <= d_roundtrip_timeout d)%Z -> (d_roundtrip_timeout d <= 9223372035)%Z ->
  roundtrip_duration d = (d_roundtrip_timeout d * 1000000000)%Z /\
  (roundtrip_duration d < write_timeout d)%Z.
Proof. exact write_longer. Qed.
Print Assumptions C37_write_timeout.

Example C37_case : write_timeout (default_down (c_down demo_config)) = 31000000000%Z.
Proof. vm_compute. reflexivity. Qed.
