(** Theorems about configuration documents (C100 to C103). *)
From Coq Require Import String Ascii List Bool ZArith NArith.
From Verif Require Import GoStr NumberSpec Regex RegexSpec Header Policy PolicyProofs ConfigSpec ConfigProofs Exchange ExchangeSpec Tls Startup StartupSpec StartupCases JwtSpec JwtCases Machine MachineSpec SystemSpec Handler HandlerSpec HandlerCases
  Config Jwt Decode DecodeSpec DecodeProofs DecodeStart DecodeServe DecodeCases.
Import ListNotations.
Local Open Scope string_scope.

(** C100: numbers, texts and the flag in the part about connections are used as written, in names with letters of any
    case; a value of another type is as good as none ... *)
Theorem C100_numbers_partial : forall float d p f, In (p, f) number_settings -> read_at number_doc 0%Z p d (f (decode float d)).
Proof. exact numbers_read. Qed.
Print Assumptions C100_numbers_partial.

Theorem C100_texts_partial : forall float d p f, In (p, f) text_settings -> read_at text_doc "" p d (f (decode float d)).
Proof. exact texts_read. Qed.
Print Assumptions C100_texts_partial.

Theorem C100_flag_partial : forall float d,
  read_at flag_doc false ["connection"; "upstream"; "tlsInsecureSkipVerify"] d (up_skip_verify (c_up (decode float d))).
Proof. exact flag_read. Qed.
Print Assumptions C100_flag_partial.

(** ... so are routes, one by one and in order, ... *)
Theorem C100_routes_partial : forall float d,
  (forall l, says ["routes"] d (DArr l) -> Forall2 route_read l (c_routes (decode float d))) /\
  (silent ["routes"] d -> c_routes (decode float d) = []) /\
  (forall v, says ["routes"] d v -> (forall l, v <> DArr l) -> c_routes (decode float d) = []).
Proof. exact routes_read. Qed.
Print Assumptions C100_routes_partial.

(** ... and jwts, policies and resources, under their names. *)
Theorem C100_jwts_partial : forall float d,
  (forall m n e, says ["jwt"] d m -> entry n m e ->
     (e = DNull /\ lookup n (c_jwt (decode float d)) = Some None) \/
     (e <> DNull /\ exists j, lookup n (c_jwt (decode float d)) = Some (Some j) /\ jwt_read e j)) /\
  (forall m n, says ["jwt"] d m -> no_entry n m -> lookup n (c_jwt (decode float d)) = None) /\
  (silent ["jwt"] d -> c_jwt (decode float d) = []).
Proof. exact jwts_read. Qed.
Print Assumptions C100_jwts_partial.

Theorem C100_policies_partial : forall float d,
  (forall m n e, says ["policies"] d m -> entry n m e ->
     exists p, lookup n (c_policies (decode float d)) = Some p /\
       (forall l, e = DArr l -> Forall2 (weight_read float) l p) /\ ((forall l, e <> DArr l) -> p = [])) /\
  (forall m n, says ["policies"] d m -> no_entry n m -> lookup n (c_policies (decode float d)) = None) /\
  (silent ["policies"] d -> c_policies (decode float d) = []).
Proof. exact policies_read. Qed.
Print Assumptions C100_policies_partial.

Theorem C100_resources_partial : forall float d,
  (forall m n e, says ["resources"] d m -> entry n m e ->
     exists ms, lookup n (c_resources (decode float d)) = Some ms /\
       (forall l, e = DArr l -> exists l', ms = Some l' /\ Forall2 server_read l l') /\ ((forall l, e <> DArr l) -> ms = None)) /\
  (forall m n, says ["resources"] d m -> no_entry n m -> lookup n (c_resources (decode float d)) = None) /\
  (silent ["resources"] d -> c_resources (decode float d) = []).
Proof. exact resources_read. Qed.
Print Assumptions C100_resources_partial.

Example C100_case :
  says ["connection"; "downstream"; "port"] good (DNum "8443") /\ says ["connection"; "downstream"; "maxBodyBytes"] good (DStr "10") /\
  silent ["connection"; "downstream"; "mode"] good /\ says ["connection"; "upstream"; "tlsInsecureSkipVerify"] good (DBool true) /\
  (exists m l, says ["resources"] good m /\ entry "todos" m (DArr l) /\ l <> []) /\ (exists m l, says ["policies"] good m /\ entry "ab" m (DArr l) /\ l <> []) /\
  let c := decode float0 good in
  d_port (c_down c) = 8443%Z /\ d_max_body (c_down c) = 0%Z /\ d_mode (c_down c) = "" /\ up_skip_verify (c_up c) = true /\
  map r_jwt (c_routes c) = [""; "auth"] /\ option_map (option_map j_skew) (lookup "auth" (c_jwt c)) = Some (Some "0") /\
  option_map (option_map (map (fun m => (rm_labels m, u_port (rm_url m))))) (lookup "todos" (c_resources c)) = Some (Some [(["blue"; ""], 60083%N)]) /\
  lookup "ab" (c_policies c) = Some [LW "blue" f64_one].
Proof.
  split; [exact good_port|]. split; [exact good_limit|]. split; [exact good_mode|]. split; [exact good_skip|].
  split; [exact good_resources|]. split; [exact good_policies|exact good_config].
Qed.

(** C100: the process does not start if the text is no YAML or has no routes. *)
Theorem C100_unreadable_partial : forall p h float yaml text, (forall t, pl_parse p t = parse float yaml t) -> config_text h text ->
  (yaml text = None \/ exists d, yaml text = Some d /\ (silent ["routes"] d \/ exists v, says ["routes"] d v /\ forall e l, v <> DArr (e :: l))) ->
  forall l, ~ listens p h l.
Proof. exact unreadable. Qed.
Print Assumptions C100_unreadable_partial.

Example C100_unreadable_case : (forall t, pl_parse land t = parse float0 yaml0 t) /\ config_text (host0 "gibberish" "" "") "gibberish" /\ yaml0 "gibberish" = None /\
  exists l, listens land (host0 "good" "VERSION" "v1") l.
Proof.
  split; [reflexivity|]. split; [left; split; [discriminate|reflexivity]|]. split; [reflexivity|].
  destruct (started_on "good") as [l|] eqn:E; [exists l; exact (started_listens _ _ E)|vm_compute in E; discriminate E].
Qed.

(** C100 does not hold otherwise: with a list in place of a text, the process starts and serves a route without the
    token that the document asks for; ... *)
Theorem C100_refuted : exists p h t float yaml d l e c, sorts_routes (pl_sort p) /\ written_in p h float yaml d /\ says ["routes"] d (DArr l) /\
  StartupSpec.serves p h t /\ route_for l (q_raw_uri (t_req t)) e /\ holds "jwt" e (DArr [DStr "auth"]) /\
  get "Authorization" (q_header (t_req t)) = "" /\ t_serve t = Upstream c.
Proof. exact list_opens. Qed.
Print Assumptions C100_refuted.

(** ... with a number for acceptableSkewSeconds, the skew is 120 seconds. *)
Theorem C100_skew_refuted : exists p h t float yaml d l e n m je token cl c, sorts_routes (pl_sort p) /\ written_in p h float yaml d /\ says ["routes"] d (DArr l) /\
  StartupSpec.serves p h t /\ honest (t_lib t) /\ route_for l (q_raw_uri (t_req t)) e /\ text_for "jwt" e n /\ says ["jwt"] d m /\ entry n m je /\
  holds "acceptableSkewSeconds" je (DNum "0") /\ bearer (get "Authorization" (q_header (t_req t))) token /\ lib_parse (t_lib t) token = Some cl /\
  ~ in_time (ch_now (t_chance t)) 0 cl /\ t_serve t = Upstream c.
Proof. exact number_loosens. Qed.
Print Assumptions C100_skew_refuted.

(** C101: whatever a started process sends upstream goes over a route in its document, one with the longest path that
    matches; and if that route has a text for jwt, the request has a token that fits the definition with this name in
    the document. *)
Theorem C101_guards : forall p h t float yaml d l c, sorts_routes (pl_sort p) -> written_in p h float yaml d -> says ["routes"] d (DArr l) ->
  StartupSpec.serves p h t -> t_serve t = Upstream c -> sized (t_req t) -> (0 <= ch_now (t_chance t))%Z ->
  exists e, route_for l (q_raw_uri (t_req t)) e /\
    forall n m je, text_for "jwt" e n -> n <> "" -> says ["jwt"] d m -> entry n m je ->
      exists docs j, lookup n (c_jwt (t_cfg t)) = Some (Some j) /\ defined_by (pl_source p) n je docs j /\
        token_for (pl_source p) (t_lib t) (ch_now (t_chance t)) n je docs j (get "Authorization" (q_header (t_req t))).
Proof. exact document_guards. Qed.
Print Assumptions C101_guards.

(** What is written in the document is in use, whatever it says about keys. *)
Theorem C101_in_use : forall p h float yaml d l, sorts_routes (pl_sort p) -> written_in p h float yaml d -> listens p h l ->
  in_use (pl_source p) (pl_sort p) (decode float d) (li_config l).
Proof. exact document_in_use. Qed.
Print Assumptions C101_in_use.

Example C101_case : exists c, written_in land (host0 "good" "VERSION" "v1") float0 yaml0 good /\
  StartupSpec.serves land (host0 "good" "VERSION" "v1") (guest "good" no_dates [("Authorization", "Bearer old")]) /\
  t_serve (guest "good" no_dates [("Authorization", "Bearer old")]) = Upstream c /\
  route_for [route_doc "/" (DStr ""); route_doc "/admin" (DStr "auth")] "/admin" (route_doc "/admin" (DStr "auth")) /\
  text_for "jwt" (route_doc "/admin" (DStr "auth")) "auth" /\ says ["jwt"] good (DObj [("auth", jwt_doc (DStr "0"))]) /\
  entry "auth" (DObj [("auth", jwt_doc (DStr "0"))]) (jwt_doc (DStr "0")).
Proof. exact good_guest. Qed.

(** Without a token, or with one that expired a minute ago, the answer is 401. *)
Example C101_case_401 :
  option_map rp_status (match t_serve (guest "good" no_dates []) with Answered r => Some r | _ => None end) = Some 401%Z /\
  option_map rp_status (match t_serve (guest "good" minute_ago [("Authorization", "Bearer old")]) with Answered r => Some r | _ => None end) = Some 401%Z.
Proof. split; [exact good_stranger|exact text_rejects]. Qed.

(** C102: whatever a started process sends upstream goes to a server that the document has for the resource of the
    route, the first one or one with the label chosen, with the URI of the request or one changed as the route says. *)
Theorem C102_targets : forall p h t float yaml d l x, sorts_routes (pl_sort p) -> written_in p h float yaml d -> says ["routes"] d (DArr l) ->
  StartupSpec.serves p h t -> asks t x -> sized (t_req t) ->
  exists e rest, route_for l (q_raw_uri (t_req t)) e /\
    (forall res m el, text_for "resource" e res -> says ["resources"] d m -> entry res m (DArr el) ->
       exists s sm u, In s el /\ server_read s sm /\ server_of (rm_url sm) u /\ uq_uri x = base_url u ++ rest /\
         (forall pol, text_for "policy" e pol ->
            (pol = "" /\ hd_error el = Some s) \/
            (pol <> "" /\ In (ch_label (t_chance t) (match lookup pol (c_policies (t_cfg t)) with Some q => q | None => [] end)) (rm_labels sm)))) /\
    (text_for "transform" e "" -> rest = q_uri (t_req t)) /\
    (forall tr path, text_for "transform" e tr -> text_for "path" e path -> tr <> "" -> literal path = true -> (exists y, path = "/" ++ y) -> origin_form (t_req t) ->
       exists tail, q_raw_uri (t_req t) = path ++ tail /\ rest = (if String.eqb tr "/" then "" else tr) ++ tail).
Proof. exact document_targets. Qed.
Print Assumptions C102_targets.

(** C102: and that at most as often as the document says. *)
Theorem C102_attempts : forall p h t float yaml d xs z, written_in p h float yaml d -> StartupSpec.serves p h t -> sends t xs -> sized (t_req t) ->
  number_at (up "maxAttempts") d z -> (Z.of_nat (List.length xs) <= Z.max 1 z)%Z.
Proof. exact document_attempts. Qed.
Print Assumptions C102_attempts.

Example C102_case : (let e := route_doc "/admin" (DStr "auth") in
    text_for "resource" e "todos" /\ text_for "policy" e "" /\ text_for "transform" e "" /\ text_for "path" e "/admin") /\
  (exists x, asks member_of_good x /\ uq_uri x = "http://localhost:60083/admin") /\ number_at (up "maxAttempts") good 3 /\
  StartupSpec.serves land (host0 "good" "VERSION" "v1") member_of_good /\
  exists xs, sends member_of_good xs /\ map uq_uri xs = ["http://localhost:60083/admin"; "http://localhost:60083/admin"].
Proof.
  split; [exact good_texts|]. split; [exact good_asks|]. split; [exact (proj2 (proj2 (proj2 (proj2 good_settings))))|].
  split; [exact good_served|exact good_sends].
Qed.

(** C103: the process listens as the document says ... *)
Theorem C103_listener : forall p h float yaml d l, written_in p h float yaml d -> listens p h l ->
  let v := li_server l in
  (forall z s, number_at (down "port") d z -> text_at (down "mode") d s ->
     exists port, filled z (if String.eqb (to_upper s) "TLS" then 443 else 8080) port /\ sv_addr v = ":" ++ itoa_Z port) /\
  (forall s, text_at (down "mode") d s -> (li_tls l <> None <-> to_upper s = "TLS")) /\
  (forall c k q, text_at (down "cert") d c -> text_at (down "key") d k -> li_tls l = Some q -> pl_pair p c k = Some (tp_chain q)) /\
  (forall z, number_at (down "readTimeoutSeconds") d z -> StartupSpec.fits z -> lasts z 120 (sv_read v) /\ sv_read_header v = sv_read v) /\
  (forall z, number_at (down "idleTimeoutSeconds") d z -> StartupSpec.fits z -> lasts z 120 (sv_idle v)) /\
  (forall z, number_at (down "roundTripTimeoutSeconds") d z -> StartupSpec.fits z -> lasts z 240 (sv_write v - 1000000000)) /\
  (forall z, number_at (down "maxBodyBytes") d z -> filled z 2097152 (e_max_body (li_env l))).
Proof. exact document_listener. Qed.
Print Assumptions C103_listener.

(** ... and connects to upstream servers as it says. *)
Theorem C103_client : forall p h float yaml d l, written_in p h float yaml d -> listens p h l ->
  let k := li_client l in
  (forall z, number_at (up "socketTimeoutSeconds") d z -> StartupSpec.fits z -> lasts z 3 (cl_dial k) /\ cl_handshake k = cl_dial k) /\
  (forall z, number_at (up "idleTimeoutSeconds") d z -> StartupSpec.fits z -> lasts z 120 (cl_idle k)) /\
  (forall z, number_at (up "poolSize") d z -> filled z 32768 (cl_idle_conns k) /\ cl_idle_per_host k = cl_idle_conns k) /\
  (forall b, flag_at (up "tlsInsecureSkipVerify") d b -> cl_skip_verify k = b).
Proof. exact document_client. Qed.
Print Assumptions C103_client.

Example C103_case : (number_at (down "port") good 8443 /\ text_at (down "mode") good "" /\ flag_at (up "tlsInsecureSkipVerify") good true /\
    number_at (down "readTimeoutSeconds") good 0 /\ number_at (up "maxAttempts") good 3) /\
  exists l, listens land (host0 "good" "VERSION" "v1") l /\ sv_addr (li_server l) = ":8443" /\ e_max_body (li_env l) = 2097152%Z /\
    li_tls l = None /\ cl_skip_verify (li_client l) = true /\ sv_read (li_server l) = 120000000000%Z.
Proof. split; [exact good_settings|exact good_listens]. Qed.
