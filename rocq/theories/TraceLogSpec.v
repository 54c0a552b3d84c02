(** Vocabulary for statements about the lines at level trace and debug (C110 to C113). *)
From Coq Require Import String List Bool ZArith.
From Verif Require Import GoStr Header HeaderSpec KidSpec Policy Config Exchange Jwt JwtSpec Machine Handler HandlerSpec SystemSpec AccessLog TraceLog.
Import ListNotations.
Local Open Scope string_scope.

(** The lines logged while the request of [t], with [x], is served *)
Definition traces (t : setting) (x : wire) (ls : list tline) : Prop :=
  exists es, ls = map (TLine (w_id (parse_incoming (t_env t) (ch_fresh (t_chance t)) (t_req t)))) es /\
    match mux_serve (about_paths (Config.c_routes (t_cfg t))) (t_in t) with
    | TAbout => es = incoming_lines (t_env t) x (ch_fresh (t_chance t)) (t_req t)
    | TProxy =>
        let es0 := handler_lines (t_env t) (t_lib t) (t_cfg t) (t_chance t) x (t_req t) in
        match t_serve t with
        | Upstream c => exec c init (t_run t) <> None /\ es = (es0 ++ attempt_uris c x init (t_run t))%list
        | _ => es = es0
        end
    | _ => es = []
    end.

Definition events (ls : list tline) : list tevent := map tl_event ls.

(** A handler of this program gets the request. *)
Definition handled (t : setting) : Prop :=
  exists g, mux_serve (about_paths (Config.c_routes (t_cfg t))) (t_in t) = g /\ (g = TAbout \/ g = TProxy).

Definition size (s : string) : Z := Z.of_nat (String.length s).

(** What the line about the body, and the number of bytes in the line after it, tell about the request *)
Inductive body_told (E : env) (q : request) : body_event -> Z -> Prop :=
| bt_none : q_length q = 0%Z -> body_told E q BNone 0
| bt_refused : oversized E q -> body_told E q (BRefused (q_length q) (e_max_body E)) 0
| bt_broken : q_length q <> 0%Z -> ~ oversized E q -> q_data_ok q = false \/ (e_max_body E < size (q_data q))%Z -> body_told E q BBroken 0
| bt_read : q_length q <> 0%Z -> ~ oversized E q -> q_data_ok q = true -> (size (q_data q) <= e_max_body E)%Z ->
    body_told E q (BRead (size (q_data q)) (q_length q)) (size (q_data q)).

(** The first two lines of a request *)
Definition opening (e : tevent) : Prop := match e with TBody _ | TParsed _ _ _ => True | _ => False end.

Definition of_token (e : tevent) : Prop := match e with TRotate _ _ _ | TJwt _ => True | _ => False end.
Definition of_server (e : tevent) : Prop := match e with TMapped _ _ _ _ | TDefault _ _ | TUnmapped _ => True | _ => False end.

(** [r] is the route of the request of [t], which gets so far. *)
Definition routed (t : setting) (r : route) : Prop :=
  proxied_request (t_cfg t) (t_in t) /\ sound_request (t_env t) (t_req t) /\
  Routing.select_route (c_routes (t_cfg t)) (q_raw_uri (t_req t)) = Some r.

Definition auth_of (t : setting) (auth : string) : Prop :=
  match values "Authorization" (q_header (t_req t)) with v :: _ => auth = v | [] => auth = "" end.

(** It is answered by this program itself with [status]. *)
Definition answered_with (t : setting) (status : Z) : Prop := exists r, t_serve t = Answered r /\ rp_status r = status.

(** A date of a token as it is logged: those up to 1 look like missing ones. *)
Definition shown (o : option Z) (d : option Z) : Prop :=
  match o with Some z => ((1 < z)%Z /\ d = Some z) \/ ((z <= 1)%Z /\ d = None) | None => d = None end.

Definition dates_shown (c : claims) (d : date_claims) : Prop :=
  shown (cl_iat c) (dc_iat d) /\ shown (cl_nbf c) (dc_nbf d) /\ shown (cl_exp c) (dc_exp d).

(** The dates in a line are in time. *)
Definition shown_in_time (now skew : Z) (d : date_claims) : Prop :=
  (forall z, dc_exp d = Some z -> (now < z + skew)%Z) /\
  (forall z, dc_iat d = Some z -> (z - skew <= now)%Z) /\
  (forall z, dc_nbf d = Some z -> (z - skew <= now)%Z).

(** jwx tells the two tokens apart in no way, and they name the same key. *)
Definition alike_tokens (L : library) (a b : string) : Prop :=
  lib_signatures L b = lib_signatures L a /\ lib_parse L b = lib_parse L a /\
  (forall alg k, lib_verify L alg k b = lib_verify L alg k a) /\
  forall kid, kid <> "" -> (names_kid b kid <-> names_kid a kid).

(** The two requests bring such tokens, or none. *)
Definition alike_auth (t t' : setting) : Prop :=
  exists a a', auth_of t a /\ auth_of t' a' /\
    ((forall token, ~ bearer a token) /\ (forall token, ~ bearer a' token) \/
     exists k k', bearer a k /\ bearer a' k' /\ alike_tokens (t_lib t) k k').

(** What the cause in a line about a rejected token means: [j] is the jwt of the moment, [alg] its
    algorithm.  There is no [CNil]. *)
Inductive reason (L : library) (now skew : Z) (j : jwt) (alg auth : string) : cause -> Prop :=
| re_token : (forall token, ~ bearer auth token) -> reason L now skew j alg auth CNoToken
| re_signature : forall token, bearer auth token -> In alg signing -> lib_signatures L token = Some 0 -> reason L now skew j alg auth CNoSignature
| re_key : forall token n, bearer auth token -> In alg signing -> lib_signatures L token = Some (S n) ->
    (forall kid k, In (kid, k) (keys j) -> lib_verify L alg k token = None) -> reason L now skew j alg auth CParse
| re_text : forall token, bearer auth token -> ~ In alg signing -> lib_parse L token = None -> reason L now skew j alg auth CParse
| re_dates : forall token c, bearer auth token -> (In alg signing -> exists kid k, In (kid, k) (keys j) /\ lib_verify L alg k token = Some c) ->
    lib_parse L token = Some c -> (moderate now skew -> ~ in_time now skew c) -> reason L now skew j alg auth CDates.

(** What the line about the server of route [r] says: it is the first server with the label drawn for the
    policy, or the first one of the resource. *)
Inductive server_told (t : setting) (r : route) : tevent -> url -> Prop :=
| st_policy : forall a m b label, r_policy r <> "" -> lookup (r_resource r) (c_resources (t_cfg t)) = Some (Some (a ++ m :: b)%list) ->
    label = ch_label (t_chance t) (match lookup (r_policy r) (c_policies (t_cfg t)) with Some p => p | None => [] end) ->
    In label (rm_labels m) -> (forall m', In m' a -> ~ In label (rm_labels m')) ->
    server_told t r (TMapped (r_path r) (base_url (rm_url m)) label (r_policy r)) (rm_url m)
| st_default : forall m b, r_policy r = "" -> lookup (r_resource r) (c_resources (t_cfg t)) = Some (Some (m :: b)) ->
    server_told t r (TDefault (r_path r) (base_url (rm_url m))) (rm_url m).

(** The lines about the URIs of attempts *)
Definition uris (es : list tevent) : list tevent := filter (fun e => match e with TUri _ _ => true | _ => false end) es.

(** A resource is configured for the route. *)
Definition has_resource (t : setting) (r : route) : Prop := exists ms, lookup (r_resource r) (c_resources (t_cfg t)) = Some (Some ms).
