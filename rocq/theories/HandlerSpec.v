(** What the claims about serving (C02, C14, C20, C39, C49, C63, C64, C67 to C69) mean. *)
From Coq Require Import String Ascii List Bool ZArith NArith Relations.
From Verif Require Import GoStr RegexSpec Header Policy Config ConfigSpec Exchange Jwt JwtSpec Machine Handler Routing.
Import ListNotations.
Local Open Scope string_scope.

(** * Configurations in use *)

(** The keys and documents that definitions find at boot, by name *)
Record sources := Sources { so_pem : string -> option pem_block * string; so_kid : string -> string; so_doc : string -> option (list jwk) }.

(** config.go:243-258 with the definitions of Jwt *)
Definition jwt_checked (so : sources) (name : string) (j : jwt) : option jwt :=
  match validate_jwt_def (so_pem so name) (so_kid so name) (so_doc so name) (named name j) with ROk j' => Some j' | _ => None end.

(** [cfg] is in use after a boot from [cfg0]: key sets may have been refreshed since. *)
Definition in_use (so : sources) (srt : list route -> list route) (cfg0 cfg : config jwt) : Prop :=
  sorts_routes srt /\
  exists cfg1, boot jwt (jwt_checked so) srt cfg0 = Some cfg1 /\
    c_routes cfg = c_routes cfg1 /\ c_policies cfg = c_policies cfg1 /\ c_resources cfg = c_resources cfg1 /\ c_up cfg = c_up cfg1 /\ Config.c_down cfg = Config.c_down cfg1 /\
    Forall2 (fun e0 e => fst e = fst e0 /\ exists j0 docs j, snd e0 = Some j0 /\ snd e = Some j /\
               reached (so_pem so (fst e0)) (so_kid so (fst e0)) (named (fst e0) j0) docs j) (c_jwt cfg0) (c_jwt cfg).

(** * Outcomes *)

Definition status_of (o : outcome) : option Z := match o with Answered r | About r => Some (rp_status r) | _ => None end.

Definition contacts_upstream (o : outcome) : Prop := exists c, o = Upstream c.

(** The request goes to the proxy handler. *)
Definition proxied_request (cfg : config jwt) (i : incoming) : Prop := mux_serve (about_paths (c_routes cfg)) i = TProxy.

Definition known_methods : list string := ["GET"; "HEAD"; "OPTIONS"; "TRACE"; "PUT"; "DELETE"; "POST"; "CONNECT"].

(** The body is announced to be at least as large as allowed. *)
Definition oversized (E : env) (q : request) : Prop := q_length q <> 0%Z /\ (e_max_body E <= q_length q)%Z.

(** net/http reports the length of a body, or -1 if it is unknown. *)
Definition sized (q : request) : Prop := (-1 <= q_length q)%Z.

(** A request the proxy handler does not reject at once *)
Definition sound_request (E : env) (q : request) : Prop := sized q /\ In (to_upper (q_method q)) known_methods /\ ~ oversized E q.

(** * URIs *)

(** A URL whose port is not a number, which net/url rejects *)
Definition bad_port (url : string) : Prop :=
  exists scheme host port c, url = scheme ++ "://" ++ host ++ ":" ++ port /\ In scheme ["http"; "https"] /\
    no_chars (":" :: "@" :: "[" :: delims)%char (host ++ port) /\ has_char c port = true /\ ~ (48 <= N_of_ascii c <= 57)%N.

Definition rejects_bad_ports (new_request : string -> string -> bool) : Prop :=
  forall m url, bad_port url -> new_request m url = false.

(** Value of a hexadecimal digit *)
Definition digit (c : ascii) : option N :=
  let n := N_of_ascii c in
  if N.leb 48 n && N.leb n 57 then Some (n - 48)%N
  else if N.leb 65 n && N.leb n 70 then Some (n - 55)%N
  else if N.leb 97 n && N.leb n 102 then Some (n - 87)%N
  else None.

(** Percent-decoding (RFC 3986, 2.1) *)
Fixpoint decode (s : string) : option string :=
  match s with
  | "" => Some ""
  | String c s' =>
      if Ascii.eqb c "%" then
        match s' with
        | String a (String b s'') =>
            match digit a, digit b, decode s'' with
            | Some x, Some y, Some t => Some (String (ascii_of_N (16 * x + y)) t)
            | _, _, _ => None
            end
        | _ => None
        end
      else match decode s' with Some t => Some (String c t) | None => None end
  end.

(** The raw URI is a path and maybe a query, and the path decodes to [path]. *)
Definition names_path (raw path : string) : Prop :=
  exists p query, raw = p ++ query /\ String.prefix "/" p = true /\ has_char "?" p = false /\
    (query = "" \/ exists x, query = "?" ++ x) /\ decode p = Some path.

(** The same without any encoding of the path *)
Definition plain (raw path : string) : Prop :=
  exists query, raw = path ++ query /\ String.prefix "/" path = true /\ has_char "?" path = false /\ has_char "%" path = false /\
    (query = "" \/ exists x, query = "?" ++ x).

(** No segment is "." or "..", and only the first (the path starts with a slash) and the last are empty. *)
Definition clean (path : string) : Prop :=
  exists segs, path = "/" ++ join "/" segs /\
    (forall s, In s segs -> s <> "." /\ s <> ".." /\ has_char "/" s = false) /\
    (forall a s b, segs = (a ++ s :: b)%list -> s = "" -> b = []).

(** The ways to write a list of segments more simply *)
Inductive simpler : list string -> list string -> Prop :=
| si_here : forall a b, simpler (a ++ "." :: b) (a ++ b)
| si_empty : forall a s b, simpler (a ++ "" :: s :: b) (a ++ s :: b)
| si_up : forall a s b, s <> "" -> s <> "." -> s <> ".." -> simpler (a ++ s :: ".." :: b) (a ++ b)
| si_top : forall b, simpler (".." :: b) b.

(** [to] is a simplest way to write [path]. *)
Definition simplest (path to : string) : Prop :=
  clean to /\
  exists p segs segs', (path = "/" ++ p \/ (path = p /\ String.prefix "/" p = false)) /\ p = join "/" segs /\
    (forall s, In s segs -> has_char "/" s = false) /\
    clos_refl_trans_1n _ simpler segs segs' /\ to = "/" ++ join "/" segs'.

(** * Servers *)

(** No server for a route: its resource is unknown, or no server of it has the label chosen by the policy. *)
Definition serverless (cfg : config jwt) (ch : chance) (r : route) : Prop :=
  forall ms, lookup (r_resource r) (c_resources cfg) = Some (Some ms) ->
    r_policy r <> "" /\
    forall m, In m ms -> ~ In (ch_label ch (match lookup (r_policy r) (c_policies cfg) with Some p => p | None => [] end)) (rm_labels m).

(** Every resource that is not nil has a server. *)
Definition no_empty_resource (cfg0 : config jwt) : Prop := forall name, ~ In (name, Some []) (c_resources cfg0).

(** Paths of the about routes, with a leading slash *)
Definition about_path (cfg0 : config jwt) (p : string) : Prop :=
  exists r0, In r0 (c_routes cfg0) /\ r_resource r0 = "about" /\ slashed (r_path r0) = p.

(** The same as a list, with repetitions *)
Definition configured_about_paths (cfg0 : config jwt) : list string :=
  map (fun r => slashed (r_path r)) (filter (fun r => String.eqb (r_resource r) "about") (c_routes cfg0)).

(** Paths with a handler of their own *)
Definition registered (cfg0 : config jwt) (p : string) : Prop := p = "/" \/ about_path cfg0 p.

(** The path has a handler only with one more slash. *)
Definition lacks_slash (cfg0 : config jwt) (p : string) : Prop :=
  p <> "" /\ (forall q, p <> q ++ "/") /\ ~ registered cfg0 p /\ registered cfg0 (p ++ "/").

(** The path of an about route, or below one that ends in a slash *)
Definition covered (cfg0 : config jwt) (p : string) : Prop :=
  about_path cfg0 p \/ exists d t, about_path cfg0 (d ++ "/") /\ p = (d ++ "/") ++ t.

(** Every token in the header can be read as a JWS message. *)
Definition readable (L : library) (auth : string) : Prop := forall token, bearer auth token -> lib_signatures L token <> None.

(** The selected route needs no token, or gets a valid one. *)
Definition admitted (L : library) (cfg : config jwt) (ch : chance) (r : route) (auth : string) : Prop :=
  r_jwt r = "" \/ exists j, lookup (r_jwt r) (c_jwt cfg) = Some (Some j) /\ fst (validate_jwt L (ch_now ch) j auth) = Valid.

(** All routes are literal and start with a slash. *)
Definition simple_routes (cfg0 : config jwt) : Prop :=
  forall r0, In r0 (c_routes cfg0) -> literal (r_path r0) = true /\ has_char "%" (r_path r0) = false /\ String.prefix "/" (r_path r0) = true.
