(** From the listener to an answer or an upstream attempt: server.go:132-147 (dispatch by
    http.ServeMux), proxyhandler.go:33-76 and responses.go:154-184. *)
From Coq Require Import String Ascii List Bool ZArith NArith.
From Verif Require Import GoStr Header Policy Config Routing Exchange Jwt Machine.
Import ListNotations.
Local Open Scope string_scope.

(** A request with its URL.Path, which net/http decodes. *)
Record incoming := Incoming { i_req : request; i_path : string }.

(** * Dispatch *)

(** route.go:11 *)
Definition about : string := "about".

(** server.go:138-141 *)
Definition about_paths (rs : list route) : list string := map r_path (filter (fun r => String.eqb (r_resource r) about) rs).

Fixpoint distinct (l : list string) : bool :=
  match l with [] => true | x :: l' => negb (mem_str x l') && distinct l' end.

(** server.go:132-147: ServeMux.Handle panics for a pattern that is registered already; an empty
    pattern, which panics too, does not occur as paths start with a slash. *)
Definition mux_ok (rs : list route) : bool := distinct ("/" :: about_paths rs).

(** path.Clean of a path that starts with a slash; [acc] is the result so far, last segment first *)
Fixpoint clean_segments (acc segments : list string) : list string :=
  match segments with
  | [] => rev acc
  | s :: rest =>
      if String.eqb s "" || String.eqb s "." then clean_segments acc rest
      else if String.eqb s ".." then clean_segments (tl acc) rest
      else clean_segments (s :: acc) rest
  end.

Fixpoint ends_with_slash (s : string) : bool :=
  match s with "" => false | String c "" => Ascii.eqb c "/" | String _ s' => ends_with_slash s' end.

(** cleanPath of net/http *)
Definition clean_path (path : string) : string :=
  if String.eqb path "" then "/"
  else
    let p := if String.prefix "/" path then path else "/" ++ path in
    let np := "/" ++ join "/" (clean_segments [] (split "/" p)) in
    if ends_with_slash p && negb (String.eqb np "/") then np ++ "/" else np.

Inductive target := TAbout | TProxy | TBad | TRedirect (path : string) | TNotFound.

(** ServeMux.match: an exact pattern, or else the longest pattern that ends in a slash and is a prefix.
    "/" is the only pattern of the proxy and shorter than all others. *)
Definition mux_match (abouts : list string) (path : string) : target :=
  if mem_str path abouts then TAbout
  else if existsb (fun p => ends_with_slash p && String.prefix p path) abouts then TAbout
  else if String.prefix "/" path then TProxy
  else TNotFound.

(** ServeMux.shouldRedirectRLocked; patterns start with a slash, so the host plays no part *)
Definition should_redirect (abouts : list string) (path : string) : bool :=
  let patterns := ("/" :: abouts)%list in
  negb (mem_str path patterns) && negb (String.eqb path "") && mem_str (path ++ "/") patterns && negb (ends_with_slash path).

(** ServeMux.ServeHTTP and ServeMux.Handler of Go 1.15; redirects keep the query *)
Definition mux_serve (abouts : list string) (i : incoming) : target :=
  if String.eqb (q_raw_uri (i_req i)) "*" then TBad
  else if String.eqb (q_method (i_req i)) "CONNECT" then
    if should_redirect abouts (i_path i) then TRedirect (i_path i ++ "/") else mux_match abouts (i_path i)
  else
    let p := clean_path (i_path i) in
    if should_redirect abouts p then TRedirect (p ++ "/")
    else if negb (String.eqb p (i_path i)) then TRedirect p
    else mux_match abouts (i_path i).

(** * The proxy handler *)

(** What happens to a request: net/http answers it, the about page or a JSON document is written, an
    attempt at an upstream starts (see Machine), or the handler panics. *)
Inductive outcome := ByLibrary (t : target) | About (r : response) | Answered (r : response) | Upstream (c : conf) | Panicked.

Section Handler.
  (** Process-wide values; what jwx says about tokens; whether http.NewRequest accepts a method and
      a URL (an error is ignored at proxyhandler.go:117, and line 131 then panics). *)
  Variable E : env.
  Variable L : library.
  Variable new_request : string -> string -> bool.

  (** Per request: random number of a document, new uuid, choice of a label (see Policy), time. *)
  Record chance := Chance { ch_dice : nat; ch_fresh : string; ch_label : fpolicy -> string; ch_now : Z }.

  (** proxy.go:518-574 with the jwt of the route; an unknown one is a nil pointer, which is
      dereferenced if there is a token *)
  Definition check_jwt (cfg : config jwt) (now : Z) (r : route) (auth : string) : verdict :=
    match lookup (r_jwt r) (c_jwt cfg) with
    | Some (Some j) => fst (validate_jwt L now j auth)
    | _ => match split " " auth with _ :: _ :: _ => Crash | _ => Invalid end
    end.

  (** proxyhandler.go:33-76 *)
  Definition proxy_handler (cfg : config jwt) (ch : chance) (q : request) : outcome :=
    let w := parse_incoming E (ch_fresh ch) q in
    let answer status message := Answered (send_status E (ch_dice ch) w status message) in
    if negb (validate w) then
      if w_too_large w then answer 413%Z ("http request entity too large, limit is " ++ itoa_Z (e_max_body E) ++ " bytes")
      else answer 400%Z "bad or malformed request"
    else
      match select_route (c_routes cfg) (q_raw_uri q) with
      | None => answer 404%Z "upstream resource not found"
      | Some r =>
          match (if has_jwt r then check_jwt cfg (ch_now ch) r (get "Authorization" (q_header q)) else Valid) with
          | Crash => Panicked
          | Invalid => answer 401%Z "jwt bearer token missing, invalid, expired or unauthorized"
          | Valid =>
              match map_url (ch_label ch) cfg r with
              | MapPanic => Panicked
              | Unmapped => answer 503%Z "unable to map upstream resource"
              | Mapped u _ =>
                  let uri := resolve_upstream_uri r u (w_uri w) in
                  Upstream (Conf E w (scaffold_request w uri) (new_request (w_method w) uri) (up_max_attempts (c_up cfg)))
              end
          end
      end.

  (** A request as it comes from the listener *)
  Definition serve (cfg : config jwt) (ch : chance) (i : incoming) : outcome :=
    match mux_serve (about_paths (c_routes cfg)) i with
    | TAbout => About (about_page E (ch_dice ch) (ch_fresh ch) (i_req i))
    | TProxy => proxy_handler cfg ch (i_req i)
    | t => ByLibrary t
    end.
End Handler.
