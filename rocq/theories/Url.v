(** The parts of net/url and net/http (Go 1.15) that a URI goes through on its way to an upstream: the request line is
    parsed by net/http, proxy.go:208-209 ask the result for its path and its URI, proxy.go:129-139 put the latter behind the address of
    a server, and proxyhandler.go:119-122 have http.NewRequestWithContext parse that, ignoring its error; the client
    writes the URI of the result.  User information is kept as a flag and fragments, which are never sent, not at
    all, except that they can fail to parse. *)
From Coq Require Import String Ascii List Bool NArith.
From Verif Require Import GoStr.
Import ListNotations.
Local Open Scope string_scope.

(** * Texts *)

Fixpoint mem_char (c : ascii) (s : string) : bool :=
  match s with "" => false | String d s' => Ascii.eqb c d || mem_char c s' end.

(** Before and after the first [c] *)
Fixpoint cut_first (c : ascii) (s : string) : option (string * string) :=
  match s with
  | "" => None
  | String d s' =>
      if Ascii.eqb d c then Some ("", s')
      else match cut_first c s' with Some (a, b) => Some (String d a, b) | None => None end
  end.

(** Before and after the last [c] *)
Fixpoint cut_last (c : ascii) (s : string) : option (string * string) :=
  match s with
  | "" => None
  | String d s' =>
      match cut_last c s' with
      | Some (a, b) => Some (String d a, b)
      | None => if Ascii.eqb d c then Some ("", s') else None
      end
  end.

(** Before the first [t], and from there on (strings.Index) *)
Fixpoint cut_text (t s : string) : option (string * string) :=
  if String.prefix t s then Some ("", s)
  else match s with
       | "" => None
       | String d s' => match cut_text t s' with Some (a, b) => Some (String d a, b) | None => None end
       end.

Definition is_alpha (c : ascii) : bool := let n := N_of_ascii c in (N_in 65 90 n || N_in 97 122 n)%bool.
Definition is_digit (c : ascii) : bool := N_in 48 57 (N_of_ascii c).
Definition is_alnum (c : ascii) : bool := is_alpha c || is_digit c.

(** stringContainsCTLByte *)
Fixpoint has_ctl (s : string) : bool :=
  match s with "" => false | String c s' => let n := N_of_ascii c in N.ltb n 32 || N.eqb n 127 || has_ctl s' end.

(** * Escaping *)

Inductive mode := MPath | MHost | MZone | MUser | MFragment.

Definition dquote : ascii := ascii_of_N 34.

(** shouldEscape *)
Definition should_escape (m : mode) (c : ascii) : bool :=
  if is_alnum c then false
  else if match m with MHost | MZone => mem_char c "!$&'()*+,;=:[]<>" || Ascii.eqb c dquote | _ => false end then false
  else if mem_char c "-_.~" then false
  else if mem_char c "$&+,/:;=?@" then
    match m with MPath => Ascii.eqb c "?" | MUser => mem_char c "@/?:" | MFragment => false | MHost | MZone => true end
  else match m with MFragment => negb (mem_char c "!()*") | _ => true end.

(** ishex and unhex *)
Definition hex_val (c : ascii) : option N :=
  let n := N_of_ascii c in
  if N_in 48 57 n then Some (n - 48)%N
  else if N_in 97 102 n then Some (n - 97 + 10)%N
  else if N_in 65 70 n then Some (n - 65 + 10)%N
  else None.

(** unescape *)
Fixpoint unescape (m : mode) (s : string) : option string :=
  match s with
  | "" => Some ""
  | String c s' =>
      if Ascii.eqb c "%" then
        match s' with
        | String a (String b s'') =>
            match hex_val a, hex_val b with
            | Some x, Some y =>
                let v := ascii_of_N (x * 16 + y) in
                let percent := Ascii.eqb a "2" && Ascii.eqb b "5" in
                if match m with
                   | MHost => N.ltb x 8 && negb percent
                   | MZone => negb percent && negb (Ascii.eqb v " ") && should_escape MHost v
                   | _ => false
                   end then None
                else match unescape m s'' with Some t => Some (String v t) | None => None end
            | _, _ => None
            end
        | _ => None
        end
      else if match m with MHost | MZone => N.ltb (N_of_ascii c) 128 && should_escape m c | _ => false end then None
      else match unescape m s' with Some t => Some (String c t) | None => None end
  end.

Definition hex_upper (n : N) : ascii := ascii_of_N (if N.ltb n 10 then 48 + n else 55 + n).

(** escape *)
Fixpoint escape (m : mode) (s : string) : string :=
  match s with
  | "" => ""
  | String c s' =>
      if should_escape m c
      then String "%" (String (hex_upper (N_of_ascii c / 16)) (String (hex_upper (N_of_ascii c mod 16)) (escape m s')))
      else String c (escape m s')
  end.

(** validEncoded *)
Fixpoint valid_encoded (m : mode) (s : string) : bool :=
  match s with
  | "" => true
  | String c s' => (mem_char c "!$&'()*+,;=:@[]%" || negb (should_escape m c)) && valid_encoded m s'
  end.

(** * URLs *)

Record gourl := GoUrl {
  g_scheme : string; g_opaque : string; g_user : bool; g_host : string;
  g_path : string; g_raw_path : string; g_force : bool; g_query : string }.

(** getscheme: None for a missing scheme *)
Fixpoint scheme_from (first : bool) (s : string) : option (option (string * string)) :=
  match s with
  | "" => Some None
  | String c s' =>
      if Ascii.eqb c ":" then if first then None else Some (Some ("", s'))
      else if is_alpha c || negb first && (is_digit c || mem_char c "+-.") then
        match scheme_from false s' with
        | Some (Some (a, b)) => Some (Some (String c a, b))
        | r => r
        end
      else Some None
  end.
Definition get_scheme (s : string) : option (string * string) :=
  match scheme_from true s with None => None | Some None => Some ("", s) | Some (Some p) => Some p end.

(** strings.ToLower on a scheme *)
Fixpoint lower (s : string) : string :=
  match s with
  | "" => ""
  | String c s' => String (if N_in 65 90 (N_of_ascii c) then ascii_of_N (N_of_ascii c + 32) else c) (lower s')
  end.

Fixpoint all_digits (s : string) : bool := match s with "" => true | String c s' => is_digit c && all_digits s' end.

(** validOptionalPort *)
Definition valid_port (s : string) : bool :=
  match s with "" => true | String c s' => Ascii.eqb c ":" && all_digits s' end.

(** parseHost *)
Definition parse_host (host : string) : option string :=
  if String.prefix "[" host then
    match cut_last "]" host with
    | None => None
    | Some (a, b) =>
        if valid_port b then
          match cut_text "%25" a with
          | Some (x, z) =>
              match unescape MHost x, unescape MZone z, unescape MHost (String "]" b) with
              | Some r, Some t, Some u => Some (r ++ t ++ u)
              | _, _, _ => None
              end
          | None => unescape MHost host
          end
        else None
    end
  else
    match cut_last ":" host with
    | Some (_, b) => if all_digits b then unescape MHost host else None
    | None => unescape MHost host
    end.

(** validUserinfo *)
Fixpoint valid_userinfo (s : string) : bool :=
  match s with "" => true | String c s' => (is_alnum c || mem_char c "-._:~!$&'()*+,;=%@") && valid_userinfo s' end.

(** parseAuthority: whether there is user information, and the host *)
Definition parse_authority (s : string) : option (bool * string) :=
  match cut_last "@" s with
  | None => match parse_host s with Some h => Some (false, h) | None => None end
  | Some (info, s') =>
      match parse_host s' with
      | None => None
      | Some h =>
          if valid_userinfo info then
            match cut_first ":" info with
            | None => match unescape MUser info with Some _ => Some (true, h) | None => None end
            | Some (a, b) => match unescape MUser a, unescape MUser b with Some _, Some _ => Some (true, h) | _, _ => None end
            end
          else None
      end
  end.

(** setPath: Path and RawPath *)
Definition set_path (p : string) : option (string * string) :=
  match unescape MPath p with
  | Some path => Some (path, if String.eqb p (escape MPath path) then "" else p)
  | None => None
  end.

(** The query: ForceQuery, RawQuery and what is left *)
Definition cut_query (rest : string) : bool * string * string :=
  match cut_first "?" rest with
  | None => (false, "", rest)
  | Some (a, "") => (true, "", a)
  | Some (a, q) => (false, q, a)
  end.

(** parse; [via] for requests *)
Definition parse_go (via : bool) (raw : string) : option gourl :=
  if has_ctl raw then None
  else if String.eqb raw "" && via then None
  else if String.eqb raw "*" then Some (GoUrl "" "" false "" "*" "" false "")
  else
    match get_scheme raw with
    | None => None
    | Some (scheme, rest0) =>
        let '(force, query, rest) := cut_query rest0 in
        if negb (String.prefix "/" rest) && negb (String.eqb scheme "") then
          Some (GoUrl (lower scheme) rest false "" "" "" force query)
        else if negb (String.prefix "/" rest) && (via || match cut_first ":" rest with Some (a, _) => negb (mem_char "/" a) | None => false end) then None
        else
          let parsed :=
            if (negb (String.eqb scheme "") || negb via && negb (String.prefix "///" rest)) && String.prefix "//" rest then
              match (match cut_first "/" (drop 2 rest) with Some (a, b) => (a, String "/" b) | None => (drop 2 rest, "") end) with
              | (authority, rest') => match parse_authority authority with Some (us, h) => Some (us, h, rest') | None => None end
              end
            else Some (false, "", rest) in
          match parsed with
          | None => None
          | Some (us, h, p) =>
              match set_path p with
              | None => None
              | Some (path, raw_path) => Some (GoUrl (lower scheme) "" us h path raw_path force query)
              end
          end
    end.

(** Parse: what follows a "#" must be an escaped text *)
Definition parse_url (raw : string) : option gourl :=
  match cut_first "#" raw with
  | None => parse_go false raw
  | Some (u, frag) =>
      match parse_go false u, unescape MFragment frag with
      | Some g, Some _ => Some g
      | _, _ => None
      end
  end.

(** EscapedPath *)
Definition escaped_path (u : gourl) : string :=
  if negb (String.eqb (g_raw_path u) "") && valid_encoded MPath (g_raw_path u)
     && match unescape MPath (g_raw_path u) with Some p => String.eqb p (g_path u) | None => false end
  then g_raw_path u
  else if String.eqb (g_path u) "*" then "*"
  else escape MPath (g_path u).

(** RequestURI *)
Definition request_uri (u : gourl) : string :=
  (if String.eqb (g_opaque u) "" then
     let p := escaped_path u in if String.eqb p "" then "/" else p
   else if String.prefix "//" (g_opaque u) then g_scheme u ++ ":" ++ g_opaque u else g_opaque u)
  ++ (if g_force u || negb (String.eqb (g_query u) "") then "?" ++ g_query u else "").

(** * Requests *)

(** isTokenTable *)
Definition is_token (c : ascii) : bool := is_alnum c || mem_char c "!#$%&'*+-.^_`|~".
Fixpoint all_token (s : string) : bool := match s with "" => true | String c s' => is_token c && all_token s' end.

(** readRequest: the URL of a request, from its method and the target in its first line *)
Definition read_target (method raw : string) : option gourl :=
  if String.eqb method "CONNECT" && negb (String.prefix "/" raw) then parse_go true ("http://" ++ raw) else parse_go true raw.

(** NewRequestWithContext with bodies of j8a: whether there is no error *)
Definition new_request (method url : string) : bool :=
  all_token method && match parse_url url with Some _ => true | None => false end.

(** The target that the client writes for a URL: Request.write without a proxy *)
Definition wire_target (url : string) : option string := option_map request_uri (parse_url url).
