(** config.go, server.go (boot pipeline), connection.go, resource.go, upstream.go. *)
From Coq Require Import String Ascii List Bool ZArith.
From Verif Require Import GoStr Regex Policy.
Import ListNotations.
Local Open Scope string_scope.

(** upstream.go:8-12.  The port is a uint16; the model uses [N] and never relies on its range. *)
Record url := Url { u_scheme : string; u_host : string; u_port : N }.

(** upstream.go:15-17 *)
Definition url_string (u : url) : string := u_scheme u ++ "://" ++ u_host u ++ ":" ++ itoa (u_port u).

(** resource.go:4-8 *)
Record resource_mapping := RM { rm_name : string; rm_labels : list string; rm_url : url }.

(** route.go:26-33.  [r_regex] is nil until compiled. *)
Record route := Route {
  r_path : string; r_regex : option re; r_transform : string;
  r_resource : string; r_policy : string; r_jwt : string }.

(** route.go:94-96 *)
Definition has_jwt (r : route) : bool := negb (String.eqb (r_jwt r) "").

(** connection.go:10-41 *)
Record downstream := Down {
  d_read_timeout : Z; d_roundtrip_timeout : Z; d_idle_timeout : Z; d_max_body : Z;
  d_mode : string; d_port : Z; d_cert : string; d_key : string }.

(** connection.go:44-69 *)
Record upstream := Upst {
  up_pool : Z; up_idle_timeout : Z; up_socket_timeout : Z; up_read_timeout : Z;
  up_max_attempts : Z; up_skip_verify : bool }.

(** A Go map with string keys is an association list; the first entry for a key counts.  Go map
    iteration order is unspecified, and every pass below treats entries one by one. *)
Definition smap (A : Type) := list (string * A).

Fixpoint lookup {A} (k : string) (m : smap A) : option A :=
  match m with
  | [] => None
  | (k', v) :: m' => if String.eqb k' k then Some v else lookup k m'
  end.

(** [m[k] = v]. *)
Fixpoint insert {A} (k : string) (v : A) (m : smap A) : smap A :=
  match m with
  | [] => [(k, v)]
  | (k', v') :: m' => if String.eqb k' k then (k, v) :: m' else (k', v') :: insert k v m'
  end.

(** config.go:18-24.  [J] is the type of jwt definitions; a missing map and an empty one are the
    same here (config.go:176-178 makes the distinction disappear).  A jwt entry may be a nil
    pointer, when the configuration has a name without a body.  A resource may be a nil slice
    ([None]), which is what route.go:56 tests for. *)
Record config (J : Type) := Cfg {
  c_policies : smap fpolicy;
  c_routes : list route;
  c_jwt : smap (option J);
  c_resources : smap (option (list resource_mapping));
  c_down : downstream;
  c_up : upstream }.
Arguments Cfg {J}. Arguments c_policies {J}. Arguments c_routes {J}. Arguments c_jwt {J}.
Arguments c_resources {J}. Arguments c_down {J}. Arguments c_up {J}.

Definition with_routes {J} (rs : list route) (c : config J) : config J :=
  Cfg (c_policies c) rs (c_jwt c) (c_resources c) (c_down c) (c_up c).
Definition with_resources {J} (m : smap (option (list resource_mapping))) (c : config J) : config J :=
  Cfg (c_policies c) (c_routes c) (c_jwt c) m (c_down c) (c_up c).

Definition with_path (p : string) (r : route) : route :=
  Route p (r_regex r) (r_transform r) (r_resource r) (r_policy r) (r_jwt r).
Definition with_regex (x : re) (r : route) : route :=
  Route (r_path r) (Some x) (r_transform r) (r_resource r) (r_policy r) (r_jwt r).

(** config.go:75-78 *)
Definition config_ok {J} (c : config J) : bool := match c_routes c with [] => false | _ => true end.

(** config.go:151-161, the scheme of one resource URL. *)
Definition norm_scheme (s : string) : string :=
  if String.eqb s "" then "http"
  else if contains s "https" then "https"
  else if contains s "http" then "http"
  else s.

(** config.go:145-165 *)
Definition reapply_schemes {J} (c : config J) : config J :=
  with_resources
    (map (fun e => (fst e, option_map (map (fun m =>
       RM (rm_name m) (rm_labels m)
          (Url (norm_scheme (u_scheme (rm_url m))) (u_host (rm_url m)) (u_port (rm_url m))))) (snd e)))
       (c_resources c)) c.

(** config.go:98-107 *)
Definition reapply_names {J} (c : config J) : config J :=
  with_resources
    (map (fun e => (fst e, option_map (map (fun m => RM (fst e) (rm_labels m) (rm_url m))) (snd e)))
       (c_resources c)) c.

(** Apply a step that may fail to every element. *)
Fixpoint all_ok {A B} (f : A -> option B) (l : list A) : option (list B) :=
  match l with
  | [] => Some []
  | x :: l' => match f x, all_ok f l' with Some y, Some ys => Some (y :: ys) | _, _ => None end
  end.

(** config.go:125-134.  The expression is built from the path as configured. *)
Definition compile_route (r : route) : option route :=
  match re_compile ("^" ++ r_path r) with Some x => Some (with_regex x r) | None => None end.

Definition compile_paths {J} (c : config J) : option (config J) :=
  match all_ok compile_route (c_routes c) with Some rs => Some (with_routes rs c) | None => None end.

(** config.go:136-143 *)
Definition transform_ok (r : route) : bool :=
  String.eqb (r_transform r) "" || String.prefix "/" (r_transform r).

Definition compile_transforms {J} (c : config J) : option (config J) :=
  if forallb transform_ok (c_routes c) then Some c else None.

(** config.go:112-114 *)
Definition add_slash (p : string) : string := if String.prefix "/" p then p else "/" ++ p.

(** config.go:115-119 *)
Definition jwt_known {J} (m : smap (option J)) (r : route) : bool :=
  negb (has_jwt r) || match lookup (r_jwt r) m with Some _ => true | None => false end.

(** config.go:109-123; [srt] is the effect of sort.Sort with the order of route.go:21-23. *)
Definition validate_routes {J} (srt : list route -> list route) (c : config J) : option (config J) :=
  let rs := map (fun r => with_path (add_slash (r_path r)) r) (c_routes c) in
  if forallb (jwt_known (c_jwt c)) rs then Some (with_routes (srt rs) c) else None.

(** 1.0 as a binary64 number. *)
Definition f64_1 : f64 := SpecFloat.S754_finite false 4503599627370496 (-52).

(** config.go:167-181 *)
Definition default_policy : fpolicy := [LW "default" f64_1].
Definition add_default_policy {J} (c : config J) : config J :=
  Cfg (insert "default" default_policy (c_policies c)) (c_routes c) (c_jwt c) (c_resources c) (c_down c) (c_up c).

Definition or_default (v d : Z) : Z := if Z.eqb v 0 then d else v.

(** config.go:219-221 *)
Definition tls_mode (d : downstream) : bool := String.eqb (to_upper (d_mode d)) "TLS".

(** config.go:183-217 *)
Definition default_down (d : downstream) : downstream :=
  let mode := if String.eqb (d_mode d) "" then "HTTP" else to_upper (d_mode d) in
  let d1 := Down (or_default (d_read_timeout d) 120) (or_default (d_roundtrip_timeout d) 240)
                 (or_default (d_idle_timeout d) 120) (or_default (d_max_body d) 2097152)
                 mode (d_port d) (d_cert d) (d_key d) in
  Down (d_read_timeout d1) (d_roundtrip_timeout d1) (d_idle_timeout d1) (d_max_body d1) (d_mode d1)
       (or_default (d_port d1) (if tls_mode d1 then 443 else 8080)) (d_cert d1) (d_key d1).

(** config.go:223-241 *)
Definition default_up (u : upstream) : upstream :=
  Upst (or_default (up_pool u) 32768) (or_default (up_idle_timeout u) 120)
       (or_default (up_socket_timeout u) 3) (or_default (up_read_timeout u) 120)
       (or_default (up_max_attempts u) 1) (up_skip_verify u).

Definition set_default_up {J} (c : config J) : config J :=
  Cfg (c_policies c) (c_routes c) (c_jwt c) (c_resources c) (c_down c) (default_up (c_up c)).
Definition set_default_down {J} (c : config J) : config J :=
  Cfg (c_policies c) (c_routes c) (c_jwt c) (c_resources c) (default_down (c_down c)) (c_up c).

Section Boot.
  Variable J : Type.
  (** Jwt.Init and Jwt.Validate (jwt.go:99-167) on the named definition: [None] is an error. *)
  Variable jwt_validate : string -> J -> option J.
  Variable srt : list route -> list route.

  (** config.go:243-258.  A nil entry is dereferenced at config.go:247 and stops the boot. *)
  Definition validate_jwts (c : config J) : option (config J) :=
    match all_ok (fun e : string * option J =>
                    match snd e with
                    | Some j => match jwt_validate (fst e) j with
                                | Some j' => Some (fst e, Some j') | None => None end
                    | None => None
                    end) (c_jwt c) with
    | Some m => Some (Cfg (c_policies c) (c_routes c) m (c_resources c) (c_down c) (c_up c))
    | None => None
    end.

  Definition bind {A B} (x : option A) (f : A -> option B) : option B :=
    match x with Some a => f a | None => None end.

  (** server.go:62-72 after load.  [None]: the process exits. *)
  Definition boot (c : config J) : option (config J) :=
    bind (validate_jwts (reapply_names (reapply_schemes c))) (fun c1 =>
    bind (compile_paths c1) (fun c2 =>
    bind (compile_transforms c2) (fun c3 =>
    bind (validate_routes srt c3) (fun c4 =>
    Some (set_default_down (set_default_up (add_default_policy c4))))))).

  (** ** Where the configuration comes from *)

  (** [parse] is yaml.YAMLToJSON followed by json.Unmarshal into the empty configuration
      (config.go:92-96, errors ignored); [files] is the file system, [None] if a file cannot be
      opened (config.go:81-87 exits). *)
  Variable parse : string -> config J.

  Definition default_config_file : string := "j8acfg.yml".

  Definition accept (c : config J) : option (config J) := if config_ok c then Some c else None.

  (** config.go:34-59; [cfile] is the value of -c when the flag was given and "" otherwise
      (cmd/j8a/main.go:19-21), [env] is $J8ACFG_YML. *)
  Definition load (cfile env : string) (files : string -> option string) : option (config J) :=
    if negb (String.eqb cfile "") then bind (files cfile) (fun s => accept (parse s))
    else if negb (String.eqb env "") then accept (parse env)
    else bind (files default_config_file) (fun s => accept (parse s)).
End Boot.

(** config.go:260-262 and server.go:84-86: time.Duration is an int64 number of nanoseconds. *)
Definition seconds (n : Z) : Z := wrap64 (n * 1000000000).
Definition roundtrip_duration (d : downstream) : Z := seconds (d_roundtrip_timeout d).
Definition write_timeout (d : downstream) : Z := wrap64 (seconds (d_roundtrip_timeout d) + 1000000000).
