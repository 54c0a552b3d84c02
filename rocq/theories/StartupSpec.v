(** Vocabulary for statements about starting the process (C75 to C82). *)
From Coq Require Import String Ascii List Bool ZArith NArith.
From Verif Require Import GoStr Iprex IprexSpec Policy Config ConfigSpec Exchange Jwt JwtSpec Handler HandlerSpec SystemSpec Tls Startup.
Import ListNotations.
Local Open Scope string_scope.

(** The configuration the process is told to use: the file named on the command line, else the
    environment variable, else the default file; it needs at least one route. *)
Definition told (parse : string -> config jwt) (h : host) (c0 : config jwt) : Prop :=
  c_routes c0 <> [] /\
  match h_flag h with
  | Some (String a f) => exists text, h_files h (String a f) = Some text /\ c0 = parse text
  | _ => (h_env h "J8ACFG_YML" <> "" /\ c0 = parse (h_env h "J8ACFG_YML")) \/
         (h_env h "J8ACFG_YML" = "" /\ exists text, h_files h "j8acfg.yml" = Some text /\ c0 = parse text)
  end.

Definition wants_tls (c0 : config jwt) : Prop := to_upper (d_mode (c_down c0)) = "TLS".

(** What Verify is asked: the authorities in the chain are roots if issuer and subject have the same
    common name, and intermediates otherwise. *)
Definition opt_list {A} (l : list A) : option (list A) := match l with [] => None | _ => Some l end.
Definition own_authority (c : cert) : bool := String.eqb (cn (ct_issuer c)) (cn (ct_subject c)).
Definition trust (chain : list cert) : verify_options :=
  VerifyOptions (opt_list (filter (fun c => ct_ca c && negb (own_authority c)) chain))
                (opt_list (filter (fun c => ct_ca c && own_authority c) chain)).

(** Certificate and key belong together and the certificate verifies and has a DNS name. *)
Definition presentable (pair : string -> string -> option (list (option cert)))
                       (verify : cert -> verify_options -> option (list (list cert))) (d : downstream) (leaf : cert) : Prop :=
  exists rest ch chs, pair (d_cert d) (d_key d) = Some (map Some (leaf :: rest)) /\
    verify leaf (trust (leaf :: rest)) = Some (ch :: chs) /\ ch <> [] /\ ct_dns leaf <> [].

(** Everything the environment of a start consists of *)
Record place := Place {
  pl_source : sources; pl_sort : list route -> list route; pl_parse : string -> config jwt;
  pl_gzip : string -> string; pl_gunzip : string -> string;
  pl_pair : string -> string -> option (list (option cert));
  pl_verify : cert -> verify_options -> option (list (list cert)); pl_clock : nat -> Z; pl_port : string -> bool }.

(** The process started on [h] listens as [l]. *)
Definition listens (p : place) (h : host) (l : listener) : Prop :=
  start (jwt_checked (pl_source p)) (pl_sort p) (pl_parse p) (pl_gzip p) (pl_gunzip p) (pl_pair p) (pl_verify p) (pl_clock p) (pl_port p) h = Some l.

(** The address with the port configured, or that of the mode *)
Definition address (c0 : config jwt) (a : string) : Prop :=
  exists port, filled (d_port (c_down c0)) (if String.eqb (to_upper (d_mode (c_down c0))) "TLS" then 443 else 8080) port /\ a = ":" ++ itoa_Z port.

(** What has to hold for the process to listen with [c0]. *)
Definition can_start (p : place) (c0 : config jwt) : Prop :=
  valid_config (jwt_checked (pl_source p)) c0 /\
  NoDup ("/" :: configured_about_paths c0) /\
  (wants_tls c0 -> exists leaf, presentable (pl_pair p) (pl_verify p) (c_down c0) leaf) /\
  exists a, address c0 a /\ pl_port p a = true.

(** * Durations *)

(** [ns] is the number of nanoseconds configured by [v] seconds, [d] seconds being the default. *)
Definition lasts (v d ns : Z) : Prop := exists s, filled v d s /\ ns = (s * 1000000000)%Z.

(** Seconds that fit into a time.Duration, with one more *)
Definition fits (s : Z) : Prop := (-9223372036 <= s <= 9223372035)%Z.

(** * Process values *)

Definition lower_hex (c : ascii) : Prop := In c (list_ascii_of_string "0123456789abcdef").

(** HOSTNAME or the host's own name; VERSION or the one built in *)
Definition named_as (h : host) (n : string) : Prop :=
  (h_env h "HOSTNAME" <> "" /\ n = h_env h "HOSTNAME") \/ (h_env h "HOSTNAME" = "" /\ n = h_hostname h).
Definition versioned (h : host) (v : string) : Prop :=
  (h_env h "VERSION" <> "" /\ v = h_env h "VERSION") \/ (h_env h "VERSION" = "" /\ v = "v0.7.2").

(** [t] is a request served by the process started on [h]. *)
Definition serves (p : place) (h : host) (t : setting) : Prop :=
  exists l c0, listens p h l /\ told (pl_parse p) h c0 /\ t_env t = li_env l /\ in_use (pl_source p) (pl_sort p) c0 (t_cfg t).

(** * Keep-alive *)

(** Probes an operating system sends before it gives up, by the name of the system *)
Definition probes (os : string) (n : Z) : Prop :=
  (os = "windows" /\ n = 5%Z) \/ (In os ["darwin"; "freebsd"; "openbsd"] /\ n = 8%Z) \/
  (~ In os ["windows"; "darwin"; "freebsd"; "openbsd"] /\ n = 9%Z).
Definition system_of (h : host) (os : string) : Prop :=
  (h_env h "OS" <> "" /\ os = h_env h "OS") \/ (h_env h "OS" = "" /\ os = h_goos h).
