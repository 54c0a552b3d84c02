(** From the start of the process to the listener: cmd/j8a/main.go, BootStrap and startListening of
    server.go, logger.go, time.go and the transport of httpclient.go.

    Not modelled: debug lines, the statistics goroutines (see Stats), Boot.Done, what ListenAndServe
    does once the listener is open (see Handler). *)
From Coq Require Import String Ascii List Bool ZArith NArith.
From Coq Require Import Floats.SpecFloat.
From Verif Require Import GoStr Regex Iprex Policy Config Exchange Jwt Handler Tls.
Import ListNotations.
Local Open Scope string_scope.

(** * The environment of the process *)

(** os.Getenv (empty if unset), os.Hostname (empty after an error), runtime.GOOS, the value of -c if it was
    given, files that can be read, md5.Sum (16 bytes). *)
Record host := Host {
  h_env : string -> string; h_hostname : string; h_goos : string; h_flag : option string;
  h_files : string -> option string; h_md5 : string -> string }.

(** logger.go:24-31 *)
Definition host_name (h : host) : string :=
  let n := h_env h "HOSTNAME" in if Nat.eqb (String.length n) 0 then h_hostname h else n.

(** logger.go:33-41 with server.go:19 *)
Definition version (h : host) : string :=
  let v := h_env h "VERSION" in if Nat.ltb 0 (String.length v) then v else "v0.7.2".

(** hex.EncodeToString: lower case *)
Definition low_digit (n : N) : ascii := ascii_of_N (if N.ltb n 10 then n + 48 else n + 87).
Fixpoint hex_encode (s : string) : string :=
  match s with
  | "" => ""
  | String c s' => String (low_digit (N_of_ascii c / 16)) (String (low_digit (N_of_ascii c mod 16)) (hex_encode s'))
  end.

(** logger.go:16-22 *)
Definition server_id (h : host) : string := take 8 (hex_encode (h_md5 h (host_name h ++ version h))).

(** logger.go:44-58; Warn is the highest level that can be asked for. *)
Inductive verbosity := VTrace | VDebug | VInfo | VWarn.
Definition log_level (h : host) : verbosity :=
  let l := to_upper (h_env h "LOGLEVEL") in
  if String.eqb l "TRACE" then VTrace
  else if String.eqb l "DEBUG" then VDebug
  else if String.eqb l "INFO" then VInfo
  else if String.eqb l "WARN" then VWarn
  else VInfo.

(** time.go:11-19 *)
Definition time_zone (h : host) : string :=
  let tz := h_env h "TZ" in if Nat.eqb (String.length tz) 0 then "UTC" else tz.

(** cmd/j8a/main.go:19-21: the global ConfigFile is empty unless the flag was given. *)
Definition config_file (h : host) : string := match h_flag h with Some f => f | None => "" end.

(** * The client for upstream connections *)

(** httpclient.go:76-93 *)
Definition keep_count (h : host) : Z :=
  let e := h_env h "OS" in
  let os := if Nat.eqb (String.length e) 0 then h_goos h else e in
  if String.eqb os "windows" then 5
  else if String.eqb os "darwin" || String.eqb os "freebsd" || String.eqb os "openbsd" then 8
  else 9.

(** float64 of an int; int64 of a float64 (towards zero; what amd64 gives for others) *)
Definition float_of (z : Z) : spec_float := binary_normalize 53 1024 z 0 false.
Definition int_of (f : spec_float) : Z :=
  match f with
  | S754_zero _ => 0
  | S754_finite s m e =>
      let v := if Z.leb 0 e then Z.pos m * 2 ^ e else Z.pos m / 2 ^ (- e) in
      let v := if s then - v else v in
      if Z.leb int64_min v && Z.leb v int64_max then v else int64_min
  | _ => int64_min
  end%Z.

(** httpclient.go:69-74 *)
Definition keep_alive (h : host) (u : upstream) : Z :=
  int_of (SFmul 53 1024 (SFdiv 53 1024 (float_of (up_idle_timeout u)) (float_of (keep_count h))) (float_of 1000000000)).

(** The fields set in http.Transport and net.Dialer, httpclient.go:26-47.  Redirects are never followed. *)
Record client := Client {
  cl_dial : Z; cl_keep_alive : Z; cl_handshake : Z; cl_skip_verify : bool; cl_idle_conns : Z; cl_idle_per_host : Z; cl_idle : Z }.

(** httpclient.go:19-47 *)
Definition scaffold_client (h : host) (u : upstream) : client :=
  Client (seconds (up_socket_timeout u)) (keep_alive h u) (seconds (up_socket_timeout u)) (up_skip_verify u)
         (up_pool u) (up_pool u) (seconds (up_idle_timeout u)).

(** * The listener *)

(** The fields of http.Server, server.go:95-103 *)
Record server := Server { sv_addr : string; sv_read_header : Z; sv_read : Z; sv_write : Z; sv_idle : Z; sv_abouts : list string }.

(** server.go:81-103 *)
Definition scaffold_server {J} (c : config J) : server :=
  let d := c_down c in
  Server (":" ++ itoa_Z (d_port d)) (seconds (d_read_timeout d)) (seconds (d_read_timeout d)) (write_timeout d)
         (seconds (d_idle_timeout d)) (about_paths (c_routes c)).

(** The fields of tls.Config, server.go:195-209, with the numbers of crypto/tls *)
Record tls_params := TlsParams { tp_min : Z; tp_curves : list Z; tp_suites : list Z; tp_chain : list (option cert) }.

(** server.go:175-212.  [pair] is tls.X509KeyPair (the certificates as x509.ParseCertificate reads them), [None]
    for an error; the panic on the empty chain is recovered and ends the process. *)
Definition tls_config (pair : string -> string -> option (list (option cert))) (d : downstream) : option tls_params :=
  match pair (d_cert d) (d_key d) with
  | Some (Some leaf :: chain) =>
      Some (TlsParams 771 [25; 24; 23]%Z [4866; 4865; 4867; 49200; 49199]%Z (Some leaf :: chain))
  | _ => None
  end.

(** A process that listens: the configuration, process values, client and listener in use, and the TLS
    parameters if it listens in TLS mode *)
Record listener := Listener {
  li_config : config jwt; li_env : env; li_client : client; li_server : server; li_tls : option tls_params }.

Section Start.
  Variable jwt_validate : string -> jwt -> option jwt.
  Variable srt : list route -> list route.
  Variable parse : string -> config jwt.
  Variable gzip gunzip : string -> string.
  Variable pair : string -> string -> option (list (option cert)).
  (** x509 verification and the clock, see Tls; whether the address can be listened on *)
  Variable verify : cert -> verify_options -> option (list (list cert)).
  Variable clock : nat -> Z.
  Variable can_listen : string -> bool.

  (** server.go:58-129; [None]: the process ends without listening. *)
  Definition start (h : host) : option listener :=
    match bind (load jwt parse (config_file h) (h_env h "J8ACFG_YML") (h_files h)) (boot jwt jwt_validate srt) with
    | None => None
    | Some c =>
        let e := Env (version h) (server_id h) (tls_mode (c_down c)) (d_max_body (c_down c)) gzip gunzip in
        let listening t := if can_listen (sv_addr (scaffold_server c))
                           then Some (Listener c e (scaffold_client h (c_up c)) (scaffold_server c) t) else None in
        if negb (mux_ok (c_routes c)) then None
        else if tls_mode (c_down c) then
          match tls_config pair (c_down c) with
          | None => None
          | Some p => match check_cert_chain verify clock (tp_chain p) with Checked _ => listening (Some p) | _ => None end
          end
        else listening None
    end.
End Start.

(** * Events and levels *)

(** zerolog's numbers of levels; an event is written if its level is not below the global one. *)
Definition level_number (v : verbosity) : Z := match v with VTrace => -1 | VDebug => 0 | VInfo => 1 | VWarn => 2 end.
Definition written (global event : verbosity) : bool := Z.leb (level_number global) (level_number event).

(** proxyhandler.go:312-319 *)
Definition line_level (warn : bool) : verbosity := if warn then VWarn else VInfo.

(** zerologAdapter.Write, server.go:42-56: level and address of the event for a line of net/http *)
Definition net_event (msg : string) : verbosity * string :=
  (if contains msg "TLS handshake error" then VWarn else VTrace, extract_addr msg).
