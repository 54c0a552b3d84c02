(** What the TLS parameters of server.go:195-209 lead to: the choices the server side of crypto/tls makes for
    the first message of a client, and what the start of the process announces, server.go:81-129.

    The choices are those of Go 1.15 (the version in go.mod), written down from its documentation of tls.Config
    and RFC 5246 and 8446; see the trusted base.  Not modelled: resumption, ALPN, SNI (there is one certificate),
    point formats (a client that lists curves is taken to accept uncompressed points), the messages themselves. *)
From Coq Require Import String Ascii List Bool ZArith NArith.
From Verif Require Import GoStr Policy Config Exchange Jwt Handler Tls Startup.
Import ListNotations.
Local Open Scope string_scope.

(** * Handshakes *)

(** The kind of the public key in the certificate *)
Inductive key_kind := RsaKey | EcdsaKey | EdKey.

(** What a client offers, most preferred first: versions, cipher suites, curves, the kinds of keys it takes
    signatures of in the version chosen *)
Record hello := Hello { hl_versions : list Z; hl_suites : list Z; hl_curves : list Z; hl_signs : Z -> key_kind -> bool }.

Record session := Session { ss_version : Z; ss_suite : Z; ss_curve : Z }.

Definition has (l : list Z) (z : Z) : bool := existsb (Z.eqb z) l.

(** tls.Config.MinVersion (server.go:196) with the newest version Go 1.15 speaks; the client's preference counts *)
Definition mutual_version (p : tls_params) (c : hello) : option Z :=
  find (fun v => Z.leb (tp_min p) v && has [772; 771; 770; 769]%Z v) (hl_versions c).

(** tls.Config.CurvePreferences, server.go:197: the server's preference counts *)
Definition mutual_curve (p : tls_params) (c : hello) : option Z := find (has (hl_curves c)) (tp_curves p).

(** The suites of TLS 1.3, which tls.Config.CipherSuites does not choose from *)
Definition suites_13 : list Z := [4865; 4867; 4866]%Z.

(** The suites of TLS 1.2 that sign with the key of the certificate, by the kind of key.  Of those with
    ephemeral keys: 49195, 49196, 52393 and 49161, 49162, 49187 for ECDSA; 49199, 49200, 52392 and 49171, 49172, 49191 for RSA. *)
Definition suite_key (s : Z) : option key_kind :=
  if has [49195; 49196; 52393; 49161; 49162; 49187]%Z s then Some EcdsaKey
  else if has [49199; 49200; 52392; 49171; 49172; 49191]%Z s then Some RsaKey
  else None.

(** Ed25519 certificates go with the suites for ECDSA (RFC 8422) *)
Definition suite_ok (k : key_kind) (s : Z) : bool :=
  match suite_key s, k with
  | Some RsaKey, RsaKey => true
  | Some EcdsaKey, (EcdsaKey | EdKey) => true
  | _, _ => false
  end.

(** The fallback signal of RFC 7507 in a version below the newest *)
Definition fallback (v : Z) (c : hello) : bool := Z.ltb v 772 && has (hl_suites c) 22016.

(** PreferServerCipherSuites, server.go:198, and CipherSuites, server.go:199-207 *)
Definition mutual_suite (p : tls_params) (k : key_kind) (v : Z) (c : hello) : option Z :=
  if Z.eqb v 772 then find (has (hl_suites c)) suites_13
  else find (fun s => suite_ok k s && has (hl_suites c) s) (tp_suites p).

(** [None]: the handshake fails *)
Definition negotiate (p : tls_params) (k : key_kind) (c : hello) : option session :=
  match mutual_version p c with
  | None => None
  | Some v =>
      if fallback v c then None
      else match mutual_curve p c, mutual_suite p k v c with
           | Some e, Some s => if hl_signs c v k then Some (Session v s e) else None
           | _, _ => None
           end
  end.

(** * Announcements *)

(** What can be observed of a start: Boot.Done (server.go:106), the line that says it is listening
    (server.go:115, 122) with the version, the mode and the port, the listener being open, the end of the process *)
Inductive sign := BootDone | Announced (version : string) (tls : bool) (port : Z) | Listening (addr : string) | Ended.

Section Signs.
  Variable jwt_validate : string -> jwt -> option jwt.
  Variable srt : list route -> list route.
  Variable parse : string -> config jwt.
  Variable pair : string -> string -> option (list (option cert)).
  Variable verify : cert -> verify_options -> option (list (list cert)).
  Variable clock : nat -> Z.
  Variable can_listen : string -> bool.

  (** server.go:58-129; the passes before server.go:106 end the process before anything is announced *)
  Definition signs (h : host) : list sign :=
    match bind (load jwt parse (config_file h) (h_env h "J8ACFG_YML") (h_files h)) (boot jwt jwt_validate srt) with
    | None => [Ended]
    | Some c =>
        if negb (mux_ok (c_routes c)) then [Ended]
        else
          let open := if can_listen (sv_addr (scaffold_server c)) then [Listening (sv_addr (scaffold_server c))] else [Ended] in
          let announced t := Announced (version h) t (d_port (c_down c)) :: open in
          BootDone ::
          (if tls_mode (c_down c) then
             match tls_config pair (c_down c) with
             | None => [Ended]
             | Some p => match check_cert_chain verify clock (tp_chain p) with Checked _ => announced true | _ => [Ended] end
             end
           else announced false)
    end.
End Signs.
