(** TLS handshakes (C121) and what a start announces (C122). *)
From Coq Require Import String Ascii List Bool ZArith NArith.
From Verif Require Import GoStr Iprex IprexSpec Policy Config ConfigSpec ConfigProofs Exchange Jwt JwtSpec Handler HandlerSpec SystemSpec Tls
  Startup StartupSpec StartupCases Handshake HandshakeSpec HandshakeProofs.
Import ListNotations.
Local Open Scope string_scope.

(** C121: every session is TLS 1.2 or 1.3, the one the client prefers, with ephemeral keys on a NIST curve and
    authenticated encryption, all of which the client offered. *)
Theorem C121_strong : forall p h l q k c s, listens p h l -> li_tls l = Some q -> negotiate q k c = Some s ->
  speaks c (ss_version s) /\ (strong_suite (ss_suite s) /\ In (ss_suite s) (hl_suites c)) /\ (nist (ss_curve s) /\ In (ss_curve s) (hl_curves c)).
Proof. exact sessions_strong. Qed.
Print Assumptions C121_strong.

Example C121_case : exists l q s, listens ground (host0 "tls" "VERSION" "v1") l /\ li_tls l = Some q /\
  negotiate q EcdsaKey client13 = Some s /\ ss_version s = tls13 /\ welcome EcdsaKey client13 tls13.
Proof.
  destruct tls_listener as [l [q [H1 H2]]].
  assert (W : welcome EcdsaKey client13 tls13).
  { split; [exists [], [771%Z]; split; [reflexivity|]; split; [right; left; reflexivity|]; split; intros []|]. split; [reflexivity|].
    split; [exists 23%Z; split; [left; reflexivity|right; left; reflexivity]|]. left. split; [reflexivity|]. exists 4865%Z. split; left; reflexivity. }
  destruct (proj2 (sessions_iff _ _ _ _ _ _ _ H1 H2) W) as [s [H3 H4]]. exists l, q, s.
  split; [exact H1|]. split; [exact H2|]. split; [exact H3|]. split; [exact H4|exact W].
Qed.

(** The handshakes that succeed ... *)
Theorem C121_welcome_partial : forall p h l q k c v, listens p h l -> li_tls l = Some q ->
  ((exists s, negotiate q k c = Some s /\ ss_version s = v) <-> welcome k c v).
Proof. exact sessions_iff. Qed.
Print Assumptions C121_welcome_partial.

(** ... are not those of all modern clients: one that speaks TLS 1.2 and offers every suite with ephemeral keys and
    authenticated encryption is turned away if the certificate has an ECDSA key, because only suites for RSA keys
    are configured. *)
Theorem C121_refuted : exists p h l q c, sorts_routes (pl_sort p) /\ listens p h l /\ li_tls l = Some q /\ modern12 c /\
  negotiate q EcdsaKey c = None /\ exists s, negotiate q RsaKey c = Some s.
Proof. exact ecdsa_alone. Qed.
Print Assumptions C121_refuted.

(** C122: a process that listens has said so, with its version, its mode and its port, after the end of its boot. *)
Theorem C122_said : forall p h l c0, sorts_routes (pl_sort p) -> listens p h l -> told (pl_parse p) h c0 ->
  exists v t port, announces p h = [BootDone; Announced v t port; Listening (":" ++ itoa_Z port)] /\
    versioned h v /\ (t = true <-> li_tls l <> None) /\
    filled (d_port (c_down c0)) (if String.eqb (to_upper (d_mode (c_down c0))) "TLS" then 443 else 8080) port /\ sv_addr (li_server l) = ":" ++ itoa_Z port.
Proof. exact announced_when_listening. Qed.
Print Assumptions C122_said.

(** The listener among the signs is that of C75; the end of the boot says that the configuration is usable; the line
    says in addition that the certificate is. *)
Theorem C122_listening : forall p h a, sorts_routes (pl_sort p) ->
  (In (Listening a) (announces p h) <-> exists l, listens p h l /\ sv_addr (li_server l) = a).
Proof. exact listening_iff. Qed.
Print Assumptions C122_listening.

Theorem C122_boot_partial : forall p h, sorts_routes (pl_sort p) -> (In BootDone (announces p h) <-> usable p h).
Proof. exact boot_done_iff. Qed.
Print Assumptions C122_boot_partial.

Theorem C122_line_partial : forall p h, sorts_routes (pl_sort p) ->
  ((exists v t port, In (Announced v t port) (announces p h)) <->
   usable p h /\ (forall c0, told (pl_parse p) h c0 -> wants_tls c0 -> exists leaf, presentable (pl_pair p) (pl_verify p) (c_down c0) leaf)).
Proof. exact announced_iff. Qed.
Print Assumptions C122_line_partial.

Example C122_case : announces ground (host0 "tls" "VERSION" "v1") = [BootDone; Announced "v1" true 443; Listening ":443"].
Proof. exact tls_signs. Qed.

(** Neither says that the process listens: the line comes before the attempt, which fails if the port is taken ... *)
Theorem C122_line_refuted : exists p h v t port, sorts_routes (pl_sort p) /\ In (Announced v t port) (announces p h) /\ forall l, ~ listens p h l.
Proof. exact announced_in_vain. Qed.
Print Assumptions C122_line_refuted.

(** ... and the end of the boot is signalled before the certificate is looked at. *)
Theorem C122_boot_refuted : exists p h, sorts_routes (pl_sort p) /\ announces p h = [BootDone; Ended] /\ forall l, ~ listens p h l.
Proof. exact booted_in_vain. Qed.
Print Assumptions C122_boot_refuted.
