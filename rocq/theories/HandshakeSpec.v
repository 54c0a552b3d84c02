(** What C121 and C122 mean. *)
From Coq Require Import String Ascii List Bool ZArith NArith.
From Verif Require Import GoStr Iprex IprexSpec Policy Config ConfigSpec Exchange Jwt JwtSpec Handler HandlerSpec SystemSpec Tls Startup StartupSpec Handshake.
Import ListNotations.
Local Open Scope string_scope.

(** * Suites, by the numbers of the IANA registry *)

Inductive exchange_kind := Ephemeral | Static.
Inductive cipher_kind := Aead | Cbc | Stream.

(** The suites crypto/tls knows: how keys are exchanged, who signs (nobody said in TLS 1.3), how data is
    protected, bits of the key *)
Definition registry : list (Z * (exchange_kind * option key_kind * cipher_kind * Z)) :=
  [(4865, (Ephemeral, None, Aead, 128)); (4866, (Ephemeral, None, Aead, 256)); (4867, (Ephemeral, None, Aead, 256));
   (49195, (Ephemeral, Some EcdsaKey, Aead, 128)); (49196, (Ephemeral, Some EcdsaKey, Aead, 256)); (52393, (Ephemeral, Some EcdsaKey, Aead, 256));
   (49199, (Ephemeral, Some RsaKey, Aead, 128)); (49200, (Ephemeral, Some RsaKey, Aead, 256)); (52392, (Ephemeral, Some RsaKey, Aead, 256));
   (49161, (Ephemeral, Some EcdsaKey, Cbc, 128)); (49162, (Ephemeral, Some EcdsaKey, Cbc, 256)); (49187, (Ephemeral, Some EcdsaKey, Cbc, 128));
   (49171, (Ephemeral, Some RsaKey, Cbc, 128)); (49172, (Ephemeral, Some RsaKey, Cbc, 256)); (49191, (Ephemeral, Some RsaKey, Cbc, 128));
   (156, (Static, Some RsaKey, Aead, 128)); (157, (Static, Some RsaKey, Aead, 256)); (47, (Static, Some RsaKey, Cbc, 128)); (53, (Static, Some RsaKey, Cbc, 256));
   (60, (Static, Some RsaKey, Cbc, 128)); (10, (Static, Some RsaKey, Cbc, 112)); (5, (Static, Some RsaKey, Stream, 128))]%Z.

(** Forward secrecy and authenticated encryption with at least 128 bits *)
Definition strong_suite (s : Z) : Prop := exists who bits, In (s, (Ephemeral, who, Aead, bits)) registry /\ (128 <= bits)%Z.

(** P-256, P-384 and P-521 *)
Definition nist (e : Z) : Prop := In e [23; 24; 25]%Z.

Definition tls12 : Z := 771.
Definition tls13 : Z := 772.

(** The most preferred version the client shares with a server that speaks TLS 1.2 and 1.3 *)
Definition speaks (c : hello) (v : Z) : Prop :=
  exists before after, hl_versions c = (before ++ v :: after)%list /\ In v [tls12; tls13] /\ ~ In tls12 before /\ ~ In tls13 before.

(** The handshakes that succeed with a certificate for a key of kind [k] *)
Definition welcome (k : key_kind) (c : hello) (v : Z) : Prop :=
  speaks c v /\ hl_signs c v k = true /\ (exists e, nist e /\ In e (hl_curves c)) /\
  ((v = tls13 /\ exists s, In s [4865; 4866; 4867]%Z /\ In s (hl_suites c)) \/
   (v = tls12 /\ k = RsaKey /\ ~ In 22016%Z (hl_suites c) /\ exists s, In s [49199; 49200]%Z /\ In s (hl_suites c))).

(** A client that is up to date with TLS 1.2 and no more (RFC 7525 and 8422): both kinds of ephemeral suites with
    AES-GCM or ChaCha20, all curves, all signatures *)
Definition modern12 (c : hello) : Prop :=
  hl_versions c = [tls12] /\ (forall s who bits, In (s, (Ephemeral, Some who, Aead, bits)) registry -> In s (hl_suites c)) /\
  (forall e, nist e -> In e (hl_curves c)) /\ (forall v k, hl_signs c v k = true) /\ ~ In 22016%Z (hl_suites c).

(** * Announcements *)

Definition announces (p : place) (h : host) : list sign :=
  signs (jwt_checked (pl_source p)) (pl_sort p) (pl_parse p) (pl_pair p) (pl_verify p) (pl_clock p) (pl_port p) h.

(** The configuration is one to start with, whatever becomes of certificates and the port. *)
Definition usable (p : place) (h : host) : Prop :=
  exists c0, told (pl_parse p) h c0 /\ valid_config (jwt_checked (pl_source p)) c0 /\ NoDup ("/" :: configured_about_paths c0).
