(** Vocabulary for statements about the hosts requests go to (C140): RFC 3986 section 3.2. *)
From Coq Require Import String Ascii List NArith.
From Verif Require Import GoStr RegexSpec Config ConfigSpec UrlSpec.
Import ListNotations.
Local Open Scope string_scope.

(** A URL of one of the two schemes a client speaks *)
Definition web_url (text : string) : Prop := exists x, text = "http://" ++ x \/ text = "https://" ++ x.

Definition digits_only (s : string) : Prop := forall c, has_char c s = true -> (48 <= N_of_ascii c <= 57)%N.
Definition port_text (s : string) : Prop := s = "" \/ exists d, s = ":" ++ d /\ digits_only d.

(** A host in brackets has a port of digits or none; for others what follows the last colon, if any, is digits. *)
Definition sound_port (hp : string) : Prop :=
  (String.prefix "[" hp = true /\ exists a b, hp = a ++ "]" ++ b /\ has_char "]" b = false /\ port_text b) \/
  (String.prefix "[" hp = false /\ forall a b, hp = a ++ ":" ++ b -> has_char ":" b = false -> digits_only b).

(** Section 3.2.1, and @, which Go lets pass there *)
Definition user_char (c : ascii) : Prop := alphanumeric c \/ has_char c "-._~!$&'()*+,;=:%@" = true.

(** The URL has user information. *)
Definition user_info (text user : string) : Prop :=
  exists scheme hp tail, text = scheme ++ "://" ++ user ++ "@" ++ hp ++ tail /\ has_char ":" scheme = false /\
    no_chars delims (user ++ "@" ++ hp) /\ ends_authority tail /\ has_char "@" hp = false.

(** A plain name with or without a port *)
Definition plain_place (hp : string) : Prop := exists n, plain_name n /\ (hp = n \/ exists p, hp = n ++ ":" ++ itoa p).

(** Section 3.1 *)
Definition letter (c : ascii) : Prop := let n := N_of_ascii c in (65 <= n <= 90)%N \/ (97 <= n <= 122)%N.
Definition scheme_text (s : string) : Prop :=
  exists c x, s = String c x /\ letter c /\ forall d, has_char d x = true -> alphanumeric d \/ In d ["+"; "-"; "."]%char.

(** RFC 7230 section 5.3: origin, absolute and asterisk form.  What follows the scheme is not looked at. *)
Definition target_form (raw : string) : Prop :=
  raw = "*" \/ (exists x, raw = "/" ++ x) \/ (exists scheme x, scheme_text scheme /\ raw = scheme ++ ":" ++ x).
