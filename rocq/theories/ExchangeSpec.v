(** Vocabulary for statements about requests and responses. *)
From Coq Require Import String Ascii List Bool ZArith NArith.
From Verif Require Import GoStr Header HeaderSpec Exchange.
Import ListNotations.
Local Open Scope string_scope.

(** [dec c b] is the content of [b] under content coding [c], if [b] is valid in it.  The contract
    says what gzip.go needs from compress/gzip. *)
Definition codec (E : env) (dec : string -> string -> option string) : Prop :=
  (forall s, dec "gzip" (e_gzip E s) = Some s) /\
  (forall b s, dec "gzip" b = Some s -> e_gunzip E b = s) /\
  (forall b s, dec "gzip" b = Some s -> exists t, b = String (ascii_of_N 31) (String (ascii_of_N 139) t)).

(** The body begins with the two bytes every gzip file begins with (RFC 1952). *)
Definition gzip_start (body : string) : Prop := exists t, body = String (ascii_of_N 31) (String (ascii_of_N 139) t).

(** Content of a message body, given its Content-Encoding values (RFC 7231 section 3.1.2). *)
Definition content_of (dec : string -> string -> option string) (ce : list string) (body : string) : option string :=
  match ce with
  | [] => Some body
  | [c] => if String.eqb c "identity" then Some body else dec c body
  | _ => None
  end.

(** * Accept-Encoding (RFC 7231 section 5.3.4) *)

Fixpoint skip_spaces (s : string) : string :=
  match s with String c s' => if Ascii.eqb c " " then skip_spaces s' else s | EmptyString => "" end.

Definition zero_weight (s : string) : bool := mem_str s ["q=0"; "q=0."; "q=0.0"; "q=0.00"; "q=0.000"].

(** One list element, such as "gzip;q=0". *)
Definition element_allows (c : string) (e : string) : bool :=
  match split ";" e with
  | name :: params => String.eqb (skip_spaces name) c && negb (existsb (fun p => zero_weight (skip_spaces p)) params)
  | [] => false
  end.

(** The header allows coding [c] by name. *)
Definition allows (c : string) (ae : list string) : bool :=
  existsb (fun v => existsb (element_allows c) (split "," v)) ae.

(** The number of body bytes a request has, when its Content-Length is honest. *)
Definition honest_length (q : request) : Prop :=
  (0 <= q_length q)%Z /\ Z.of_nat (String.length (q_data q)) = q_length q /\ q_data_ok q = true.

(** A body sent without a length, complete. *)
Definition chunked (q : request) : Prop := q_length q = (-1)%Z /\ q_data_ok q = true.

(** No Accept-Encoding value of the request mentions gzip. *)
Definition no_gzip_client (q : request) : Prop :=
  forall v, In v (values "Accept-Encoding" (q_header q)) -> contains v "gzip" = false.

(** Response headers the proxy has a say in. *)
Definition own_headers : list string :=
  ["Server"; "X-Request-Id"; "Strict-Transport-Security"; "Connection"; "Content-Length"; "Content-Encoding"].
