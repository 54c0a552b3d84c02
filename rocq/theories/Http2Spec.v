(** Vocabulary for statements about HTTP/2 (C139): RFC 7540 sections 8.1.2, 8.1.2.2, 8.1.2.3 and 8.1.2.6. *)
From Coq Require Import String Ascii List Bool ZArith NArith.
From Verif Require Import NumberSpec Exchange Header Http2.
Import ListNotations.
Local Open Scope string_scope.

(** A lower case token (RFC 7230 section 3.2.6) *)
Definition name_byte (c : ascii) : Prop :=
  (48 <= N_of_ascii c <= 57)%N \/ (97 <= N_of_ascii c <= 122)%N \/
  In c ["!"; "#"; "$"; "%"; "&"; "'"; "*"; "+"; "-"; "."; "^"; "_"; "`"; "|"; "~"]%char.
Fixpoint name_bytes (s : string) : Prop := match s with EmptyString => True | String c s' => name_byte c /\ name_bytes s' end.
Definition field_name (s : string) : Prop := s <> "" /\ name_bytes s.

Fixpoint field_value (s : string) : Prop :=
  match s with EmptyString => True | String c s' => (N_of_ascii c = 9 \/ (32 <= N_of_ascii c /\ N_of_ascii c <> 127))%N /\ field_value s' end.

(** Section 8.1.2.2; TE is for requests only. *)
Definition connection_specific : list string := ["connection"; "keep-alive"; "proxy-connection"; "transfer-encoding"; "upgrade"].

(** A response to a request with method HEAD if [head] says so; those without payload by definition may have any length. *)
Definition well_formed (head : bool) (status : Z) (m : h2_message) : Prop :=
  exists code fields, hm_fields m = (":status", code) :: fields /\ String.length code = 3 /\ numeral code status /\
    (forall k v, In (k, v) fields -> field_name k /\ field_value v /\ ~ In k connection_specific) /\
    (head = true \/ In status [204; 304]%Z \/
     (exists v, values "content-length" fields = [v] /\ numeral v (Z.of_nat (String.length (hm_data m)))) \/ values "content-length" fields = []).

(** The headers that net/http lets through though they have no place in HTTP/2 *)
Definition let_through : list string := ["Keep-Alive"; "Proxy-Connection"; "Upgrade"].

(** An upstream answer has none of them. *)
Definition unspecific (rs : up_response) : Prop := forall k, In k let_through -> values k (ur_header rs) = [].
