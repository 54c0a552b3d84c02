(** What a client decodes of an answer, by cases. *)
From Coq Require Import String Ascii List Bool ZArith.
From Verif Require Import GoStr Header Exchange ExchangeSpec.
Import ListNotations.
Local Open Scope string_scope.

(** The client's first Accept-Encoding value mentions gzip. *)
Definition takes_gzip (q : request) : Prop := exists v vs, values "Accept-Encoding" (q_header q) = v :: vs /\ contains v "gzip" = true.

(** [y] is what comes out at the client's end if an upstream sent [body] with the values [ce] of Content-Encoding;
    [unzip] is what the proxy makes of a body that begins like gzip. *)
Inductive decodes (dec : string -> string -> option string) (unzip : string -> string) (q : request) (ce : list string) (body : string) :
  option string -> Prop :=
| decodes_empty : body = "" -> decodes dec unzip q ce body (content_of dec ce "")
| decodes_packed : takes_gzip q -> gzip_start body -> decodes dec unzip q ce body (dec "gzip" body)
| decodes_bytes : takes_gzip q -> ~ gzip_start body -> body <> "" -> decodes dec unzip q ce body (Some body)
| decodes_same : ~ takes_gzip q -> ~ gzip_start body -> List.length ce <= 1 -> decodes dec unzip q ce body (content_of dec ce body)
| decodes_joined : ~ takes_gzip q -> ~ gzip_start body -> body <> "" -> 2 <= List.length ce ->
    decodes dec unzip q ce body (content_of dec [join " " ce] body)
| decodes_unpacked : ~ takes_gzip q -> gzip_start body -> unzip body <> "" -> decodes dec unzip q ce body (Some (unzip body))
| decodes_emptied : ~ takes_gzip q -> gzip_start body -> unzip body = "" -> decodes dec unzip q ce body (content_of dec ce "").

(** The content [x] of an answer is not changed on the way. *)
Definition kept_content (dec : string -> string -> option string) (unzip : string -> string) (q : request) (ce : list string) (body x : string) : Prop :=
  body = "" \/
  (takes_gzip q /\ gzip_start body /\ dec "gzip" body = Some x) \/
  (takes_gzip q /\ ~ gzip_start body /\ x = body) \/
  (~ takes_gzip q /\ ~ gzip_start body) \/
  (~ takes_gzip q /\ gzip_start body /\ unzip body <> "" /\ x = unzip body) \/
  (~ takes_gzip q /\ gzip_start body /\ unzip body = "" /\ content_of dec ce "" = Some x).
