(** Vocabulary for rules of RFC 7230 to 7235 about intermediaries (C116 to C120). *)
From Coq Require Import String Ascii List Bool ZArith NArith.
From Verif Require Import GoStr TextSpec Header HeaderSpec Config Exchange ExchangeSpec Handler HandlerSpec SystemSpec.
Import ListNotations.
Local Open Scope string_scope.

Definition blank_text (s : string) : Prop := forall c, char_of s c -> c = " "%char \/ c = "009"%char.

(** One of the comma-separated lists [vs] has the element [tok], in any case and with blanks around it
    (RFC 7230 section 7). *)
Definition lists (tok : string) (vs : list string) : Prop :=
  exists v fs a x b, In v vs /\ joined "," fs v /\ In (a ++ x ++ b) fs /\ blank_text a /\ blank_text b /\ same_letters tok x.

(** The first Accept-Encoding value mentions gzip: a client the proxy compresses for. *)
Definition gzip_client (q : request) : Prop :=
  exists v vs, values "Accept-Encoding" (q_header q) = v :: vs /\ occurs "gzip" v.

(** Two requests to the same process that differ in Accept-Encoding only *)
Definition same_but_encoding (t1 t2 : setting) : Prop :=
  t_env t1 = t_env t2 /\ t_lib t1 = t_lib t2 /\ t_new t1 = t_new t2 /\ t_cfg t1 = t_cfg t2 /\ t_chance t1 = t_chance t2 /\
  i_path (t_in t1) = i_path (t_in t2) /\ q_method (t_req t1) = q_method (t_req t2) /\
  q_raw_uri (t_req t1) = q_raw_uri (t_req t2) /\ q_uri (t_req t1) = q_uri (t_req t2) /\
  q_length (t_req t1) = q_length (t_req t2) /\ q_data (t_req t1) = q_data (t_req t2) /\ q_data_ok (t_req t1) = q_data_ok (t_req t2) /\
  forall k, k <> "Accept-Encoding" -> values k (q_header (t_req t1)) = values k (q_header (t_req t2)).

(** RFC 7231 section 7.1.4: the response says that it depends on Accept-Encoding. *)
Definition says_varies (h : header) : Prop := lists "accept-encoding" (values "Vary" h) \/ lists "*" (values "Vary" h).

(** RFC 7230 section 5.7.2 with RFC 7234 section 5.2.2.4 *)
Definition no_transform (h : header) : Prop := lists "no-transform" (values "Cache-Control" h).

(** RFC 7232 section 2.3: a strong validator is a quoted text without W/ before it. *)
Definition strong_tag (h : header) (tag : string) : Prop :=
  values "Etag" h = [tag] /\ exists x, tag = String "034" (x ++ String "034" "").

(** RFC 7233 section 4.2: the part sent has [n] bytes. *)
Definition part_of (h : header) (n : nat) : Prop :=
  exists first last total, values "Content-Range" h = ["bytes " ++ itoa_Z first ++ "-" ++ itoa_Z last ++ "/" ++ total] /\
    (0 <= first)%Z /\ (first <= last)%Z /\ Z.of_nat n = (last - first + 1)%Z.

(** All headers an error document may have *)
Definition error_headers : list string := ["Server"; "X-Request-Id"; "Strict-Transport-Security"; "Connection"; "Content-Type"].
