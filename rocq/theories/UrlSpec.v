(** What C124 to C126 mean (RFC 3986 and RFC 7230). *)
From Coq Require Import String Ascii List NArith.
From Verif Require Import GoStr RegexSpec Config ConfigSpec Routing Exchange Jwt Handler HandlerSpec SystemSpec Url.
Import ListNotations.
Local Open Scope string_scope.

(** The target of a request in origin form: a path, maybe a query, and maybe what a client should have kept for
    itself *)
Definition origin (raw p query frag : string) : Prop :=
  raw = p ++ query ++ frag /\ String.prefix "/" p = true /\ has_char "?" p = false /\
  (query = "" /\ frag = "" \/
   exists x, query = "?" ++ x /\ has_char "#" x = false /\ (frag = "" \/ exists y, frag = "#" ++ y)).

Definition alphanumeric (c : ascii) : Prop :=
  let n := N_of_ascii c in (65 <= n <= 90)%N \/ (97 <= n <= 122)%N \/ (48 <= n <= 57)%N.

(** The characters of a path: those of RFC 3986, and brackets *)
Definition path_char (c : ascii) : Prop := alphanumeric c \/ has_char c "-._~!$&'()*+,;=:@/[]%" = true.
Definition well_formed (p : string) : Prop := forall c, has_char c p = true -> path_char c.

(** Percent-encoding of an octet, and of a path: some characters stay *)
Definition kept (c : ascii) : Prop := alphanumeric c \/ has_char c "-._~$&+,;=:@/" = true.
Definition hex_digit (n : N) (c : ascii) : Prop :=
  (n < 10)%N /\ N_of_ascii c = (48 + n)%N \/ (10 <= n < 16)%N /\ N_of_ascii c = (55 + n)%N.
Inductive encoded : string -> string -> Prop :=
| enc_nil : encoded "" ""
| enc_kept : forall c s t, kept c -> encoded s t -> encoded (String c s) (String c t)
| enc_octet : forall c a b s t, ~ kept c -> hex_digit (N_of_ascii c / 16) a -> hex_digit (N_of_ascii c mod 16) b -> encoded s t ->
    encoded (String c s) (String "%" (String a (String b t))).

(** The path that is sent for [p] *)
Definition sent_path (p p' : string) : Prop :=
  well_formed p /\ p' = p \/ ~ well_formed p /\ exists path, decode p = Some path /\ encoded path p'.

(** The part a client should have kept can be decoded. *)
Definition decodable (frag : string) : Prop := frag = "" \/ exists y, frag = "#" ++ y /\ decode y <> None.

(** What net/http makes of the first line of a request *)
Definition arrives (i : incoming) : Prop :=
  exists g, read_target (q_method (i_req i)) (q_raw_uri (i_req i)) = Some g /\ q_uri (i_req i) = request_uri g /\ i_path i = g_path g.

(** A server with a plain name *)
Definition plain_name (h : string) : Prop := h <> "" /\ forall c, has_char c h = true -> alphanumeric c \/ c = "."%char \/ c = "-"%char.
Definition plain_server (u : url) : Prop := (u_scheme u = "http" \/ u_scheme u = "https") /\ plain_name (u_host u).
Definition plain_servers (cfg0 : config jwt) : Prop :=
  forall n ms m, lookup n (c_resources cfg0) = Some (Some ms) -> In m ms -> known_scheme (u_scheme (rm_url m)) /\ plain_name (u_host (rm_url m)).

(** No route for the target has a transform. *)
Definition untransformed (cfg0 : config jwt) (raw : string) : Prop :=
  forall r0, In r0 (c_routes cfg0) -> route_matches r0 raw -> r_transform r0 = "".

(** Requests are read and made by net/http. *)
Definition by_net_http (t : setting) : Prop := arrives (t_in t) /\ forall m u, t_new t m u = new_request m u.
