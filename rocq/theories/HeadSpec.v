(** Vocabulary for HEAD requests (C96). *)
From Coq Require Import String List ZArith.
From Verif Require Import GoStr NumberSpec Header HeaderSpec Exchange SystemSpec.
Import ListNotations.
Local Open Scope string_scope.

(** The same request with method HEAD *)
Definition head_of (q : request) : request := Req "HEAD" (q_raw_uri q) (q_uri q) (q_header q) (q_length q) (q_data q) (q_data_ok q).

(** [t] is a GET request and [t'] the same with HEAD. *)
Definition get_and_head (t t' : setting) : Prop :=
  to_upper (q_method (t_req t)) = "GET" /\ t_env t' = t_env t /\ t_req t' = head_of (t_req t).

(** The one Content-Length is the decimal number [n]. *)
Definition declares (h : header) (n : nat) : Prop := exists v, values "Content-Length" h = [v] /\ numeral v (Z.of_nat n).

(** The client takes gzip, as its first Accept-Encoding has it. *)
Definition gzip_client (q : request) : Prop := exists v vs, values "Accept-Encoding" (q_header q) = v :: vs /\ contains v "gzip" = true.
