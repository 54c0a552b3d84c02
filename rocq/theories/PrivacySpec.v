(** Vocabulary for statements about what responses and log lines give away of a request. *)
From Coq Require Import String List Bool ZArith.
From Verif Require Import GoStr Header Exchange Jwt Machine Handler SystemSpec.
Import ListNotations.
Local Open Scope string_scope.

(** The requests of [t] and [t'] are served in the same place under the same chances.  They have the
    same method and target, bodies of the same size, and the same values in the three headers that
    name the request, the client and its encodings.  Everything else may differ: tokens, cookies, any
    other header and the bytes of the body. *)
Record twins (t t' : setting) : Prop := {
  tw_env : t_env t' = t_env t; tw_lib : t_lib t' = t_lib t; tw_new : t_new t' = t_new t; tw_cfg : t_cfg t' = t_cfg t;
  tw_chance : t_chance t' = t_chance t; tw_run : t_run t' = t_run t; tw_path : i_path (t_in t') = i_path (t_in t);
  tw_method : q_method (t_req t') = q_method (t_req t);
  tw_raw : q_raw_uri (t_req t') = q_raw_uri (t_req t);
  tw_uri : q_uri (t_req t') = q_uri (t_req t);
  tw_length : q_length (t_req t') = q_length (t_req t);
  tw_size : String.length (q_data (t_req t')) = String.length (q_data (t_req t));
  tw_whole : q_data_ok (t_req t') = q_data_ok (t_req t);
  tw_header : forall k, In k ["X-Request-Id"; "User-Agent"; "Accept-Encoding"] ->
    values k (q_header (t_req t')) = values k (q_header (t_req t)) }.

(** The two requests bring the same token. *)
Definition same_token (t t' : setting) : Prop :=
  values "Authorization" (q_header (t_req t')) = values "Authorization" (q_header (t_req t)).

(** They may bring different ones, but both are passed on or neither is, and they get the same
    status. *)
Definition same_fate (t t' : setting) : Prop :=
  ((exists ys, sends t ys) <-> (exists ys, sends t' ys)) /\
  (forall st, (exists r, replies t r /\ rp_status r = st) <-> (exists r, replies t' r /\ rp_status r = st)).
