(** Theorems about settings written more than once (C100). *)
From Coq Require Import String Ascii List Bool ZArith NArith.
From Verif Require Import GoStr TextSpec Header Policy PolicyProofs ConfigSpec ConfigProofs Exchange Startup StartupSpec JwtSpec Machine MachineSpec SystemSpec Handler HandlerSpec HandlerCases
  Config Jwt Decode DecodeSpec DecodeCases DecodeLastSpec DecodeLastProofs DecodeLastCases.
Import ListNotations.
Local Open Scope string_scope.

(** C100: a setting written several times, in names that differ in the case of letters, has the last of the values of
    the right type: so do numbers, texts and the flag in the part about connections, ... *)
Theorem C100_numbers_last : forall float d p n f ms, In ((p ++ [n])%list, f) number_settings -> says p d (DObj ms) ->
  last_said number_doc 0%Z n ms (f (decode float d)).
Proof. exact numbers_last. Qed.
Print Assumptions C100_numbers_last.

Theorem C100_texts_last : forall float d n f ms, In (["connection"; "downstream"; n], f) text_settings -> says ["connection"; "downstream"] d (DObj ms) ->
  last_said text_doc "" n ms (f (decode float d)).
Proof. exact texts_last. Qed.
Print Assumptions C100_texts_last.

Theorem C100_flag_last : forall float d ms, says ["connection"; "upstream"] d (DObj ms) ->
  last_said flag_doc false "tlsInsecureSkipVerify" ms (up_skip_verify (c_up (decode float d))).
Proof. exact flag_last. Qed.
Print Assumptions C100_flag_last.

(** ... and texts in routes. *)
Theorem C100_routes_last : forall float d l, says ["routes"] d (DArr l) -> Forall2 route_last l (c_routes (decode float d)).
Proof. exact routes_last. Qed.
Print Assumptions C100_routes_last.

Example C100_last_case : exists dms ums l, says ["connection"; "downstream"] twice_doc (DObj dms) /\ says ["connection"; "upstream"] twice_doc (DObj ums) /\ says ["routes"] twice_doc (DArr l) /\
  let c := decode float0 twice_doc in
  d_port (c_down c) = 8443%Z /\ d_mode (c_down c) = "" /\ up_max_attempts (c_up c) = 5%Z /\ up_skip_verify (c_up c) = true /\ map r_jwt (c_routes c) = [""; ""].
Proof. exact twice_case. Qed.

(** So a route is served without a token although its document says jwt, if it says so twice and the last time empty. *)
Theorem C100_twice_refuted : exists p h t float yaml d l e k c, sorts_routes (pl_sort p) /\ written_in p h float yaml d /\ says ["routes"] d (DArr l) /\
  StartupSpec.serves p h t /\ route_for l (q_raw_uri (t_req t)) e /\ member e k (DStr "auth") /\ same_letters "jwt" k /\
  get "Authorization" (q_header (t_req t)) = "" /\ t_serve t = Upstream c.
Proof. exact twice_opens. Qed.
Print Assumptions C100_twice_refuted.
