(** C136: the credentials that are checked and those that are sent. *)
From Coq Require Import String Ascii List Bool ZArith.
From Verif Require Import GoStr Header HeaderSpec Policy Config ConfigSpec ConfigProofs Routing Exchange ExchangeProofs Jwt JwtSpec JwtCases Machine Handler HandlerSpec HandlerCases CredentialsSpec CredentialsProofs CredentialsCases.
Import ListNotations.
Local Open Scope string_scope.

(** The claim: what is sent upstream over a route with a jwt has one Authorization field, which is credentials of the
    scheme Bearer with the token that was verified, and it makes no difference how the credentials are spelled. *)

(** What the code does: the verdict is about the second word of the first field, whatever the others are. *)
Theorem C136_word : forall L now j auth auth' token, bearer auth token -> bearer auth' token -> validate_jwt L now j auth = validate_jwt L now j auth'.
Proof. exact second_word. Qed.
Print Assumptions C136_word.

(** So all fields are sent, and the first has a token that is valid. *)
Theorem C136_first_partial : forall so srt cfg0 cfg E L nr ch i c r, in_use so srt cfg0 cfg -> canonical_keys (q_header (i_req i)) ->
  serve E L nr cfg ch i = Upstream c -> select_route (c_routes cfg) (q_raw_uri (i_req i)) = Some r -> r_jwt r <> "" ->
  authorizations (c_request c) = values "Authorization" (q_header (i_req i)) /\
  exists j v others token, lookup (r_jwt r) (c_jwt cfg) = Some (Some j) /\ authorizations (c_request c) = v :: others /\ bearer v token /\
    fst (validate_jwt L (ch_now ch) j ("Bearer " ++ token)) = Valid.
Proof. exact sent_first. Qed.
Print Assumptions C136_first_partial.

(** The claim holds of requests with one field, the scheme Bearer and one space. *)
Theorem C136_one_partial : forall so srt cfg0 cfg E L nr ch i c r scheme token, in_use so srt cfg0 cfg -> canonical_keys (q_header (i_req i)) ->
  serve E L nr cfg ch i = Upstream c -> select_route (c_routes cfg) (q_raw_uri (i_req i)) = Some r -> r_jwt r <> "" ->
  values "Authorization" (q_header (i_req i)) = [scheme ++ " " ++ token] -> small_letters scheme = "bearer" -> token <> "" -> without " " token ->
  exists j, lookup (r_jwt r) (c_jwt cfg) = Some (Some j) /\ authorizations (c_request c) = [scheme ++ " " ++ token] /\ credentials token (scheme ++ " " ++ token) /\
    fst (validate_jwt L (ch_now ch) j ("Bearer " ++ token)) = Valid.
Proof. exact sent_one. Qed.
Print Assumptions C136_one_partial.

(** The scheme is not looked at. *)
Theorem C136_scheme_refuted : exists so srt cfg0 cfg E L nr ch i c r v, in_use so srt cfg0 cfg /\ honest L /\ canonical_keys (q_header (i_req i)) /\
  select_route (c_routes cfg) (q_raw_uri (i_req i)) = Some r /\ r_jwt r <> "" /\
  serve E L nr cfg ch i = Upstream c /\ authorizations (c_request c) = [v] /\ forall token, ~ credentials token v.
Proof. exact basic_passes. Qed.
Print Assumptions C136_scheme_refuted.

(** The upstream gets credentials that are not valid beside those that are. *)
Theorem C136_second_refuted : exists so srt cfg0 cfg E L nr ch i c r j v token, in_use so srt cfg0 cfg /\ honest L /\ canonical_keys (q_header (i_req i)) /\
  select_route (c_routes cfg) (q_raw_uri (i_req i)) = Some r /\ r_jwt r <> "" /\ lookup (r_jwt r) (c_jwt cfg) = Some (Some j) /\
  serve E L nr cfg ch i = Upstream c /\ In v (authorizations (c_request c)) /\ credentials token v /\
  fst (validate_jwt L (ch_now ch) j v) = Invalid.
Proof. exact second_passes. Qed.
Print Assumptions C136_second_refuted.

(** Credentials with more than one space are never accepted: the token is then taken to be empty, which panics if the
    library says that nothing is no JWS message. *)
Theorem C136_spaces : forall L now j scheme n token, small_letters scheme = "bearer" -> honest L ->
  In (j_alg j) signing -> lib_signatures L "" = None -> fst (validate_jwt L now j (scheme ++ spaces (S (S n)) ++ token)) = Crash.
Proof. exact spaces_refused. Qed.
Print Assumptions C136_spaces.

Theorem C136_spaces_refuted : exists so srt cfg0 cfg E L nr ch i i' c r token v v', in_use so srt cfg0 cfg /\ honest L /\ (lib_signatures L "" = None) /\
  select_route (c_routes cfg) (q_raw_uri (i_req i)) = Some r /\ r_jwt r <> "" /\
  credentials token v /\ credentials token v' /\ q_header (i_req i) = [("Authorization", v)] /\
  i' = Incoming (Req (q_method (i_req i)) (q_raw_uri (i_req i)) (q_uri (i_req i)) [("Authorization", v')] (q_length (i_req i)) (q_data (i_req i)) true) (i_path i) /\
  serve E L nr cfg ch i = Upstream c /\ serve E L nr cfg ch i' = Panicked.
Proof. exact two_spaces. Qed.
Print Assumptions C136_spaces_refuted.

Example C136_case : (exists c, serve toy lib always live chance0 (to_admin ["bEARER old"]) = Upstream c /\ authorizations (c_request c) = ["bEARER old"]) /\
  small_letters "bEARER" = "bearer" /\ in_use key_source isort_routes site live /\ canonical_keys (q_header (i_req (to_admin ["bEARER old"]))).
Proof. exact (conj one_field (conj eq_refl (conj live_in_use (admin_canonical _)))). Qed.
Example C136_spaces_case : honest strict /\ lib_signatures strict "" = None /\ In (j_alg rs256) signing.
Proof. exact (conj strict_honest (conj eq_refl (or_introl eq_refl))). Qed.
