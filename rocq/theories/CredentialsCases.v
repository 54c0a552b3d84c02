(** Cases for Thm_Credentials. *)
From Coq Require Import String Ascii List Bool ZArith NArith Lia.
From Verif Require Import GoStr Regex RegexSpec Header HeaderSpec Policy Config ConfigSpec ConfigProofs Routing Exchange ExchangeProofs Jwt JwtSpec JwtProofs JwtCases Machine Handler HandlerSpec HandlerProofs HandlerCases CredentialsSpec CredentialsProofs.
Import ListNotations.
Local Open Scope string_scope.

Definition to_admin (fields : list string) : incoming := ask "GET" "/admin" "/admin" (map (fun v => ("Authorization", v)) fields).

Lemma admin_canonical : forall fields, canonical_keys (q_header (i_req (to_admin fields))).
Proof. intros fields k v H. cbn in H. apply in_map_iff in H. destruct H as (x & E & _). injection E as <- _. reflexivity. Qed.

Definition admin_route : route := match select_route (c_routes live) "/admin" with Some r => r | None => Route "" None "" "" "" "" end.
Lemma admin_selected : forall fields, select_route (c_routes live) (q_raw_uri (i_req (to_admin fields))) = Some admin_route.
Proof. intros fields. vm_compute. reflexivity. Qed.
Lemma admin_protected : r_jwt admin_route <> "".
Proof. vm_compute. discriminate. Qed.

(** Another scheme *)
Lemma basic_passes : exists so srt cfg0 cfg E L nr ch i c r v, in_use so srt cfg0 cfg /\ honest L /\ canonical_keys (q_header (i_req i)) /\
  select_route (c_routes cfg) (q_raw_uri (i_req i)) = Some r /\ r_jwt r <> "" /\
  serve E L nr cfg ch i = Upstream c /\ authorizations (c_request c) = [v] /\ forall token, ~ credentials token v.
Proof.
  exists key_source, isort_routes, site, live, toy, lib, always, chance0, (to_admin ["Basic old"]). eexists. exists admin_route, "Basic old".
  split; [exact live_in_use|]. split; [apply small_honest|]. split; [apply admin_canonical|]. split; [apply admin_selected|]. split; [exact admin_protected|].
  split; [vm_compute; reflexivity|]. split; [reflexivity|]. intros token (_ & _ & scheme & n & Hs & Hv).
  destruct scheme as [|a [|b scheme]]; [discriminate Hs|discriminate Hs|]. cbn in Hv. injection Hv as <- <- _. discriminate Hs.
Qed.

(** Two fields: the second is sent, and nobody has looked at it. *)
Lemma second_passes : exists so srt cfg0 cfg E L nr ch i c r j v token, in_use so srt cfg0 cfg /\ honest L /\ canonical_keys (q_header (i_req i)) /\
  select_route (c_routes cfg) (q_raw_uri (i_req i)) = Some r /\ r_jwt r <> "" /\ lookup (r_jwt r) (c_jwt cfg) = Some (Some j) /\
  serve E L nr cfg ch i = Upstream c /\ In v (authorizations (c_request c)) /\ credentials token v /\
  fst (validate_jwt L (ch_now ch) j v) = Invalid.
Proof.
  exists key_source, isort_routes, site, live, toy, lib, always, chance0, (to_admin ["Bearer old"; "Bearer new"]). eexists. exists admin_route, (boot rs256 (Some doc_old)), "Bearer new", "new".
  split; [exact live_in_use|]. split; [apply small_honest|]. split; [apply admin_canonical|]. split; [apply admin_selected|]. split; [exact admin_protected|].
  split; [vm_compute; reflexivity|]. split; [vm_compute; reflexivity|]. split; [right; now left|].
  split; [split; [discriminate|split; [no_space|exists "Bearer", 0; split; reflexivity]]|]. vm_compute. reflexivity.
Qed.

(** A library for which nothing is no token *)
Definition strict : library :=
  Library (fun t => if String.eqb t "" then None else lib_signatures lib t) (fun t => if String.eqb t "" then None else lib_parse lib t) (lib_verify lib).
Lemma strict_honest : honest strict.
Proof.
  intros alg k t c H. cbn [strict lib_parse lib_verify] in *. destruct (String.eqb_spec t "") as [->|N]; [|exact (small_honest no_dates alg k t c H)].
  exfalso. unfold lib, small, lib_verify, small_verify in H. destruct k as [[|[[]|[]|]]| | |]; try discriminate H; destruct (String.eqb alg "RS256"); cbn in H; discriminate H.
Qed.

(** Two spaces *)
Lemma two_spaces : exists so srt cfg0 cfg E L nr ch i i' c r token v v', in_use so srt cfg0 cfg /\ honest L /\ (lib_signatures L "" = None) /\
  select_route (c_routes cfg) (q_raw_uri (i_req i)) = Some r /\ r_jwt r <> "" /\
  credentials token v /\ credentials token v' /\ q_header (i_req i) = [("Authorization", v)] /\
  i' = Incoming (Req (q_method (i_req i)) (q_raw_uri (i_req i)) (q_uri (i_req i)) [("Authorization", v')] (q_length (i_req i)) (q_data (i_req i)) true) (i_path i) /\
  serve E L nr cfg ch i = Upstream c /\ serve E L nr cfg ch i' = Panicked.
Proof.
  exists key_source, isort_routes, site, live, toy, strict, always, chance0, (to_admin ["Bearer old"]), (to_admin ["Bearer  old"]). eexists. exists admin_route, "old", "Bearer old", "Bearer  old".
  split; [exact live_in_use|]. split; [exact strict_honest|]. split; [reflexivity|]. split; [apply admin_selected|]. split; [exact admin_protected|].
  split; [split; [discriminate|split; [no_space|exists "Bearer", 0; split; reflexivity]]|].
  split; [split; [discriminate|split; [no_space|exists "Bearer", 1; split; reflexivity]]|].
  split; [reflexivity|]. split; [reflexivity|]. split; vm_compute; reflexivity.
Qed.

Lemma one_field : exists c, serve toy lib always live chance0 (to_admin ["bEARER old"]) = Upstream c /\ authorizations (c_request c) = ["bEARER old"].
Proof. eexists. split; vm_compute; reflexivity. Qed.
