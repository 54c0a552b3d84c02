(** C124 to C126. *)
From Coq Require Import String Ascii List Bool ZArith NArith Lia.
From Verif Require Import GoStr RegexSpec Header Config ConfigSpec ConfigProofs Routing Exchange ExchangeProofs Jwt JwtSpec JwtCases Machine
  Handler HandlerSpec HandlerProofs HandlerCases SystemSpec Url UrlSpec UrlProofs UrlCases.
Import ListNotations.
Local Open Scope string_scope.

(** C124: what is sent for a target.  Only a well-formed path stays as it is, the query does, and what follows "#" goes. *)
Theorem C124_sent_partial : forall so srt cfg0 t x p query frag,
  in_use so srt cfg0 (t_cfg t) -> asks t x -> sized (t_req t) -> by_net_http t -> plain_servers cfg0 ->
  untransformed cfg0 (q_raw_uri (t_req t)) -> origin (q_raw_uri (t_req t)) p query frag ->
  exists p', sent_path p p' /\ wire_target (uq_uri x) = Some (p' ++ query).
Proof. exact target_sent. Qed.
Print Assumptions C124_sent_partial.

(** C124 for exactly these targets *)
Theorem C124_exact_partial : forall so srt cfg0 t x p query frag,
  in_use so srt cfg0 (t_cfg t) -> asks t x -> sized (t_req t) -> by_net_http t -> plain_servers cfg0 ->
  untransformed cfg0 (q_raw_uri (t_req t)) -> origin (q_raw_uri (t_req t)) p query frag ->
  (wire_target (uq_uri x) = Some (q_raw_uri (t_req t)) <-> well_formed p /\ frag = "").
Proof. exact target_same. Qed.
Print Assumptions C124_exact_partial.

(** The requests that C16 is about *)
Theorem C124_origin_form : forall i p query frag, arrives i -> origin (q_raw_uri (i_req i)) p query frag ->
  (origin_form (i_req i) <-> well_formed p).
Proof. exact origin_form_iff. Qed.
Print Assumptions C124_origin_form.

Example C124_case : exists x, asks (visiting "/a%2fb/c?d=%zz" [LMain 0]) x /\ by_net_http (visiting "/a%2fb/c?d=%zz" [LMain 0]) /\
  origin (q_raw_uri (t_req (visiting "/a%2fb/c?d=%zz" [LMain 0]))) "/a%2fb/c" "?d=%zz" "" /\ wire_target (uq_uri x) = Some "/a%2fb/c?d=%zz".
Proof.
  destruct (visiting_asks "/a%2fb/c?d=%zz" "http://localhost:60083/a%2fb/c?d=%zz") as (x & Hx & U); [vm_compute; reflexivity|].
  exists x. split; [exact Hx|]. split; [apply visiting_http; vm_compute; discriminate|]. split; [|now rewrite U].
  split; [reflexivity|]. split; [reflexivity|]. split; [reflexivity|]. right. exists "d=%zz". split; [reflexivity|]. split; [reflexivity|now left].
Qed.

(** C124 does not hold: an encoded slash becomes a slash beside a character that has to be encoded. *)
Theorem C124_path_refuted : exists so srt cfg0 t x,
  in_use so srt cfg0 (t_cfg t) /\ asks t x /\ sized (t_req t) /\ by_net_http t /\ plain_servers cfg0 /\
  untransformed cfg0 (q_raw_uri (t_req t)) /\ q_raw_uri (t_req t) = "/a%2Fb|" /\ wire_target (uq_uri x) = Some "/a/b%7C".
Proof. exact changed. Qed.
Print Assumptions C124_path_refuted.

(** C124 does not hold: a query is cut. *)
Theorem C124_query_refuted : exists so srt cfg0 t x,
  in_use so srt cfg0 (t_cfg t) /\ asks t x /\ sized (t_req t) /\ by_net_http t /\ plain_servers cfg0 /\
  untransformed cfg0 (q_raw_uri (t_req t)) /\ q_raw_uri (t_req t) = "/a?color=#fff" /\ wire_target (uq_uri x) = Some "/a?color=".
Proof. exact shortened. Qed.
Print Assumptions C124_query_refuted.

(** C125 for exactly the targets without an undecodable part after "#" *)
Theorem C125_exactly_partial : forall so srt cfg0 t c s p query frag,
  in_use so srt cfg0 (t_cfg t) -> ran t c s -> sized (t_req t) -> by_net_http t -> plain_servers cfg0 ->
  untransformed cfg0 (q_raw_uri (t_req t)) -> origin (q_raw_uri (t_req t)) p query frag ->
  (c_ok c = true <-> decodable frag).
Proof. intros so srt cfg0 t c s p query frag H1 H2 H3 H4 H5 H6 H7. exact (proj1 (ok_iff so srt cfg0 t c s p query frag H1 H2 H3 H4 H5 H6 H7)). Qed.
Print Assumptions C125_exactly_partial.

(** Where there is none the handler stops at once: nothing is sent to anybody. *)
Theorem C125_nothing : forall t c s, ran t c s -> c_ok c = false -> (s_pc s = PStart \/ s_pc s = PPanic) /\ s_sent s = [] /\ s_out s = [].
Proof. intros t c s H Hc. exact (refused c Hc (t_run t) s (proj2 H)). Qed.
Print Assumptions C125_nothing.

Example C125_case : decodable "#%41" /\ ~ decodable "#%4".
Proof.
  split; [right; exists "%41"; split; [reflexivity|vm_compute; discriminate]|]. intros [H|(y & H & N)]; [discriminate H|]. injection H as <-. apply N. reflexivity.
Qed.

(** C125 does not hold: such a target *)
Theorem C125_fragment_refuted : exists so srt cfg0 t c s,
  in_use so srt cfg0 (t_cfg t) /\ honest (t_lib t) /\ sized (t_req t) /\ by_net_http t /\ plain_servers cfg0 /\
  untransformed cfg0 (q_raw_uri (t_req t)) /\ q_raw_uri (t_req t) = "/a?#%" /\ ran t c s /\ s_pc s = PPanic /\ s_sent s = [] /\ s_out s = [].
Proof. exact unmade. Qed.
Print Assumptions C125_fragment_refuted.

(** C125 does not hold: a transform that leaves letters behind the port, with net/http's own http.NewRequest *)
Theorem C125_port_refuted :
  exists so srt cfg0 cfg E L ch i c, in_use so srt cfg0 cfg /\ honest L /\ proxied_request cfg i /\ sound_request E (i_req i) /\
    readable L (get "Authorization" (q_header (i_req i))) /\ serve E L new_request cfg ch i = Upstream c /\
    uq_uri (c_request c) = "http://localhost:60083foo" /\
    c_ok c = false /\ exists s, main_step c 0 init = Some s /\ s_pc s = PPanic.
Proof. exact (bad_url_panics new_request bad_ports_rejected). Qed.
Print Assumptions C125_port_refuted.

(** C126 for targets with well-formed paths: the target that is sent has the route of the one that came. *)
Theorem C126_same_route_partial : forall so srt cfg0 t x p query frag,
  in_use so srt cfg0 (t_cfg t) -> asks t x -> sized (t_req t) -> by_net_http t -> plain_servers cfg0 ->
  untransformed cfg0 (q_raw_uri (t_req t)) -> origin (q_raw_uri (t_req t)) p query frag ->
  well_formed p -> (forall r0, In r0 (c_routes cfg0) -> literal (r_path r0) = true) ->
  exists w, wire_target (uq_uri x) = Some w /\ select_route (c_routes (t_cfg t)) w = select_route (c_routes (t_cfg t)) (q_raw_uri (t_req t)).
Proof. exact sent_same_route. Qed.
Print Assumptions C126_same_route_partial.

Example C126_case : well_formed "/a%2fb/c" /\ (forall r0, In r0 (c_routes gate) -> literal (r_path r0) = true).
Proof. split; [|exact gate_literal]. apply valid_iff. reflexivity. Qed.

(** C126 does not hold: an escaped name of a protected path and a character that has to be escaped *)
Theorem C126_refuted : exists so srt cfg0 t t' x w r,
  in_use so srt cfg0 (t_cfg t) /\ asks t x /\ sized (t_req t) /\ by_net_http t /\ plain_servers cfg0 /\
  (forall r0, In r0 (c_routes cfg0) -> literal (r_path r0) = true /\ r_transform r0 = "") /\
  wire_target (uq_uri x) = Some w /\
  t_env t' = t_env t /\ t_lib t' = t_lib t /\ t_cfg t' = t_cfg t /\ t_chance t' = t_chance t /\ by_net_http t' /\ q_raw_uri (t_req t') = w /\
  q_method (t_req t') = q_method (t_req t) /\ q_header (t_req t') = q_header (t_req t) /\ t_serve t' = Answered r /\ rp_status r = 401%Z.
Proof. exact smuggled. Qed.
Print Assumptions C126_refuted.
