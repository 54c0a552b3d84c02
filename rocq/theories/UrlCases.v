(** Cases for Thm_Url: a site whose route "/admin" needs a token, and a few targets. *)
From Coq Require Import String Ascii List Bool ZArith NArith Lia.
From Verif Require Import GoStr RegexSpec Header Policy Config ConfigSpec ConfigProofs Routing Exchange ExchangeProofs Jwt JwtSpec JwtCases Machine
  Handler HandlerSpec HandlerProofs HandlerCases SystemSpec Url UrlSpec UrlProofs.
Import ListNotations.
Local Open Scope string_scope.

Definition gate_routes : list route := [Route "/" None "" "todos" "" ""; Route "/admin" None "" "todos" "" "auth"].
Definition gate : config jwt := site_with gate_routes.
Definition gate_live : config jwt := booted gate.

Lemma gate_in_use : in_use key_source isort_routes gate gate_live.
Proof. apply booted_in_use; [vm_compute; discriminate|vm_compute; reflexivity]. Qed.

Lemma gate_plain : plain_servers gate.
Proof.
  intros n ms m H Hin. cbn [gate site_with c_resources lookup] in H. destruct (String.eqb "todos" n); [|destruct (String.eqb "none" n); [|discriminate H]]; injection H as <-; [|destruct Hin].
  destruct Hin as [<-|[]]. split; [now left|]. split; [discriminate|]. intros c Hc. left. apply alnum_iff. cbn [rm_url u_host] in Hc.
  pose (P := fun c => implb (has_char c "localhost") (is_alnum c)). assert (A := by_all P eq_refl c). unfold P in A. now rewrite Hc in A.
Qed.

Lemma gate_untransformed : forall raw, untransformed gate raw.
Proof. intros raw r0 [<-|[<-|[]]] _; reflexivity. Qed.

Lemma gate_literal : forall r0, In r0 (c_routes gate) -> literal (r_path r0) = true.
Proof. intros r0 [<-|[<-|[]]]; reflexivity. Qed.

(** What net/http makes of a request *)
Definition visitor (method raw : string) (h : header) : incoming :=
  match read_target method raw with Some g => Incoming (Req method raw (request_uri g) h 0 "" true) (g_path g) | None => ask method raw raw h end.

Definition visiting (raw : string) (ls : list label) : setting := Setting toy lib new_request gate_live chance0 (visitor "GET" raw []) ls.

Lemma visiting_http : forall raw ls, read_target "GET" raw <> None -> by_net_http (visiting raw ls).
Proof.
  intros raw ls H. split; [|reflexivity]. unfold visiting, visitor. destruct (read_target "GET" raw) as [g|] eqn:E; [|contradiction].
  exists g. split; [exact E|]. now split.
Qed.

Lemma visiting_sized : forall raw ls, sized (t_req (visiting raw ls)).
Proof. intros raw ls. unfold sized, t_req, visiting, visitor. destruct (read_target "GET" raw); cbn; lia. Qed.

Lemma visiting_raw : forall raw ls, q_raw_uri (t_req (visiting raw ls)) = raw.
Proof. intros raw ls. unfold t_req, visiting, visitor. now destruct (read_target "GET" raw). Qed.

Lemma visiting_asks : forall raw u,
  match t_serve (visiting raw []) with Upstream c => match main_step c 0 init with Some s => Some (map uq_uri (s_sent s)) | None => None end | _ => None end = Some [u] ->
  exists x, asks (visiting raw [LMain 0]) x /\ uq_uri x = u.
Proof.
  intros raw u H. destruct (t_serve (visiting raw [])) as [| | |c|] eqn:E; try discriminate H. destruct (main_step c 0 init) as [s|] eqn:Es; [|discriminate H].
  injection H as H. destruct (s_sent s) as [|x l] eqn:El; [discriminate H|]. destruct l; [|discriminate H]. injection H as H.
  exists x. split; [|exact H]. exists [x]. split; [|now left]. exists c, s. split; [|exact El]. split; [exact E|]. cbn [t_run visiting exec step]. now rewrite Es.
Qed.

(** C124: two targets that change on the way *)
Lemma changed : exists so srt cfg0 t x, in_use so srt cfg0 (t_cfg t) /\ asks t x /\ sized (t_req t) /\ by_net_http t /\ plain_servers cfg0 /\
  untransformed cfg0 (q_raw_uri (t_req t)) /\ q_raw_uri (t_req t) = "/a%2Fb|" /\ wire_target (uq_uri x) = Some "/a/b%7C".
Proof.
  destruct (visiting_asks "/a%2Fb|" "http://localhost:60083/a/b%7C") as (x & Hx & U); [vm_compute; reflexivity|].
  exists key_source, isort_routes, gate, (visiting "/a%2Fb|" [LMain 0]), x. split; [exact gate_in_use|]. split; [exact Hx|]. split; [apply visiting_sized|].
  split; [apply visiting_http; vm_compute; discriminate|]. split; [exact gate_plain|]. split; [apply gate_untransformed|]. split; [reflexivity|]. rewrite U. reflexivity.
Qed.

Lemma shortened : exists so srt cfg0 t x, in_use so srt cfg0 (t_cfg t) /\ asks t x /\ sized (t_req t) /\ by_net_http t /\ plain_servers cfg0 /\
  untransformed cfg0 (q_raw_uri (t_req t)) /\ q_raw_uri (t_req t) = "/a?color=#fff" /\ wire_target (uq_uri x) = Some "/a?color=".
Proof.
  destruct (visiting_asks "/a?color=#fff" "http://localhost:60083/a?color=#fff") as (x & Hx & U); [vm_compute; reflexivity|].
  exists key_source, isort_routes, gate, (visiting "/a?color=#fff" [LMain 0]), x. split; [exact gate_in_use|]. split; [exact Hx|]. split; [apply visiting_sized|].
  split; [apply visiting_http; vm_compute; discriminate|]. split; [exact gate_plain|]. split; [apply gate_untransformed|]. split; [reflexivity|]. rewrite U. reflexivity.
Qed.

(** C125: a target that net/http accepts from a client and not from the proxy *)
Lemma unmade : exists so srt cfg0 t c s, in_use so srt cfg0 (t_cfg t) /\ honest (t_lib t) /\ sized (t_req t) /\ by_net_http t /\ plain_servers cfg0 /\
  untransformed cfg0 (q_raw_uri (t_req t)) /\ q_raw_uri (t_req t) = "/a?#%" /\ ran t c s /\ s_pc s = PPanic /\ s_sent s = [] /\ s_out s = [].
Proof.
  assert (H : match t_serve (visiting "/a?#%" []) with Upstream c => match main_step c 0 init with Some s => (c_ok c, Some (s_pc s)) | None => (true, None) end | _ => (true, None) end = (false, Some PPanic)) by (vm_compute; reflexivity).
  destruct (t_serve (visiting "/a?#%" [])) as [| | |c|] eqn:E; try discriminate H. destruct (main_step c 0 init) as [s|] eqn:Es; [|discriminate H].
  injection H as H1 H2. assert (R : ran (visiting "/a?#%" [LMain 0]) c s). { split; [exact E|]. cbn [t_run visiting exec step]. now rewrite Es. }
  destruct (refused c H1 _ s (proj2 R)) as (_ & S1 & S2).
  exists key_source, isort_routes, gate, (visiting "/a?#%" [LMain 0]), c, s. split; [exact gate_in_use|]. split; [apply small_honest|]. split; [apply visiting_sized|].
  split; [apply visiting_http; vm_compute; discriminate|]. split; [exact gate_plain|]. split; [apply gate_untransformed|]. split; [reflexivity|].
  split; [exact R|]. split; [exact H2|]. now split.
Qed.

(** C126: a target that is protected and reached without a token *)
Lemma smuggled : exists so srt cfg0 t t' x w r, in_use so srt cfg0 (t_cfg t) /\ asks t x /\ sized (t_req t) /\ by_net_http t /\ plain_servers cfg0 /\
  (forall r0, In r0 (c_routes cfg0) -> literal (r_path r0) = true /\ r_transform r0 = "") /\
  wire_target (uq_uri x) = Some w /\
  t_env t' = t_env t /\ t_lib t' = t_lib t /\ t_cfg t' = t_cfg t /\ t_chance t' = t_chance t /\ by_net_http t' /\ q_raw_uri (t_req t') = w /\
  q_method (t_req t') = q_method (t_req t) /\ q_header (t_req t') = q_header (t_req t) /\ t_serve t' = Answered r /\ rp_status r = 401%Z.
Proof.
  destruct (visiting_asks "/%61dmin/|" "http://localhost:60083/admin/%7C") as (x & Hx & U); [vm_compute; reflexivity|].
  destruct (t_serve (visiting "/admin/%7C" [])) as [| |r| |] eqn:E; try (vm_compute in E; discriminate E).
  exists key_source, isort_routes, gate, (visiting "/%61dmin/|" [LMain 0]), (visiting "/admin/%7C" []), x, "/admin/%7C", r.
  split; [exact gate_in_use|]. split; [exact Hx|]. split; [apply visiting_sized|].
  split; [apply visiting_http; vm_compute; discriminate|]. split; [exact gate_plain|]. split; [intros r0 [<-|[<-|[]]]; now split|]. split; [rewrite U; reflexivity|].
  do 4 (split; [reflexivity|]). split; [apply visiting_http; vm_compute; discriminate|]. do 3 (split; [reflexivity|]). split; [exact E|].
  assert (V : match t_serve (visiting "/admin/%7C" []) with Answered r => rp_status r | _ => 0%Z end = 401%Z) by (vm_compute; reflexivity). now rewrite E in V.
Qed.
