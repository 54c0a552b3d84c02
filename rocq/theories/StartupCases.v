(** Cases for Thm_Startup: hosts, and places to start on. *)
From Coq Require Import String Ascii List Bool ZArith NArith Lia.
From Verif Require Import GoStr Regex RegexSpec Header HeaderSpec Iprex IprexSpec IprexProofs Policy Config ConfigSpec ConfigProofs Exchange ExchangeSpec ExchangeProofs Jwt JwtSpec JwtCases JsonSpec
  Machine MachineSpec Handler HandlerSpec HandlerProofs HandlerCases SystemSpec SystemProofs Tls TlsSpec TlsProofs Startup StartupSpec StartupProofs AccessLog AccessLogSpec.
Import Verif.Config Verif.HandlerCases ListNotations.
Local Open Scope string_scope.

(** The site of HandlerCases in some mode, with timeouts *)
Definition site_as (mode cert key : string) (read limit : Z) : config jwt :=
  Cfg [] site_routes [("auth", Some rs256)] (c_resources HandlerCases.site) (Down read 0 0 limit mode 0 cert key) (Upst 0 0 0 0 4 false).

Definition parse0 (s : string) : config jwt :=
  if String.eqb s "tls" then site_as "tls" "C" "K" 0 10
  else if String.eqb s "https" then site_as "HTTPS" "C" "K" 0 0
  else if String.eqb s "long" then site_as "" "" "" 9223372037 0
  else if String.eqb s "patient" then
    Cfg [] site_routes [("auth", Some rs256)] (c_resources HandlerCases.site) (Down 0 0 0 0 "" 0 "" "") (Upst 0 0 9223372037 0 4 false)
  else HandlerCases.site.

Definition pair0 (c k : string) : option (list (option cert)) :=
  if String.eqb c "C" && String.eqb k "K" then Some [Some (TlsProofs.site 4660 100); Some inter_ca; Some root_ca] else None.

Definition ground : place := Place key_source isort_routes parse0 (e_gzip toy) (e_gunzip toy) pair0 (dates 0) (fun _ => 0%Z) (fun _ => true).

(** A host whose environment has the configuration and some variable *)
Definition md5_0 (s : string) : string := take 16 (s ++ "0000000000000000").
Definition env0 (text name value : string) (v : string) : string :=
  if String.eqb v "J8ACFG_YML" then text else if String.eqb v name then value else "".
Definition host0 (text name value : string) : host := Host (env0 text name value) "box" "linux" None (fun _ => None) md5_0.

Lemma md5_0_length : forall s, String.length (md5_0 s) = 16.
Proof.
  intros s. unfold md5_0. rewrite (proj1 (take_spec 16 _)). rewrite length_append. cbn [String.length]. lia.
Qed.

Lemma told0 : forall text name value, text <> "" -> told parse0 (host0 text name value) (parse0 text).
Proof.
  intros text name value H. split.
  - unfold parse0. destruct (String.eqb text "tls"); [discriminate|]. destruct (String.eqb text "https"); [discriminate|]. destruct (String.eqb text "long"); [discriminate|]. destruct (String.eqb text "patient"); discriminate.
  - cbn [host0 h_flag]. left. split; [exact H|reflexivity].
Qed.

Definition started (text name value : string) : option listener :=
  start (jwt_checked key_source) isort_routes parse0 (e_gzip toy) (e_gunzip toy) pair0 (dates 0) (fun _ => 0%Z) (fun _ => true) (host0 text name value).

Lemma listens0 : forall text name value l, started text name value = Some l -> listens ground (host0 text name value) l.
Proof. intros text name value l H. exact H. Qed.

Lemma started_tls : exists l, listens ground (host0 "tls" "VERSION" "v1") l /\ told parse0 (host0 "tls" "VERSION" "v1") (site_as "tls" "C" "K" 0 10) /\
  wants_tls (site_as "tls" "C" "K" 0 10) /\ sv_addr (li_server l) = ":443" /\ sv_write (li_server l) = 241000000000%Z /\
  option_map tp_min (li_tls l) = Some 771%Z /\ cl_keep_alive (li_client l) = 13333333333%Z /\ cl_skip_verify (li_client l) = false.
Proof.
  destruct (started "tls" "VERSION" "v1") as [l|] eqn:E; [|vm_compute in E; discriminate]. exists l. split; [exact (listens0 _ _ _ _ E)|].
  split; [apply (told0 "tls"); discriminate|]. split; [reflexivity|].
  assert (V : option_map (fun l => (sv_addr (li_server l), sv_write (li_server l), option_map tp_min (li_tls l), cl_keep_alive (li_client l), cl_skip_verify (li_client l))) (started "tls" "VERSION" "v1") =
              Some (":443", 241000000000%Z, Some 771%Z, 13333333333%Z, false)) by (vm_compute; reflexivity).
  rewrite E in V. cbn [option_map] in V. injection V as V1 V2 V3 V4 V5. now repeat split.
Qed.

(** An unknown mode *)
Lemma started_https : exists p h l c0, sorts_routes (pl_sort p) /\ listens p h l /\ told (pl_parse p) h c0 /\
  ~ In (to_upper (d_mode (c_down c0))) [""; "HTTP"; "TLS"] /\
  (exists leaf, presentable (pl_pair p) (pl_verify p) (c_down c0) leaf) /\ li_tls l = None.
Proof.
  exists ground, (host0 "https" "" ""). destruct (started "https" "" "") as [l|] eqn:E; [|vm_compute in E; discriminate].
  exists l, (site_as "HTTPS" "C" "K" 0 0). split; [apply isort_sorts|]. split; [exact (listens0 _ _ _ _ E)|].
  split; [apply (told0 "https"); discriminate|]. split; [cbn; intros [H|[H|[H|[]]]]; discriminate|]. split.
  - exists (TlsProofs.site 4660 100), [inter_ca; root_ca], [TlsProofs.site 4660 100], []. split; [reflexivity|]. split; [vm_compute; reflexivity|]. split; discriminate.
  - assert (V : option_map li_tls (started "https" "" "") = Some None) by (vm_compute; reflexivity). rewrite E in V. cbn [option_map] in V. injection V as V. exact V.
Qed.

(** A read timeout of more than 292 years *)
Lemma started_long : exists p h l c0, sorts_routes (pl_sort p) /\ listens p h l /\ told (pl_parse p) h c0 /\
  (0 < d_read_timeout (c_down c0))%Z /\ (sv_read (li_server l) <= 0)%Z.
Proof.
  exists ground, (host0 "long" "" ""). destruct (started "long" "" "") as [l|] eqn:E; [|vm_compute in E; discriminate].
  exists l, (site_as "" "" "" 9223372037 0). split; [apply isort_sorts|]. split; [exact (listens0 _ _ _ _ E)|].
  split; [apply (told0 "long"); discriminate|]. split; [reflexivity|].
  assert (V : option_map (fun l => Z.leb (sv_read (li_server l)) 0) (started "long" "" "") = Some true) by (vm_compute; reflexivity).
  rewrite E in V. cbn [option_map] in V. injection V as V. now apply Z.leb_le.
Qed.

(** The same for connections to upstream servers: a dial timeout in the past *)
Lemma started_patient : exists p h l c0, sorts_routes (pl_sort p) /\ listens p h l /\ told (pl_parse p) h c0 /\
  (0 < up_socket_timeout (c_up c0))%Z /\ (cl_dial (li_client l) < 0)%Z.
Proof.
  exists ground, (host0 "patient" "" ""). destruct (started "patient" "" "") as [l|] eqn:E; [|vm_compute in E; discriminate].
  exists l, (parse0 "patient"). split; [apply isort_sorts|]. split; [exact (listens0 _ _ _ _ E)|].
  split; [apply (told0 "patient"); discriminate|]. split; [reflexivity|].
  assert (V : option_map (fun l => Z.ltb (cl_dial (li_client l)) 0) (started "patient" "" "") = Some true) by (vm_compute; reflexivity).
  rewrite E in V. cbn [option_map] in V. injection V as V. now apply Z.ltb_lt.
Qed.

(** Host "a" with version "b1" and host "ab" with version "1" *)
Definition at_host (md5 : string -> string) (name v : string) : host :=
  Host (fun k => if String.eqb k "HOSTNAME" then name else if String.eqb k "VERSION" then v else "") "" "linux" None (fun _ => None) md5.

Lemma same_id : forall md5, exists h h' n n' v v', named_as h n /\ versioned h v /\ named_as h' n' /\ versioned h' v' /\
  h_md5 h = md5 /\ h_md5 h' = md5 /\ n <> n' /\ v <> v' /\ server_id h = server_id h'.
Proof.
  intros md5. exists (at_host md5 "a" "b1"), (at_host md5 "ab" "1"), "a", "ab", "b1", "1".
  split; [left; split; [discriminate|reflexivity]|]. split; [left; split; [discriminate|reflexivity]|].
  split; [left; split; [discriminate|reflexivity]|]. split; [left; split; [discriminate|reflexivity]|].
  split; [reflexivity|]. split; [reflexivity|]. split; [discriminate|]. split; [discriminate|reflexivity].
Qed.

(** A request to a process in TLS mode, with one byte more than it allows *)
Definition tls_visit : setting :=
  Setting (Env "v1" (server_id (host0 "tls" "VERSION" "v1")) true 10 (e_gzip toy) (e_gunzip toy)) lib always
    (booted (site_as "tls" "C" "K" 0 10)) chance0 (Incoming (Req "PUT" "/todo" "/todo" [("Accept-Encoding", "identity")] 11 "hello world" true) "/todo") [].

Lemma tls_serves : serves ground (host0 "tls" "VERSION" "v1") tls_visit.
Proof.
  destruct (started "tls" "VERSION" "v1") as [l|] eqn:E; [|vm_compute in E; discriminate]. exists l, (site_as "tls" "C" "K" 0 10).
  split; [exact (listens0 _ _ _ _ E)|]. split; [apply (told0 "tls"); discriminate|].
  destruct (start_inv _ _ _ (listens0 _ _ _ _ E)) as [c1 [c [Ht [Hb [_ [Hc [He _]]]]]]].
  assert (c1 = site_as "tls" "C" "K" 0 10) by (apply (told_unique _ _ _ _ Ht); apply (told0 "tls"); discriminate). subst c1.
  change (boot jwt (jwt_checked key_source) isort_routes (site_as "tls" "C" "K" 0 10) = Some c) in Hb.
  assert (Hbo : booted (site_as "tls" "C" "K" 0 10) = c) by (unfold booted; rewrite Hb; reflexivity).
  split.
  - rewrite He. assert (V : option_map (fun c => (tls_mode (c_down c), d_max_body (c_down c))) (boot jwt (jwt_checked key_source) isort_routes (site_as "tls" "C" "K" 0 10)) = Some (true, 10%Z)) by (vm_compute; reflexivity).
    rewrite Hb in V. cbn [option_map] in V. injection V as -> ->. reflexivity.
  - change (t_cfg tls_visit) with (booted (site_as "tls" "C" "K" 0 10)). rewrite Hbo, <- Hc.
    apply (started_in_use ground (host0 "tls" "VERSION" "v1") l _ (isort_sorts) (listens0 _ _ _ _ E) (told0 "tls" _ _ ltac:(discriminate))).
    intros name j [H|[]]. injection H as <- <-. repeat split.
Qed.

Lemma tls_visit_case : serves ground (host0 "tls" "VERSION" "v1") tls_visit /\ told parse0 (host0 "tls" "VERSION" "v1") (site_as "tls" "C" "K" 0 10) /\
  filled (d_max_body (c_down (site_as "tls" "C" "K" 0 10))) 2097152 10 /\ proxied_request (t_cfg tls_visit) (t_in tls_visit) /\ honest_length (t_req tls_visit) /\
  (0 <= 10 < Z.of_nat (String.length (q_data (t_req tls_visit))))%Z.
Proof.
  split; [exact tls_serves|]. split; [apply (told0 "tls"); discriminate|]. split; [right; split; [discriminate|reflexivity]|].
  split; [vm_compute; reflexivity|]. split; [repeat split; cbn; lia|]. cbn. lia.
Qed.

Lemma tls_visit_reply : wants_tls (site_as "tls" "C" "K" 0 10) /\ sized (t_req tls_visit) /\ canonical_answers (t_run tls_visit) /\ timely_run tls_visit /\
  no_gzip_client (t_req tls_visit) /\ utf8 (h_env (host0 "tls" "VERSION" "v1") "VERSION") /\ exists r, replies tls_visit r /\ rp_status r = 413%Z.
Proof.
  split; [reflexivity|]. split; [unfold sized; cbn; lia|]. split; [intros i rs []|].
  destruct tls_visit_case as [H1 [H2 [H3 [H4 [H5 H6]]]]].
  destruct (started_too_large _ _ _ _ _ H1 H2 H3 H4 H5 H6) as [[r [Hr Hst]] _].
  split; [intros c s [K _]; congruence|]. split; [|split].
  - intros v [H|[]]. subst v. reflexivity.
  - apply utf8_1; [reflexivity|]. apply utf8_1; [reflexivity|]. constructor.
  - exists r. split; [right; left; exact Hr|exact Hst].
Qed.

(** C83: a handler that panics, whose line is not written *)
Lemma panic_unseen : exists so srt cfg0 t x, in_use so srt cfg0 (t_cfg t) /\ proxied_request (t_cfg t) (t_in t) /\
  t_serve t = Panicked /\ (forall es, logs t x es -> es = []) /\
  forall h addr text, to_upper (h_env h "LOGLEVEL") <> "TRACE" ->
    (forall a b, "http: panic serving " ++ addr ++ ": " ++ text <> a ++ "TLS handshake error" ++ b) ->
    written (log_level h) (fst (net_event ("http: panic serving " ++ addr ++ ": " ++ text))) = false.
Proof.
  exists key_source, isort_routes, HandlerCases.site,
    (Setting toy lib always live chance0 (ask "GET" "/empty" "/empty" []) []), (Wire "/empty" "127.0.0.1:1" 1 1 None).
  split; [exact live_in_use|]. split; [vm_compute; reflexivity|]. split; [vm_compute; reflexivity|]. split.
  - intros es H. vm_compute in H. exact H.
  - intros h addr text Hl Hm. destruct (written _ _) eqn:E; [|reflexivity]. apply (others_hidden h _ Hm) in E. contradiction.
Qed.

Lemma v6_handshake : exists addr, ipv6_text addr /\ snd (net_event ("http: TLS handshake error from [" ++ addr ++ "]:443: EOF")) <> addr.
Proof.
  exists (compressed_v6 ["2001"; "db8"; "1"; "2"; "3"] ["6"]). split.
  - apply v6_compressed; [cbn; lia| |]; repeat (constructor; [apply group_dec; reflexivity|]); constructor.
  - vm_compute. discriminate.
Qed.
