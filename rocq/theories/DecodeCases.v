(** Cases for Thm_Decode: documents, and processes that read them. *)
From Coq Require Import String Ascii List Bool ZArith NArith Lia.
From Verif Require Import GoStr NumberSpec NumberProofs TextSpec TextProofs Regex RegexSpec RegexGrammar Header Policy PolicyProofs ConfigSpec ConfigProofs Exchange ExchangeSpec ExchangeProofs Startup StartupSpec StartupProofs StartupCases
  JwtSpec JwtProofs JwtCases Machine MachineSpec SystemSpec SystemCases Tls TlsSpec TlsProofs Handler HandlerSpec HandlerProofs HandlerCases Config Jwt Decode DecodeSpec DecodeProofs DecodeStart DecodeServe.
Import ListNotations.
Local Open Scope string_scope.

(** A float parser that knows one number *)
Definition float0 (t : string) : option f64 := if String.eqb t "1" then Some f64_one else None.

Definition route_doc (path : string) (guard : doc) : doc :=
  DObj [("path", DStr path); ("Resource", DStr "todos"); ("jwt", guard)].
Definition jwt_doc (skew : doc) : doc :=
  DObj [("alg", DStr "RS256"); ("jwksUrl", DStr "http://keys"); ("acceptableSkewSeconds", skew)].
Definition site_doc (guard skew : doc) : doc :=
  DObj [("routes", DArr [route_doc "/" (DStr ""); route_doc "/admin" guard]);
        ("JWT", DObj [("auth", jwt_doc skew)]);
        ("resources", DObj [("todos", DArr [DObj [("labels", DArr [DStr "blue"; DNull]); ("url", DObj [("host", DStr "localhost"); ("port", DNum "60083")])]])]);
        ("policies", DObj [("ab", DArr [DObj [("label", DStr "blue"); ("weight", DNum "1")]])]);
        ("connection", DObj [("downstream", DObj [("port", DNum "8443"); ("maxBodyBytes", DStr "10")]); ("upstream", DObj [("maxAttempts", DNum "3"); ("tlsInsecureSkipVerify", DBool true)])])].

Definition good : doc := site_doc (DStr "auth") (DStr "0").
Definition open_doc : doc := site_doc (DArr [DStr "auth"]) (DStr "0").
Definition loose : doc := site_doc (DStr "auth") (DNum "0").

Definition yaml0 (text : string) : option doc :=
  if String.eqb text "good" then Some good else if String.eqb text "open" then Some open_doc else if String.eqb text "loose" then Some loose else None.

Definition land : place := Place key_source isort_routes (parse float0 yaml0) (e_gzip toy) (e_gunzip toy) pair0 (dates 0) (fun _ => 0%Z) (fun _ => true).

(** Finding members by computation *)
Lemma filter_one : forall A (f : A -> bool) l x, filter f l = [x] ->
  exists a b, l = (a ++ x :: b)%list /\ f x = true /\ forall y, In y a \/ In y b -> f y = false.
Proof.
  intros A f. induction l as [|y l IH]; intros x H; [discriminate H|]. cbn [filter] in H. destruct (f y) eqn:E.
  - injection H as -> H. exists [], l. split; [reflexivity|]. split; [exact E|]. intros z [[]|I].
    destruct (f z) eqn:F; [|reflexivity]. assert (X : In z (filter f l)) by (apply filter_In; now split). rewrite H in X. destruct X.
  - destruct (IH x H) as (a & b & -> & H1 & H2). exists (y :: a), b. split; [reflexivity|]. split; [exact H1|].
    intros z [[<-|I]|I]; [exact E|exact (H2 z (or_introl I))|exact (H2 z (or_intror I))].
Qed.

Lemma holds_by : forall n ms k v, filter (fun e => same_name n (fst e)) ms = [(k, v)] -> holds n (DObj ms) v.
Proof.
  intros n ms k v H. destruct (filter_one _ _ _ _ H) as (a & b & -> & H1 & H2). exists a, k, b. split; [reflexivity|].
  cbn [fst] in H1. split; [apply same_upper, String.eqb_eq, H1|]. intros k' v' I X. apply same_upper, String.eqb_eq in X.
  assert (Y := H2 (k', v') I). cbn [fst] in Y. unfold same_name in Y. congruence.
Qed.

Lemma lacks_by : forall n ms, filter (fun e => same_name n (fst e)) ms = [] -> lacks n (DObj ms).
Proof.
  intros n ms H k v (ms' & E & I) X. injection E as <-. apply same_upper, String.eqb_eq in X.
  assert (Y : In (k, v) (filter (fun e => same_name n (fst e)) ms)) by (apply filter_In; split; [exact I|exact X]). rewrite H in Y. destruct Y.
Qed.

Lemma entry_by : forall n ms v, filter (fun e => String.eqb n (fst e)) ms = [(n, v)] -> entry n (DObj ms) v.
Proof.
  intros n ms v H. destruct (filter_one _ _ _ _ H) as (a & b & -> & H1 & H2). exists a, b. split; [reflexivity|].
  intro v'. split; intro I.
  - assert (Y := H2 (n, v') (or_introl I)). cbn [fst] in Y. now rewrite String.eqb_refl in Y.
  - assert (Y := H2 (n, v') (or_intror I)). cbn [fst] in Y. now rewrite String.eqb_refl in Y.
Qed.

Ltac member_ := eapply holds_by; vm_compute; reflexivity.
Ltac path_ := repeat (eexists; split; [member_|]); reflexivity.

Lemma site_routes_said : forall g s, says ["routes"] (site_doc g s) (DArr [route_doc "/" (DStr ""); route_doc "/admin" g]).
Proof. intros g s. path_. Qed.
Lemma site_jwt_said : forall g s, says ["jwt"] (site_doc g s) (DObj [("auth", jwt_doc s)]).
Proof. intros g s. path_. Qed.
Lemma site_auth : forall s, entry "auth" (DObj [("auth", jwt_doc s)]) (jwt_doc s).
Proof. intro s. apply entry_by. reflexivity. Qed.

Lemma good_port : says ["connection"; "downstream"; "port"] good (DNum "8443").
Proof. path_. Qed.
Lemma good_limit : says ["connection"; "downstream"; "maxBodyBytes"] good (DStr "10").
Proof. path_. Qed.
Lemma good_mode : silent ["connection"; "downstream"; "mode"] good.
Proof. right. eexists. split; [member_|]. right. eexists. split; [member_|]. left. apply lacks_by. reflexivity. Qed.
Lemma good_skip : says ["connection"; "upstream"; "tlsInsecureSkipVerify"] good (DBool true).
Proof. path_. Qed.
Lemma good_resources : exists m l, says ["resources"] good m /\ entry "todos" m (DArr l) /\ l <> [].
Proof. eexists. eexists. split; [path_|]. split; [apply entry_by; reflexivity|discriminate]. Qed.
Lemma good_policies : exists m l, says ["policies"] good m /\ entry "ab" m (DArr l) /\ l <> [].
Proof. eexists. eexists. split; [path_|]. split; [apply entry_by; reflexivity|discriminate]. Qed.
Lemma good_config : let c := decode float0 good in
  d_port (c_down c) = 8443%Z /\ d_max_body (c_down c) = 0%Z /\ d_mode (c_down c) = "" /\ up_skip_verify (c_up c) = true /\
  map r_jwt (c_routes c) = [""; "auth"] /\ option_map (option_map j_skew) (lookup "auth" (c_jwt c)) = Some (Some "0") /\
  option_map (option_map (map (fun m => (rm_labels m, u_port (rm_url m))))) (lookup "todos" (c_resources c)) = Some (Some [(["blue"; ""], 60083%N)]) /\
  lookup "ab" (c_policies c) = Some [LW "blue" f64_one].
Proof. vm_compute. repeat split; reflexivity. Qed.

(** * Processes *)

Definition started_on (text : string) : option listener :=
  start (jwt_checked key_source) isort_routes (parse float0 yaml0) (e_gzip toy) (e_gunzip toy) pair0 (dates 0) (fun _ => 0%Z) (fun _ => true) (host0 text "VERSION" "v1").

Lemma started_listens : forall text l, started_on text = Some l -> listens land (host0 text "VERSION" "v1") l.
Proof. intros text l H. exact H. Qed.

Lemma land_written : forall text d, text <> "" -> yaml0 text = Some d -> written_in land (host0 text "VERSION" "v1") float0 yaml0 d.
Proof.
  intros text d N H. split; [reflexivity|]. exists text. split; [|exact H]. left. split; [exact N|reflexivity].
Qed.

(** A request to such a process *)
Definition guest (text : string) (cl : claims) (h : header) : setting :=
  Setting (match started_on text with Some l => li_env l | None => toy end) (small cl) always
    (match started_on text with Some l => li_config l | None => zero_config end) chance0 (ask "GET" "/admin" "/admin" h) second_try.

Lemma guest_served : forall text d cl h, text <> "" -> yaml0 text = Some d -> started_on text <> None ->
  StartupSpec.serves land (host0 text "VERSION" "v1") (guest text cl h).
Proof.
  intros text d cl h N Y H. unfold guest. destruct (started_on text) as [l|] eqn:E; [|contradiction].
  exists l. assert (L : listens land (host0 text "VERSION" "v1") l) by exact E.
  destruct (start_inv _ _ _ L) as (c0 & c & Ht & _). exists c0. split; [exact L|]. split; [exact Ht|]. split; [reflexivity|].
  cbn [t_cfg]. assert (W := land_written text d N Y). rewrite (told_document _ _ _ _ _ _ W Ht).
  exact (document_in_use land _ _ _ _ _ isort_sorts W L).
Qed.

Lemma route_doc_path : forall path g s, text_for "path" (route_doc path g) s -> s = path.
Proof.
  intros path g s T. assert (R := route_reads (route_doc path g)).
  rewrite <- (route_field _ _ "path" r_path s R (or_introl eq_refl) T). reflexivity.
Qed.

Lemma admin_route : forall g, route_for [route_doc "/" (DStr ""); route_doc "/admin" g] "/admin" (route_doc "/admin" g).
Proof.
  intro g. split; [right; now left|]. exists "/admin". split; [exact (proj2 (route_reads (route_doc "/admin" g)) "path" r_path (or_introl eq_refl))|].
  split.
  - destruct (re_compile "^/admin") as [x|] eqn:E; [|vm_compute in E; discriminate E].
    apply (route_matches_compiled (Route "/admin" None "" "" "" "") "/admin" x E). vm_compute in E. injection E as <-. vm_compute. reflexivity.
  - intros e' s' [<-|[<-|[]]] T _; apply route_doc_path in T; subst s'; cbn; lia.
Qed.

Lemma now0 : (0 <= ch_now chance0)%Z. Proof. cbn. lia. Qed.

(** A guarded route in the document, a token, and the request goes upstream *)
Lemma good_guest : exists c, written_in land (host0 "good" "VERSION" "v1") float0 yaml0 good /\
  StartupSpec.serves land (host0 "good" "VERSION" "v1") (guest "good" no_dates [("Authorization", "Bearer old")]) /\
  t_serve (guest "good" no_dates [("Authorization", "Bearer old")]) = Upstream c /\
  route_for [route_doc "/" (DStr ""); route_doc "/admin" (DStr "auth")] "/admin" (route_doc "/admin" (DStr "auth")) /\
  text_for "jwt" (route_doc "/admin" (DStr "auth")) "auth" /\ says ["jwt"] good (DObj [("auth", jwt_doc (DStr "0"))]) /\
  entry "auth" (DObj [("auth", jwt_doc (DStr "0"))]) (jwt_doc (DStr "0")).
Proof.
  eexists. split; [apply land_written; [discriminate|reflexivity]|]. split; [apply (guest_served "good" good); [discriminate|reflexivity|vm_compute; discriminate]|].
  split; [vm_compute; reflexivity|]. split; [apply admin_route|]. split; [left; member_|]. split; [apply site_jwt_said|apply site_auth].
Qed.
Lemma good_stranger : option_map rp_status (match t_serve (guest "good" no_dates []) with Answered r => Some r | _ => None end) = Some 401%Z.
Proof. vm_compute. reflexivity. Qed.

(** The list [auth] in place of the text auth: no token is asked for. *)
Lemma list_opens : exists p h t pf yaml d l e c, sorts_routes (pl_sort p) /\ written_in p h pf yaml d /\ says ["routes"] d (DArr l) /\
  StartupSpec.serves p h t /\ route_for l (q_raw_uri (t_req t)) e /\ holds "jwt" e (DArr [DStr "auth"]) /\
  get "Authorization" (q_header (t_req t)) = "" /\ t_serve t = Upstream c.
Proof.
  exists land, (host0 "open" "VERSION" "v1"), (guest "open" no_dates []), float0, yaml0, open_doc.
  exists [route_doc "/" (DStr ""); route_doc "/admin" (DArr [DStr "auth"])], (route_doc "/admin" (DArr [DStr "auth"])). eexists.
  split; [exact isort_sorts|]. split; [apply land_written; [discriminate|reflexivity]|]. split; [apply site_routes_said|].
  split; [apply (guest_served "open" open_doc); [discriminate|reflexivity|vm_compute; discriminate]|]. split; [apply admin_route|].
  split; [member_|]. split; [reflexivity|]. vm_compute. reflexivity.
Qed.

(** The number 0 in place of the text "0": a token that expired a minute ago is accepted. *)
Definition minute_ago : claims := Claims None None (Some 1599999940%Z).
Lemma number_loosens : exists p h t pf yaml d l e n m je token cl c, sorts_routes (pl_sort p) /\ written_in p h pf yaml d /\ says ["routes"] d (DArr l) /\
  StartupSpec.serves p h t /\ honest (t_lib t) /\ route_for l (q_raw_uri (t_req t)) e /\ text_for "jwt" e n /\ says ["jwt"] d m /\ entry n m je /\
  holds "acceptableSkewSeconds" je (DNum "0") /\ bearer (get "Authorization" (q_header (t_req t))) token /\ lib_parse (t_lib t) token = Some cl /\
  ~ in_time (ch_now (t_chance t)) 0 cl /\ t_serve t = Upstream c.
Proof.
  exists land, (host0 "loose" "VERSION" "v1"), (guest "loose" minute_ago [("Authorization", "Bearer old")]), float0, yaml0, loose.
  exists [route_doc "/" (DStr ""); route_doc "/admin" (DStr "auth")], (route_doc "/admin" (DStr "auth")), "auth", (DObj [("auth", jwt_doc (DNum "0"))]), (jwt_doc (DNum "0")), "old", minute_ago. eexists.
  split; [exact isort_sorts|]. split; [apply land_written; [discriminate|reflexivity]|]. split; [apply site_routes_said|].
  split; [apply (guest_served "loose" loose); [discriminate|reflexivity|vm_compute; discriminate]|]. split; [apply small_honest|]. split; [apply admin_route|].
  split; [left; member_|]. split; [apply site_jwt_said|]. split; [apply site_auth|]. split; [member_|].
  split; [apply (bearer_of "old"); no_space|]. split; [reflexivity|]. split; [|vm_compute; reflexivity].
  intros [H _]. specialize (H _ eq_refl). cbn in H. lia.
Qed.
(** With the text "0" it is not. *)
Lemma text_rejects : option_map rp_status (match t_serve (guest "good" minute_ago [("Authorization", "Bearer old")]) with Answered r => Some r | _ => None end) = Some 401%Z.
Proof. vm_compute. reflexivity. Qed.

(** Two requests to the server in the document *)
Definition member_of_good : setting := guest "good" no_dates [("Authorization", "Bearer old")].
Lemma good_sends : exists xs, sends member_of_good xs /\ map uq_uri xs = ["http://localhost:60083/admin"; "http://localhost:60083/admin"].
Proof.
  assert (H : t_serve member_of_good = Upstream (conf_of member_of_good)) by (vm_compute; reflexivity).
  destruct (ran_outcome member_of_good _ ["http://localhost:60083/admin"; "http://localhost:60083/admin"] [201%Z] H ltac:(vm_compute; reflexivity)) as (s & R & U & _).
  exists (s_sent s). split; [exists (conf_of member_of_good), s; split; [exact R|reflexivity]|exact U].
Qed.

Lemma good_asks : exists x, asks member_of_good x /\ uq_uri x = "http://localhost:60083/admin".
Proof.
  destruct good_sends as (xs & H & U). destruct xs as [|x xs]; [discriminate U|]. injection U as U _. exists x. split; [|exact U].
  exists (x :: xs)%list. split; [exact H|now left].
Qed.

Lemma good_served : StartupSpec.serves land (host0 "good" "VERSION" "v1") member_of_good.
Proof. apply (guest_served "good" good); [discriminate|reflexivity|vm_compute; discriminate]. Qed.

Lemma good_texts : let e := route_doc "/admin" (DStr "auth") in
  text_for "resource" e "todos" /\ text_for "policy" e "" /\ text_for "transform" e "" /\ text_for "path" e "/admin".
Proof.
  split; [left; member_|]. split; [right; split; [apply lacks_by; reflexivity|reflexivity]|].
  split; [right; split; [apply lacks_by; reflexivity|reflexivity]|left; member_].
Qed.

Lemma good_listens : exists l, listens land (host0 "good" "VERSION" "v1") l /\ sv_addr (li_server l) = ":8443" /\ e_max_body (li_env l) = 2097152%Z /\
  li_tls l = None /\ cl_skip_verify (li_client l) = true /\ sv_read (li_server l) = 120000000000%Z.
Proof.
  destruct (started_on "good") as [l|] eqn:E; [|vm_compute in E; discriminate]. exists l. split; [exact (started_listens _ _ E)|].
  assert (V : option_map (fun l => (sv_addr (li_server l), e_max_body (li_env l), li_tls l, cl_skip_verify (li_client l), sv_read (li_server l))) (started_on "good") =
              Some (":8443", 2097152%Z, None, true, 120000000000%Z)) by (vm_compute; reflexivity).
  rewrite E in V. cbn [option_map] in V. injection V as V1 V2 V3 V4 V5. now repeat split.
Qed.

Lemma good_settings : number_at (down "port") good 8443 /\ text_at (down "mode") good "" /\ flag_at (up "tlsInsecureSkipVerify") good true /\
  number_at (down "readTimeoutSeconds") good 0 /\ number_at (up "maxAttempts") good 3.
Proof.
  split; [left; eexists; split; [exact good_port|exists "8443"; split; [reflexivity|apply atoi_iff; reflexivity]]|].
  split; [right; split; [exact good_mode|reflexivity]|]. split; [left; exact good_skip|].
  split; [right; split; [right; eexists; split; [member_|]; right; eexists; split; [member_|]; left; apply lacks_by; reflexivity|reflexivity]|].
  left. exists (DNum "3"). split; [path_|exists "3"; split; [reflexivity|apply atoi_iff; reflexivity]].
Qed.
