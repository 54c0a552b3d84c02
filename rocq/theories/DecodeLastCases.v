(** Cases for Thm_DecodeLast: a route that names its jwt twice. *)
From Coq Require Import String Ascii List Bool ZArith NArith Lia.
From Verif Require Import GoStr NumberSpec NumberProofs TextSpec TextProofs Regex RegexSpec RegexGrammar Header Policy PolicyProofs ConfigSpec ConfigProofs Exchange ExchangeSpec ExchangeProofs Startup StartupSpec StartupProofs StartupCases
  JwtSpec JwtProofs JwtCases Machine MachineSpec SystemSpec SystemCases Tls TlsSpec TlsProofs Handler HandlerSpec HandlerProofs HandlerCases Config Jwt Decode DecodeSpec DecodeProofs DecodeStart DecodeServe DecodeCases DecodeLastSpec DecodeLastProofs.
Import ListNotations.
Local Open Scope string_scope.

(** The members of an object in the order in which YAMLToJSON writes them: capitals come first. *)
Definition twice_route : doc := DObj [("JWT", DStr "auth"); ("Resource", DStr "todos"); ("jwt", DStr ""); ("path", DStr "/admin")].
Definition twice_doc : doc :=
  DObj [("connection", DObj [("downstream", DObj [("PORT", DNum "8443"); ("port", DStr "none")]); ("upstream", DObj [("MaxAttempts", DNum "3"); ("maxAttempts", DNum "5"); ("tlsInsecureSkipVerify", DBool true)])]);
        ("jwt", DObj [("auth", jwt_doc (DStr "0"))]);
        ("resources", DObj [("todos", DArr [DObj [("labels", DArr [DStr "blue"; DNull]); ("url", DObj [("host", DStr "localhost"); ("port", DNum "60083")])]])]);
        ("routes", DArr [route_doc "/" (DStr ""); twice_route])].
Definition yaml2 (text : string) : option doc := if String.eqb text "twice" then Some twice_doc else None.
(** A process that reads [text], and a request to it *)
Definition land_of (yaml : string -> option doc) : place := Place key_source isort_routes (parse float0 yaml) (e_gzip toy) (e_gunzip toy) pair0 (dates 0) (fun _ => 0%Z) (fun _ => true).
Definition started_of (yaml : string -> option doc) (text : string) : option listener :=
  start (jwt_checked key_source) isort_routes (parse float0 yaml) (e_gzip toy) (e_gunzip toy) pair0 (dates 0) (fun _ => 0%Z) (fun _ => true) (host0 text "VERSION" "v1").
Definition guest_of (yaml : string -> option doc) (text : string) : setting :=
  Setting (match started_of yaml text with Some l => li_env l | None => toy end) (small no_dates) always
    (match started_of yaml text with Some l => li_config l | None => zero_config end) chance0 (ask "GET" "/admin" "/admin" []) second_try.

Lemma written_of : forall yaml text d, text <> "" -> yaml text = Some d -> written_in (land_of yaml) (host0 text "VERSION" "v1") float0 yaml d.
Proof. intros yaml text d N H. split; [reflexivity|]. exists text. split; [|exact H]. left. split; [exact N|reflexivity]. Qed.

Lemma served_of : forall yaml text d, text <> "" -> yaml text = Some d -> started_of yaml text <> None ->
  StartupSpec.serves (land_of yaml) (host0 text "VERSION" "v1") (guest_of yaml text).
Proof.
  intros yaml text d N Y H. unfold guest_of. destruct (started_of yaml text) as [l|] eqn:E; [|contradiction].
  exists l. assert (L : listens (land_of yaml) (host0 text "VERSION" "v1") l) by exact E.
  destruct (start_inv _ _ _ L) as (c0 & c & Ht & _). exists c0. split; [exact L|]. split; [exact Ht|]. split; [reflexivity|].
  cbn [t_cfg]. assert (W := written_of yaml text d N Y). rewrite (told_document _ _ _ _ _ _ W Ht).
  exact (document_in_use (land_of yaml) _ _ _ _ _ isort_sorts W L).
Qed.

Lemma twice_path : forall s, text_for "path" twice_route s -> s = "/admin".
Proof.
  intros s T. assert (R := route_reads twice_route).
  rewrite <- (route_field _ _ "path" r_path s R (or_introl eq_refl) T). reflexivity.
Qed.

Lemma twice_for : route_for [route_doc "/" (DStr ""); twice_route] "/admin" twice_route.
Proof.
  split; [right; now left|]. exists "/admin". split; [exact (proj2 (route_reads twice_route) "path" r_path (or_introl eq_refl))|].
  split.
  - destruct (re_compile "^/admin") as [x|] eqn:E; [|vm_compute in E; discriminate E].
    apply (route_matches_compiled (Route "/admin" None "" "" "" "") "/admin" x E). vm_compute in E. injection E as <-. vm_compute. reflexivity.
  - intros e' s' [<-|[<-|[]]] T _; [apply route_doc_path in T|apply twice_path in T]; subst s'; cbn; lia.
Qed.

Lemma twice_opens : exists p h t pf yaml d l e k c, sorts_routes (pl_sort p) /\ written_in p h pf yaml d /\ says ["routes"] d (DArr l) /\
  StartupSpec.serves p h t /\ route_for l (q_raw_uri (t_req t)) e /\ member e k (DStr "auth") /\ same_letters "jwt" k /\
  get "Authorization" (q_header (t_req t)) = "" /\ t_serve t = Upstream c.
Proof.
  exists (land_of yaml2), (host0 "twice" "VERSION" "v1"), (guest_of yaml2 "twice"), float0, yaml2, twice_doc, [route_doc "/" (DStr ""); twice_route], twice_route, "JWT". eexists.
  split; [exact isort_sorts|]. split; [apply written_of; [discriminate|reflexivity]|]. split; [path_|]. split; [apply (served_of yaml2 "twice" twice_doc); [discriminate|reflexivity|vm_compute; discriminate]|]. split; [exact twice_for|].
  split; [eexists; split; [reflexivity|now left]|]. split; [apply same_upper; reflexivity|]. split; [reflexivity|]. vm_compute. reflexivity.
Qed.

Lemma twice_case : exists dms ums l, says ["connection"; "downstream"] twice_doc (DObj dms) /\ says ["connection"; "upstream"] twice_doc (DObj ums) /\ says ["routes"] twice_doc (DArr l) /\
  let c := decode float0 twice_doc in
  d_port (c_down c) = 8443%Z /\ d_mode (c_down c) = "" /\ up_max_attempts (c_up c) = 5%Z /\ up_skip_verify (c_up c) = true /\ map r_jwt (c_routes c) = [""; ""].
Proof. eexists. eexists. eexists. split; [path_|]. split; [path_|]. split; [path_|]. vm_compute. repeat split; reflexivity. Qed.
