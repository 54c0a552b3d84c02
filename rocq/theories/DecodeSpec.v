(** What a configuration document says, without the functions of the model. *)
From Coq Require Import String Ascii List Bool ZArith NArith.
From Verif Require Import GoStr TextSpec NumberSpec Startup Regex RegexSpec RegexGrammar Policy ConfigSpec StartupSpec JwtSpec Handler HandlerSpec Config Jwt Decode.
Import ListNotations.
Local Open Scope string_scope.

(** * Documents *)

(** [v] is a member of [d], under the name [k]. *)
Definition member (d : doc) (k : string) (v : doc) : Prop := exists ms, d = DObj ms /\ In (k, v) ms.

(** The one member of [d] called [n], in capitals or small letters, is [v]. *)
Definition holds (n : string) (d v : doc) : Prop :=
  exists a k b, d = DObj (a ++ (k, v) :: b) /\ same_letters n k /\
    forall k' v', In (k', v') a \/ In (k', v') b -> ~ same_letters n k'.
Definition lacks (n : string) (d : doc) : Prop := forall k v, member d k v -> ~ same_letters n k.

(** The one member of [d] called exactly [n] is [v]. *)
Definition entry (n : string) (d v : doc) : Prop :=
  exists a b, d = DObj (a ++ (n, v) :: b) /\ forall v', ~ In (n, v') a /\ ~ In (n, v') b.
Definition no_entry (n : string) (d : doc) : Prop := forall v, ~ member d n v.

(** Following names, [d] says [v], or says nothing. *)
Fixpoint says (p : list string) (d v : doc) : Prop :=
  match p with [] => v = d | n :: p' => exists w, holds n d w /\ says p' w v end.
Fixpoint silent (p : list string) (d : doc) : Prop :=
  match p with [] => False | n :: p' => lacks n d \/ exists w, holds n d w /\ silent p' w end.

(** Values of each type *)
Definition number_doc (v : doc) (z : Z) : Prop := exists t, v = DNum t /\ int64_text t z.
Definition text_doc (v : doc) (s : string) : Prop := v = DStr s.
Definition flag_doc (v : doc) (b : bool) : Prop := v = DBool b.

(** A setting with name [n] of a part [d] of the document, of which values [is] are those of the right type, is
    what was read as [x]: the value written, or [zero] if none of the right type is written. *)
Definition read_as {A} (is : doc -> A -> Prop) (zero : A) (n : string) (d : doc) (x : A) : Prop :=
  (forall v a, holds n d v -> is v a -> x = a) /\
  (lacks n d -> x = zero) /\
  (forall v, holds n d v -> (forall a, ~ is v a) -> x = zero).

(** The same for a setting in the middle of the document *)
Definition read_at {A} (is : doc -> A -> Prop) (zero : A) (p : list string) (d : doc) (x : A) : Prop :=
  (forall v a, says p d v -> is v a -> x = a) /\
  (silent p d -> x = zero) /\
  (forall v, says p d v -> (forall a, ~ is v a) -> x = zero).

(** * Settings *)

Definition number_settings : list (list string * (config jwt -> Z)) :=
  [(["connection"; "downstream"; "readTimeoutSeconds"], fun c => d_read_timeout (c_down c));
   (["connection"; "downstream"; "roundTripTimeoutSeconds"], fun c => d_roundtrip_timeout (c_down c));
   (["connection"; "downstream"; "idleTimeoutSeconds"], fun c => d_idle_timeout (c_down c));
   (["connection"; "downstream"; "maxBodyBytes"], fun c => d_max_body (c_down c));
   (["connection"; "downstream"; "port"], fun c => d_port (c_down c));
   (["connection"; "upstream"; "poolSize"], fun c => up_pool (c_up c));
   (["connection"; "upstream"; "idleTimeoutSeconds"], fun c => up_idle_timeout (c_up c));
   (["connection"; "upstream"; "socketTimeoutSeconds"], fun c => up_socket_timeout (c_up c));
   (["connection"; "upstream"; "readTimeoutSeconds"], fun c => up_read_timeout (c_up c));
   (["connection"; "upstream"; "maxAttempts"], fun c => up_max_attempts (c_up c))].

Definition text_settings : list (list string * (config jwt -> string)) :=
  [(["connection"; "downstream"; "mode"], fun c => d_mode (c_down c));
   (["connection"; "downstream"; "cert"], fun c => d_cert (c_down c));
   (["connection"; "downstream"; "key"], fun c => d_key (c_down c))].

Definition route_settings : list (string * (route -> string)) :=
  [("path", r_path); ("transform", r_transform); ("resource", r_resource); ("policy", r_policy); ("jwt", r_jwt)].

Definition jwt_settings : list (string * (jwt -> string)) :=
  [("name", j_name); ("alg", j_alg); ("key", j_key); ("jwksUrl", j_url); ("acceptableSkewSeconds", j_skew)].

(** Elements of a list are read one by one. *)
Definition each {A} (reads : doc -> A -> Prop) (v : doc) (xs : list A) : Prop := exists l, v = DArr l /\ Forall2 reads l xs.

Definition route_read (e : doc) (r : route) : Prop :=
  r_regex r = None /\ forall n f, In (n, f) route_settings -> read_as text_doc "" n e (f r).

Definition jwt_read (e : doc) (j : jwt) : Prop :=
  j_rsa j = [] /\ j_ec j = [] /\ j_secret j = [] /\ forall n f, In (n, f) jwt_settings -> read_as text_doc "" n e (f j).

Definition weight_read (float : string -> option f64) (e : doc) (w : label_weight f64) : Prop :=
  read_as text_doc "" "label" e (lw_label w) /\
  read_as (fun v x => exists t, v = DNum t /\ float t = Some x) f64_zero "weight" e (lw_weight w).

(** A port is a number without sign below 65536. *)
Definition port_doc (v : doc) (p : N) : Prop :=
  exists t, v = DNum t /\ ~ (exists t', t = "-" ++ t') /\ int64_text t (Z.of_N p) /\ (p < 65536)%N.

(** Labels are texts; anything else in their list is an empty one. *)
Definition labels_doc (v : doc) (ls : list string) : Prop :=
  each (fun e s => text_doc e s \/ ((forall s', ~ text_doc e s') /\ s = "")) v ls.

Definition server_read (e : doc) (m : resource_mapping) : Prop :=
  read_as labels_doc [] "labels" e (rm_labels m) /\
  read_at text_doc "" ["url"; "scheme"] e (u_scheme (rm_url m)) /\
  read_at text_doc "" ["url"; "host"] e (u_host (rm_url m)) /\
  read_at port_doc 0%N ["url"; "port"] e (u_port (rm_url m)).

(** * The process *)

(** The text of the configuration: the file named on the command line, else the environment variable, else the
    default file *)
Definition config_text (h : host) (text : string) : Prop :=
  match h_flag h with
  | Some (String a f) => h_files h (String a f) = Some text
  | _ => (h_env h "J8ACFG_YML" <> "" /\ text = h_env h "J8ACFG_YML") \/
         (h_env h "J8ACFG_YML" = "" /\ h_files h "j8acfg.yml" = Some text)
  end.

(** Documents are read by [yaml] and [float], and that on [h] is [d]. *)
Definition written_in (p : place) (h : host) (float : string -> option f64) (yaml : string -> option doc) (d : doc) : Prop :=
  (forall text, pl_parse p text = parse float yaml text) /\ exists text, config_text h text /\ yaml text = Some d.

(** The text written for [n] in [e], nothing if there is none *)
Definition text_for (n : string) (e : doc) (s : string) : Prop := holds n e (DStr s) \/ (lacks n e /\ s = "").

(** The element [e] of the routes in [l] is one for [uri]: its path matches, and no path that matches is longer. *)
Definition path_matches (s uri : string) : Prop := exists x, written x ("^" ++ s) /\ found x uri.
Definition route_for (l : list doc) (uri : string) (e : doc) : Prop :=
  In e l /\ exists s, read_as text_doc "" "path" e s /\ path_matches s uri /\
    forall e' s', In e' l -> text_for "path" e' s' -> path_matches s' uri -> (String.length (slashed s') <= String.length (slashed s))%nat.

(** The definition [j] in use goes back to [je], the documents loaded since being [docs]. *)
Definition defined_by (so : sources) (n : string) (je : doc) (docs : list (list jwk)) (j : jwt) : Prop :=
  exists j0, jwt_read je j0 /\ reached (so_pem so n) (so_kid so n) (named n j0) docs j.

(** The token in an Authorization header fits the definition [je] with the name [n]: signed with a key in use that is
    written in [je] or was published for its algorithm, and in time. *)
Definition token_for (so : sources) (L : library) (now : Z) (n : string) (je : doc) (docs : list (list jwk)) (j : jwt) (auth : string) : Prop :=
  exists token, bearer auth token /\
    (forall alg, holds "alg" je (DStr alg) -> In alg signing -> exists kid k cl,
       In (kid, k) (keys j) /\ lib_verify L alg k token = Some cl /\ fits alg k /\
       ((exists j0, (forall key, text_for "key" je key -> j_key j0 = key) /\ j_key j0 <> "" /\ stands_for (so_pem so n) j0 k) \/ published docs alg kid k)) /\
    (forall cl s skew, lib_parse L token = Some cl -> dated cl -> text_for "acceptableSkewSeconds" je s ->
       skew_configured s skew -> in_time now skew cl).

(** The number or text at [p], 0 or empty if there is none *)
Definition number_at (p : list string) (d : doc) (z : Z) : Prop :=
  (exists v, says p d v /\ number_doc v z) \/ (silent p d /\ z = 0%Z).
Definition text_at (p : list string) (d : doc) (s : string) : Prop := says p d (DStr s) \/ (silent p d /\ s = "").
Definition flag_at (p : list string) (d : doc) (b : bool) : Prop := says p d (DBool b) \/ (silent p d /\ b = false).

Definition down (n : string) : list string := ["connection"; "downstream"; n].
Definition up (n : string) : list string := ["connection"; "upstream"; n].
