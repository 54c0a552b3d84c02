(** Where requests go (C140), and targets (C125). *)
From Coq Require Import String Ascii List Bool NArith.
From Verif Require Import GoStr RegexSpec Header Config ConfigSpec ConfigProofs Routing Exchange Handler HandlerSpec SystemSpec Url UrlSpec UrlProofs Wire SteerSpec SteerProofs UrlHostSpec UrlHostProofs.
Import ListNotations.
Local Open Scope string_scope.

(** What net/http takes for the host of a URL is what RFC 3986 says, decoded; its port is digits. *)
Theorem C140_host : forall text hp g, web_url text -> host_port text hp -> parse_url text = Some g -> decode hp = Some (g_host g) /\ sound_port hp.
Proof. exact goes_to. Qed.
Print Assumptions C140_host.

Theorem C140_user : forall text user g, web_url text -> user_info text user -> parse_url text = Some g -> forall c, has_char c user = true -> user_char c.
Proof. exact user_sound. Qed.
Print Assumptions C140_user.

(** The upstream is told that host, and no other. *)
Theorem C140_told : forall x h hp, web_url (uq_uri x) -> host_port (uq_uri x) hp -> wire_header x = Some h -> exists host, decode hp = Some host /\ values "Host" h = [host].
Proof. exact told_host. Qed.
Print Assumptions C140_told.

(** Full statement: requests go to the server of the route.  They do, or the route has transform "/" and the text glued to
    its path renamed the server. *)
Theorem C140_goes_partial : forall r u uri x h, UrlSpec.plain_server u -> (exists y, uri = "/" ++ y) -> (exists y, r_path r = "/" ++ y) ->
  r_transform r = "" \/ (exists y, r_transform r = "/" ++ y) -> uq_uri x = resolve_upstream_uri r u uri -> wire_header x = Some h ->
  exists hp host, decode hp = Some host /\ values "Host" h = [host] /\
    ((hp = server_of u /\ (r_transform r = "/" -> safe_removal (r_path r) uri)) \/
     (r_transform r = "/" /\ exists seg, glued (r_path r) uri seg /\ renamed (server_of u) seg hp)).
Proof. exact goes_exactly. Qed.
Print Assumptions C140_goes_partial.

(** With transform "/" a client's request goes to any place the client names: net/http makes the request, for that host, with target "/". *)
Theorem C140_steered : forall r u hp, UrlSpec.plain_server u -> r_transform r = "/" -> plain_place hp ->
  exists g, parse_url (resolve_upstream_uri r u (r_path r ++ "@" ++ hp ++ "/")) = Some g /\ g_host g = hp /\ request_uri g = "/".
Proof. exact steered_to. Qed.
Print Assumptions C140_steered.

Theorem C140_refuted : exists r u uri x h, UrlSpec.plain_server u /\ r_path r = "/mse6" /\ r_transform r = "/" /\ uri = "/mse6@evil.com:81/" /\
  uq_uri x = resolve_upstream_uri r u uri /\ wire_header x = Some h /\ values "Host" h = ["evil.com:81"] /\ server_of u = "localhost:60083".
Proof. exact steer_sent. Qed.
Print Assumptions C140_refuted.

(** A host in brackets with a zone and a port, and one that is decoded *)
Example C140_case : web_url "http://a:b@[fe80::1%25en0]:80/x?y" /\ host_port "http://a:b@[fe80::1%25en0]:80/x?y" "[fe80::1%25en0]:80" /\
  option_map g_host (parse_url "http://a:b@[fe80::1%25en0]:80/x?y") = Some "[fe80::1%en0]:80" /\
  user_info "http://a:b@[fe80::1%25en0]:80/x?y" "a:b" /\
  parse_url "http://[::1]x/" = None /\ option_map g_host (parse_url "http://[::1]/") = Some "[::1]" /\ parse_url "http://a b@c/" = None /\ plain_place "evil.com:81".
Proof.
  split; [exists "a:b@[fe80::1%25en0]:80/x?y"; now left|]. split.
  { exists "http", "a:b@[fe80::1%25en0]:80", "/x?y". split; [reflexivity|]. split; [reflexivity|]. split; [intros c [<-|[<-|[<-|[]]]]; reflexivity|].
    split; [right; exists "/"%char, "x?y"; split; [now left|reflexivity]|]. split; [right; now exists "a:b"|reflexivity]. }
  split; [vm_compute; reflexivity|]. split.
  { exists "http", "[fe80::1%25en0]:80", "/x?y". split; [reflexivity|]. split; [reflexivity|]. split; [intros c [<-|[<-|[<-|[]]]]; reflexivity|].
    split; [right; exists "/"%char, "x?y"; split; [now left|reflexivity]|reflexivity]. }
  do 3 (split; [vm_compute; reflexivity|]). exists "evil.com". split; [split; [discriminate|]|right; now exists 81%N].
  intros c H. cbn [has_char] in H. rewrite !orb_true_iff, !Ascii.eqb_eq in H.
  repeat (destruct H as [->|H]; [first [left; apply alnum_iff; reflexivity|right; left; reflexivity]|]). discriminate H.
Qed.

(** Targets that reach the proxy have one of the forms of RFC 7230, except with CONNECT. *)
Theorem C125_forms : forall m raw g, read_target m raw = Some g -> m <> "CONNECT" -> target_form raw.
Proof. exact forms. Qed.
Print Assumptions C125_forms.

Example C125_forms_case : read_target "GET" "HTTP://a/b" <> None /\ read_target "GET" "/b" <> None /\ read_target "OPTIONS" "*" <> None /\ read_target "GET" "1a:b" = None.
Proof. vm_compute. repeat split; discriminate. Qed.
