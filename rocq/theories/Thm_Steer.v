(** Where requests go, exactly (C17). *)
From Coq Require Import String Ascii List Bool NArith.
From Verif Require Import GoStr RegexSpec Config Routing ConfigSpec ConfigProofs SteerSpec SteerProofs.
Import ListNotations.
Local Open Scope string_scope.

(** C17: the host and port that a request goes to.  They are those of the server unless the transform is "/" and
    text follows the route path directly. *)
Theorem C17_exactly_partial : forall r u uri hp,
  plain_server u -> (exists x, uri = "/" ++ x) -> (exists x, r_path r = "/" ++ x) ->
  r_transform r = "" \/ (exists x, r_transform r = "/" ++ x) ->
  (host_port (resolve_upstream_uri r u uri) hp <->
   (hp = server_of u /\ (r_transform r = "/" -> safe_removal (r_path r) uri)) \/
   (r_transform r = "/" /\ exists seg, glued (r_path r) uri seg /\ renamed (server_of u) seg hp)).
Proof. exact steer_exactly. Qed.
Print Assumptions C17_exactly_partial.

(** A client can send requests to any host, on every route with this transform. *)
Theorem C17_anywhere : forall r u hp, plain_server u -> (exists x, r_path r = "/" ++ x) -> r_transform r = "/" ->
  no_chars ("@" :: delims)%char hp -> host_port (resolve_upstream_uri r u (r_path r ++ "@" ++ hp ++ "/")) hp.
Proof. exact steer_anywhere. Qed.
Print Assumptions C17_anywhere.

(** A digit too many is another port. *)
Example C17_exactly_case : plain_server ssrf_url /\ glued "/mse6" "/mse61/x" "1" /\ renamed (server_of ssrf_url) "1" "localhost:600831" /\
  resolve_upstream_uri ssrf_route ssrf_url "/mse61/x" = "http://localhost:600831/x".
Proof.
  split; [exact (proj1 steer_refuted)|]. split.
  - exists "/x". split; [reflexivity|]. split; [discriminate|]. split; [intros c [<-|[<-|[<-|[]]]]; reflexivity|].
    right. exists "/"%char, "x". split; [now left|reflexivity].
  - split; [left; split; [reflexivity|vm_compute; reflexivity]|vm_compute; reflexivity].
Qed.
