(** C64: which ways of writing a path lead to its route. *)
From Coq Require Import String Ascii List Bool NArith.
From Verif Require Import GoStr Regex RegexSpec Config ConfigSpec ConfigProofs Routing Jwt JwtSpec Handler HandlerSpec HandlerProofs HandlerCases ConfineSpec ConfineProofs.
Import ListNotations.
Local Open Scope string_scope.

(** C64: an encoded URI gets the route of its path exactly if it has the path of that route, not encoded, in front. *)
Theorem C64_exactly_partial : forall so srt cfg0 cfg raw path, in_use so srt cfg0 cfg -> simple_routes cfg0 -> names_path raw path ->
  (select_route (c_routes cfg) raw = select_route (c_routes cfg) path <->
   forall r, select_route (c_routes cfg) path = Some r -> exists t, raw = r_path r ++ t).
Proof. exact same_route_exactly. Qed.
Print Assumptions C64_exactly_partial.

(** C64 fails for every path: where there is a route for "/", encoding the first character leads there. *)
Theorem C64_round : forall so srt cfg0 cfg c rest r0, in_use so srt cfg0 cfg -> simple_routes cfg0 ->
  In r0 (c_routes cfg0) -> r_path r0 = "/" -> has_char "%" rest = false -> has_char "?" rest = false ->
  names_path ("/" ++ encoded c ++ rest) ("/" ++ String c rest) /\
  exists r, select_route (c_routes cfg) ("/" ++ encoded c ++ rest) = Some r /\ r_path r = "/".
Proof. exact round_all. Qed.
Print Assumptions C64_round.

(** "/admin" is under a route with a token, "/%61dmin" is not, "/admin/%61" is. *)
Example C64_exactly_case : in_use key_source isort_routes site live /\ simple_routes site /\
  (exists r0, In r0 (c_routes site) /\ r_path r0 = "/") /\ "/" ++ encoded "a" ++ "dmin" = "/%61dmin" /\
  names_path "/admin/%61" "/admin/a" /\
  option_map (fun r => r_jwt r) (select_route (c_routes live) "/admin/%61") = Some "auth" /\
  option_map (fun r => r_jwt r) (select_route (c_routes live) "/admin") = Some "auth" /\
  option_map (fun r => r_jwt r) (select_route (c_routes live) "/%61dmin") = Some "".
Proof.
  split; [exact live_in_use|]. split; [intros r H; repeat (destruct H as [<-|H]; [repeat split|]); contradiction|].
  split; [eexists; split; [left; reflexivity|reflexivity]|]. split; [reflexivity|].
  split; [exists "/admin/%61", ""; repeat split; now left|]. split; [vm_compute; reflexivity|]. split; vm_compute; reflexivity.
Qed.
