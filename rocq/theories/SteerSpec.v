(** Where a request goes if its route path is removed (C17). *)
From Coq Require Import String Ascii List Bool NArith.
From Verif Require Import GoStr RegexSpec Config Routing ConfigSpec.
Import ListNotations.
Local Open Scope string_scope.

Definition server_of (u : url) : string := u_host u ++ ":" ++ itoa (u_port u).

(** What follows the route path directly, up to the next delimiter, is [seg]. *)
Definition glued (p uri seg : string) : Prop :=
  exists tail, uri = p ++ seg ++ tail /\ seg <> "" /\ no_chars delims seg /\ ends_authority tail.

(** Text written behind the name of a server, which so becomes [hp]: something longer, or what follows an @ *)
Definition renamed (server seg hp : string) : Prop :=
  (has_char "@" seg = false /\ hp = server ++ seg) \/ ((exists user, seg = user ++ "@" ++ hp) /\ has_char "@" hp = false).
