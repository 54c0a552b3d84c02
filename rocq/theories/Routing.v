(** route.go, and the upstream URI of proxy.go. *)
From Coq Require Import String Ascii List Bool ZArith.
From Verif Require Import GoStr Regex Policy Config.
Import ListNotations.
Local Open Scope string_scope.

(** route.go:35-44.  A route whose expression is not compiled is compiled on the fly; an error
    there counts as no match. *)
Definition match_uri (r : route) (uri : string) : bool :=
  match r_regex r with
  | Some x => match_string x uri
  | None => match re_compile ("^" ++ r_path r) with Some x => match_string x uri | None => false end
  end.

(** proxyhandler.go:52-53 and 66: the first route that matches. *)
Definition select_route (rs : list route) (uri : string) : option route :=
  List.find (fun r => match_uri r uri) rs.

(** Result of mapURL: a server and a label, no server, or an index out of range panic
    (route.go:81-83 on an empty slice that is not nil). *)
Inductive mapped := Mapped (u : url) (label : string) | Unmapped | MapPanic.

(** route.go:61-75: first mapping, in order, that carries the label. *)
Fixpoint first_labelled (label : string) (ms : list resource_mapping) : option url :=
  match ms with
  | [] => None
  | m :: ms' => if mem_str label (rm_labels m) then Some (rm_url m) else first_labelled label ms'
  end.

(** route.go:47-92.  [choose] is resolveLabel of the named policy with the dice of this request; an
    unknown policy is the empty one. *)
Definition map_url {J} (choose : fpolicy -> string) (c : config J) (r : route) : mapped :=
  match lookup (r_resource r) (c_resources c) with
  | None | Some None => Unmapped
  | Some (Some ms) =>
      if negb (String.eqb (r_policy r) "") then
        let label := choose (match lookup (r_policy r) (c_policies c) with Some p => p | None => [] end) in
        match first_labelled label ms with Some u => Mapped u label | None => Unmapped end
      else match ms with m :: _ => Mapped (rm_url m) "default" | [] => MapPanic end
  end.

(** proxy.go:129-139; [uri] is Dwn.URI. *)
Definition resolve_upstream_uri (r : route) (u : url) (uri : string) : string :=
  if String.eqb (r_transform r) "" then url_string u ++ uri
  else
    let t := if String.eqb (r_transform r) "/" then "" else r_transform r in
    url_string u ++ replace_first uri (r_path r) t.
