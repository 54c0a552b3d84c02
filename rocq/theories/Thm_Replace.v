(** What a transform does, for all paths (C16). *)
From Coq Require Import String Ascii List Bool NArith.
From Verif Require Import GoStr Regex RegexSpec Config Routing ConfigSpec ConfigProofs ReplaceSpec ReplaceProofs.
Import ListNotations.
Local Open Scope string_scope.

(** C16: where the text of the path is first in the URI it is replaced, wherever that is; what the path matches as
    an expression plays no part. *)
Theorem C16_text_partial : forall r u uri, r_transform r <> "" ->
  (not_in (r_path r) uri /\ resolve_upstream_uri r u uri = url_string u ++ uri) \/
  (exists a b, first_in (r_path r) uri a b /\
    resolve_upstream_uri r u uri = url_string u ++ a ++ (if String.eqb (r_transform r) "/" then "" else r_transform r) ++ b).
Proof. exact transform_any. Qed.
Print Assumptions C16_text_partial.

(** So the transform of a route is without effect on all URIs that lack some character of its path. *)
Theorem C16_never : forall r u uri c, r_transform r <> "" -> has_char c (r_path r) = true -> has_char c uri = false ->
  resolve_upstream_uri r u uri = url_string u ++ uri.
Proof. exact transform_never. Qed.
Print Assumptions C16_never.

Example C16_text_case : match_uri regex_route "/v1/x" = true /\ has_char "[" (r_path regex_route) = true /\
  resolve_upstream_uri regex_route ssrf_url "/v1/x" = "http://localhost:60083/v1/x" /\
  first_in "/b" "/a/b/b" "/a" "/b".
Proof.
  split; [vm_compute; reflexivity|]. split; [reflexivity|]. split; [vm_compute; reflexivity|]. split; [reflexivity|].
  intros a' b' E. destruct a' as [|c1 [|c2 a']]; cbn in E |- *; try (injection E; discriminate); try discriminate; repeat apply le_n_S; apply le_0_n.
Qed.
