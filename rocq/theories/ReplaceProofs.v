(** Lemmas for Thm_Replace. *)
From Coq Require Import String Ascii List Bool NArith Lia.
From Verif Require Import GoStr Regex RegexSpec Config Routing ConfigSpec ConfigProofs ReplaceSpec.
Import ListNotations.
Local Open Scope string_scope.

Lemma replace_first_in : forall p t s a b, first_in p s a b -> replace_first s p t = a ++ t ++ b.
Proof.
  intros p t s. induction s as [|c s IH]; intros a b [E M].
  - destruct a as [|d a]; [|discriminate]. cbn [append] in E |- *. rewrite E. apply replace_first_prefix.
  - destruct a as [|d a].
    + cbn [append] in E |- *. rewrite E. apply replace_first_prefix.
    + cbn [append] in E. injection E as <- E. cbn [replace_first]. destruct (String.prefix p (String c s)) eqn:F.
      * apply prefix_spec in F. destruct F as [rest F]. specialize (M "" rest F). cbn in M. lia.
      * cbn [append]. f_equal. apply IH. split; [exact E|]. intros a' b' E'. specialize (M (String c a') b').
        cbn [append String.length] in M. rewrite <- E' in M. specialize (M eq_refl). lia.
Qed.

Lemma replace_not_in : forall p t s, not_in p s -> replace_first s p t = s.
Proof.
  intros p t s. induction s as [|c s IH]; intros N.
  - cbn [replace_first]. destruct (String.prefix p "") eqn:F; [|reflexivity].
    apply prefix_spec in F. destruct F as [rest F]. exfalso. exact (N "" rest F).
  - cbn [replace_first]. destruct (String.prefix p (String c s)) eqn:F.
    + apply prefix_spec in F. destruct F as [rest F]. exfalso. exact (N "" rest F).
    + f_equal. apply IH. intros a b E. apply (N (String c a) b). cbn [append]. now rewrite <- E.
Qed.

(** One of the two is the case. *)
Lemma first_or_not : forall p s, not_in p s \/ exists a b, first_in p s a b.
Proof.
  intros p s. induction s as [|c s IH].
  - destruct (String.prefix p "") eqn:F.
    + right. apply prefix_spec in F. destruct F as [rest F]. exists "", rest. split; [exact F|]. intros a' b' _. cbn. lia.
    + left. intros a b E. destruct a; [|discriminate]. assert (G : String.prefix p "" = true) by (apply prefix_spec; exists b; exact E). congruence.
  - destruct (String.prefix p (String c s)) eqn:F.
    + right. apply prefix_spec in F. destruct F as [rest F]. exists "", rest. split; [exact F|]. intros a' b' _. cbn. lia.
    + assert (G : forall b, String c s <> p ++ b).
      { intros b E. assert (K : String.prefix p (String c s) = true) by (apply prefix_spec; exists b; exact E). congruence. }
      destruct IH as [N|[a [b [E M]]]].
      * left. intros a b E. destruct a as [|d a]; [exact (G b E)|]. cbn [append] in E. injection E as _ E. exact (N a b E).
      * right. exists (String c a), b. split; [cbn [append]; now rewrite <- E|]. intros a' b' E'.
        destruct a' as [|d a']; [exfalso; exact (G b' E')|]. cbn [append] in E'. injection E' as _ E'. specialize (M a' b' E'). cbn [String.length]. lia.
Qed.

Lemma transform_any : forall r u uri, r_transform r <> "" ->
  (not_in (r_path r) uri /\ resolve_upstream_uri r u uri = url_string u ++ uri) \/
  (exists a b, first_in (r_path r) uri a b /\
    resolve_upstream_uri r u uri = url_string u ++ a ++ (if String.eqb (r_transform r) "/" then "" else r_transform r) ++ b).
Proof.
  intros r u uri H. unfold resolve_upstream_uri. destruct (String.eqb_spec (r_transform r) ""); [contradiction|].
  destruct (first_or_not (r_path r) uri) as [N|[a [b F]]].
  - left. split; [exact N|]. now rewrite replace_not_in.
  - right. exists a, b. split; [exact F|]. now rewrite (replace_first_in _ _ _ _ _ F).
Qed.

(** A path with a character that URIs do not have is never replaced. *)
Lemma has_char_part : forall c a p b, has_char c p = true -> has_char c (a ++ p ++ b) = true.
Proof. intros c a p b H. rewrite !has_char_app, H. cbn [orb]. apply orb_true_r. Qed.

Lemma transform_never : forall r u uri c, r_transform r <> "" -> has_char c (r_path r) = true -> has_char c uri = false ->
  resolve_upstream_uri r u uri = url_string u ++ uri.
Proof.
  intros r u uri c H P U. destruct (transform_any r u uri H) as [[_ E]|[a [b [[E _] _]]]]; [exact E|].
  exfalso. rewrite E, has_char_part in U by exact P. discriminate.
Qed.
