(** Lemmas for Thm_Credentials. *)
From Coq Require Import String Ascii List Bool ZArith NArith Lia.
From Verif Require Import GoStr Regex RegexSpec Header HeaderSpec Policy Config ConfigSpec ConfigProofs Routing Exchange ExchangeProofs Jwt JwtSpec JwtProofs JwtCases Machine Handler HandlerSpec HandlerProofs HandlerCases CredentialsSpec.
Import ListNotations.
Local Open Scope string_scope.

(** The verdict is about the second word. *)
Lemma second_word : forall L now j auth auth' token, bearer auth token -> bearer auth' token -> validate_jwt L now j auth = validate_jwt L now j auth'.
Proof.
  intros L now j auth auth' token H H'. apply bearer_split in H, H'. destruct H as (s & r & E). destruct H' as (s' & r' & E').
  unfold validate_jwt. now rewrite E, E'.
Qed.

Lemma get_first : forall h, get "Authorization" h = match values "Authorization" h with v :: _ => v | [] => "" end.
Proof. intros h. reflexivity. Qed.

Lemma sent_first : forall so srt cfg0 cfg E L nr ch i c r, in_use so srt cfg0 cfg -> canonical_keys (q_header (i_req i)) ->
  serve E L nr cfg ch i = Upstream c -> select_route (c_routes cfg) (q_raw_uri (i_req i)) = Some r -> r_jwt r <> "" ->
  authorizations (c_request c) = values "Authorization" (q_header (i_req i)) /\
  exists j v others token, lookup (r_jwt r) (c_jwt cfg) = Some (Some j) /\ authorizations (c_request c) = v :: others /\ bearer v token /\
    fst (validate_jwt L (ch_now ch) j ("Bearer " ++ token)) = Valid.
Proof.
  intros so srt cfg0 cfg E L nr ch i c r Hu Hc H Hr Hj. unfold serve in H. destruct (mux_serve _ i); try discriminate H. unfold proxy_handler in H.
  destruct (negb (validate _)); [destruct (w_too_large _); discriminate H|]. rewrite Hr in H.
  assert (Hh : has_jwt r = true) by (unfold has_jwt; destruct (String.eqb_spec (r_jwt r) ""); [congruence|reflexivity]). rewrite Hh in H.
  destruct (check_jwt L cfg (ch_now ch) r (get "Authorization" (q_header (i_req i)))) eqn:V; try discriminate H.
  destruct (map_url (ch_label ch) cfg r); try discriminate H. injection H as <-. cbn [c_request]. unfold authorizations.
  rewrite headers_upstream by exact Hc. cbn [String.eqb Ascii.eqb Bool.eqb existsb never_copied]. split; [reflexivity|].
  unfold check_jwt in V. destruct (lookup (r_jwt r) (c_jwt cfg)) as [[j|]|]; [|destruct (split " " _) as [|? [|? ?]]; discriminate V|destruct (split " " _) as [|? [|? ?]]; discriminate V].
  destruct (verdict_bearer L (ch_now ch) j (get "Authorization" (q_header (i_req i)))) as [token Hb]; [now rewrite V|].
  rewrite get_first in Hb, V. destruct (values "Authorization" (q_header (i_req i))) as [|v others] eqn:Ev.
  - destruct Hb as (s & rest & _ & _ & F & _). destruct s; discriminate F.
  - exists j, v, others, token. split; [reflexivity|]. split; [reflexivity|]. split; [exact Hb|].
    rewrite (second_word L (ch_now ch) j ("Bearer " ++ token) v token); [exact V| |exact Hb]. apply bearer_of. now destruct Hb as (s & rest & _ & T & _).
Qed.

(** One field with one space *)
Lemma plain_credentials : forall scheme token, without " " scheme -> without " " token -> bearer (scheme ++ " " ++ token) token.
Proof.
  intros scheme token Hs Ht. exists scheme, "". rewrite append_nil_r. split; [exact Hs|]. split; [exact Ht|]. split; [reflexivity|now left].
Qed.

Lemma small_plain : forall s, small_letters s = "bearer" -> without " " s.
Proof.
  intros s H. assert (G : forall s, without " " (small_letters s) -> without " " s).
  { clear. induction s as [|c s IH]; cbn [small_letters without]; [trivial|]. intros [N T]. split; [|now apply IH]. intros ->. apply N. reflexivity. }
  apply G. rewrite H. cbn. repeat split; discriminate.
Qed.

Lemma sent_one : forall so srt cfg0 cfg E L nr ch i c r scheme token, in_use so srt cfg0 cfg -> canonical_keys (q_header (i_req i)) ->
  serve E L nr cfg ch i = Upstream c -> select_route (c_routes cfg) (q_raw_uri (i_req i)) = Some r -> r_jwt r <> "" ->
  values "Authorization" (q_header (i_req i)) = [scheme ++ " " ++ token] -> small_letters scheme = "bearer" -> token <> "" -> without " " token ->
  exists j, lookup (r_jwt r) (c_jwt cfg) = Some (Some j) /\ authorizations (c_request c) = [scheme ++ " " ++ token] /\ credentials token (scheme ++ " " ++ token) /\
    fst (validate_jwt L (ch_now ch) j ("Bearer " ++ token)) = Valid.
Proof.
  intros so srt cfg0 cfg E L nr ch i c r scheme token Hu Hc H Hr Hj Hv Hs Hn Ht.
  destruct (sent_first so srt cfg0 cfg E L nr ch i c r Hu Hc H Hr Hj) as (Ea & j & v & others & t & El & Ev & Hb & Va).
  rewrite Ea, Hv in Ev. injection Ev as <- <-. rewrite Hv in Ea.
  pose proof (bearer_unique _ _ _ Hb (plain_credentials scheme token (small_plain scheme Hs) Ht)) as ->.
  exists j. split; [exact El|]. split; [exact Ea|]. split; [|exact Va]. split; [exact Hn|]. split; [exact Ht|]. exists scheme, 0. split; [exact Hs|reflexivity].
Qed.

(** More than one space makes an empty token. *)
Lemma spaces_empty : forall scheme n rest, without " " scheme -> bearer (scheme ++ spaces (S (S n)) ++ rest) "".
Proof.
  intros scheme n rest Hs. exists scheme, (" " ++ spaces n ++ rest). split; [exact Hs|]. split; [exact I|]. split; [reflexivity|]. right. now eexists.
Qed.

Lemma spaces_refused : forall L now j scheme n token, small_letters scheme = "bearer" -> honest L ->
  In (j_alg j) signing -> (lib_signatures L "" = None) ->
  fst (validate_jwt L now j (scheme ++ spaces (S (S n)) ++ token)) = Crash.
Proof.
  intros L now j scheme n token Hs Hl Ha He.
  rewrite (second_word L now j _ (scheme ++ spaces 2 ++ "") "" (spaces_empty scheme n token (small_plain scheme Hs)) (spaces_empty scheme 0 "" (small_plain scheme Hs))).
  apply (JwtProofs.crash_iff L now j (scheme ++ spaces 2 ++ "") Hl Ha). exists "". split; [|exact He]. exact (spaces_empty scheme 0 "" (small_plain scheme Hs)).
Qed.
