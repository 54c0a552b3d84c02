(** Proofs for C85: which tokens start a refresh of the keys. *)
From Coq Require Import String Ascii List Bool ZArith NArith Lia.
From Verif Require Import GoStr Kid Jwt JwtSpec JwtProofs JwtKeys.
From Verif Require KidSpec KidProofs.
Import ListNotations.
Local Open Scope string_scope.

Lemma load_keys_url : forall ks j err j' e, load_keys j ks err = Some (j', e) -> j_url j' = j_url j.
Proof.
  induction ks as [|d ks IH]; intros j err j' e H; cbn [load_keys] in H; [injection H as <- _; reflexivity|].
  repeat match type of H with
  | (if ?b then _ else _) = _ => destruct b
  | match ?x with _ => _ end = _ => destruct x
  end; try discriminate H; try (apply IH in H; exact H). injection H as <- _. reflexivity.
Qed.

Lemma load_jwks_url : forall doc j j' e, load_jwks doc j = Some (j', e) -> j_url j' = j_url j.
Proof.
  intros [[|d ks]|] j j' e H; unfold load_jwks in H; try (injection H as <- _; reflexivity).
  destruct (load_keys j (d :: ks) false) as [[j1 e1]|] eqn:E; [|discriminate H]. injection H as <- _. apply load_keys_url in E. exact E.
Qed.

Lemma parse_key_url : forall pem kid alg j j', parse_key pem kid alg j = ROk j' -> j_url j' = j_url j.
Proof.
  intros pem kid alg j j' H. unfold parse_key in H.
  repeat match type of H with
  | (if ?b then _ else _) = _ => destruct b
  | match ?x with _ => _ end = _ => destruct x
  end; try discriminate H; injection H as <-; reflexivity.
Qed.

Lemma validate_url : forall pem kid doc j j', validate_jwt_def pem kid doc j = ROk j' -> j_url j' = j_url j.
Proof.
  intros pem kid doc j j' H. unfold validate_jwt_def in H.
  assert (G : forall j1, j_url j1 = j_url j ->
    (if negb (String.eqb (j_key j1) "") then parse_key pem kid (accept_alg (j_alg j)) j1
        else if negb (String.eqb (j_url j1) "")
             then match load_jwks doc j1 with
                  | Some (j2, false) => ROk j2
                  | Some (_, true) => RErr
                  | None => RPanic
                  end
        else if negb (String.eqb (accept_alg (j_alg j)) "none") && String.eqb (j_key j) "" && String.eqb (j_url j) "" then RErr else ROk j1) = ROk j' -> j_url j' = j_url j).
  { intros j1 E1 K. destruct (negb _) in K; [apply parse_key_url in K; congruence|]. destruct (negb _) in K.
    - destruct (load_jwks doc j1) as [[j2 []]|] eqn:L; try discriminate K. injection K as <-. apply load_jwks_url in L. congruence.
    - destruct (_ && _)%bool in K; [discriminate K|]. injection K as <-. exact E1. }
  destruct (String.eqb (j_name j) ""); [discriminate H|]. do 4 (destruct (_ && _)%bool in H; [discriminate H|]).
  destruct (negb (String.eqb (j_skew j) "")).
  - destruct (atoi (j_skew j)) as [z|]; [|discriminate H]. destruct (Z.ltb z 0); [discriminate H|]. now apply (G j).
  - now apply (G (with_skew "120" j)).
Qed.

Lemma reached_url : forall pem kid0 j0 docs j, reached pem kid0 j0 docs j -> j_url j = j_url j0.
Proof.
  intros pem kid0 j0 docs j H. induction H as [doc j B V|docs j doc j' e R IH U L].
  - now apply validate_url in V.
  - apply load_jwks_url in L. congruence.
Qed.

Lemma find_none : forall ks kid, find_key ks kid = None <-> forall k, ~ In (kid, k) ks.
Proof.
  induction ks as [|[kid' x] ks IH]; intros kid; cbn [find_key]; [split; [intros _ k []|reflexivity]|].
  destruct (String.eqb_spec kid' kid) as [-> |N].
  - split; [discriminate|]. intros H. exfalso. apply (H x). now left.
  - rewrite IH. split; intros H k; [intros [E|I]; [injection E as -> _; now apply N|now apply (H k)]|intros I; apply (H k); now right].
Qed.

Lemma rotate_iff : forall L now j auth token, bearer auth token -> In (j_alg j) signing ->
  (snd (validate_jwt L now j auth) = true <->
   (exists n, lib_signatures L token = Some (S n)) /\ extract_kid token <> "" /\ find_key (keys_for (j_alg j) j) (extract_kid token) = None).
Proof.
  intros L now j auth token Hb Ha. apply bearer_split in Hb. destruct Hb as [s [r Hs]].
  destruct (accept_signing _ Ha) as [Ha1 Ha2]. unfold validate_jwt. rewrite Hs, Ha1, Ha2. unfold verify_signature.
  destruct (lib_signatures L token) as [[|n]|].
  - cbn [snd]. split; [discriminate|]. intros ((m & E) & _). discriminate E.
  - set (kid := extract_kid token). set (ks := keys_for (j_alg j) j).
    match goal with |- context[let (parsed, err) := ?x in Some (parsed, err, ?b)] => destruct x as [parsed err] end.
    cbn [snd]. destruct (String.eqb_spec kid "") as [E|E]; cbn [negb andb].
    + split; [discriminate|]. intros (_ & N & _). now destruct N.
    + destruct (find_key ks kid).
      * split; [discriminate|]. intros (_ & _ & X). discriminate X.
      * split; [|reflexivity]. intros _. split; [now exists n|]. now split.
  - cbn [snd]. split; [discriminate|]. intros ((m & E) & _). discriminate E.
Qed.

Lemma unsigned_rotate : forall L now j auth, ~ In (j_alg j) signing -> snd (validate_jwt L now j auth) = false.
Proof.
  intros L now j auth Ha. unfold validate_jwt. destruct (split " " auth) as [|s [|token r]]; try reflexivity.
  destruct (accept_cases (j_alg j)) as [H|[H|H]]; [now destruct Ha| |]; [rewrite H|rewrite H]; cbn; destruct (lib_parse L token); reflexivity.
Qed.

Lemma refresh_exactly : forall pem kid0 j0 docs j L now auth, reached pem kid0 j0 docs j ->
  (refresh_triggered j (snd (validate_jwt L now j auth)) = true <->
   In (j_alg j0) signing /\ j_url j0 <> "" /\ exists token n kid, bearer auth token /\ lib_signatures L token = Some (S n) /\
     kid <> "" /\ KidSpec.names_kid token kid /\ ~ known j kid).
Proof.
  intros pem kid0 j0 docs j L now auth R. pose proof (reached_url _ _ _ _ _ R) as U.
  assert (A : j_alg j = j_alg j0) by (destruct (reached_fit _ _ _ _ _ R) as [A _]; exact A).
  unfold refresh_triggered. rewrite andb_true_iff, negb_true_iff. rewrite U. split.
  - intros [H1 H2]. apply String.eqb_neq in H2. destruct (signing_dec (j_alg j)) as [Ha|Ha].
    2: { rewrite (unsigned_rotate L now j auth Ha) in H1. discriminate H1. }
    split; [now rewrite <- A|]. split; [exact H2|].
    destruct (split " " auth) as [|s [|token r]] eqn:Hs; [unfold validate_jwt in H1; rewrite Hs in H1; discriminate H1..|].
    assert (Hb := split_bearer _ _ _ _ Hs). apply (rotate_iff L now j auth token Hb Ha) in H1. destruct H1 as ((n & Hn) & Hk & Hf).
    exists token, n, (extract_kid token). split; [exact Hb|]. split; [exact Hn|]. split; [exact Hk|]. split; [now apply KidProofs.kid_iff|].
    rewrite find_none in Hf. rewrite (reached_keys _ _ _ _ _ R) in Hf by now rewrite <- A. intros (k & K). exact (Hf k K).
  - intros (Ha & Hu & token & n & kid & Hb & Hn & Hk & Hname & Hunk). split; [|now apply String.eqb_neq].
    apply KidProofs.kid_iff in Hname; [|exact Hk]. apply (rotate_iff L now j auth token Hb); [now rewrite A|].
    split; [now exists n|]. rewrite Hname. split; [exact Hk|]. apply find_none. intros k K. apply Hunk. exists k.
    rewrite <- (reached_keys _ _ _ _ _ R Ha). exact K.
Qed.
