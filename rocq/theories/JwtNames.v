(** Proofs for Thm_JwtNames: definitions of jwt are known by the names they have in the configuration. *)
From Coq Require Import String Ascii List Bool ZArith NArith Lia.
From Verif Require Import GoStr NumberSpec Header Policy Config ConfigSpec Exchange Jwt JwtSpec JwtProofs JwtKeys Machine Handler HandlerSpec Routing.
Import ListNotations.
Local Open Scope string_scope.

Lemma parse_key_name : forall pem kid alg j j', parse_key pem kid alg j = ROk j' -> j_name j' = j_name j.
Proof.
  intros pem kid alg j j' H. unfold parse_key in H.
  repeat match type of H with
  | ROk _ = _ => injection H as <-; reflexivity
  | RErr = _ => discriminate H
  | RPanic = _ => discriminate H
  | context [if ?b then _ else _] => destruct b
  | context [match ?x with _ => _ end] => destruct x
  end.
Qed.

Lemma validate_name : forall pem kid doc j j', validate_jwt_def pem kid doc j = ROk j' -> j_name j' = j_name j.
Proof.
  intros pem kid doc j j' H. destruct (validate_spec pem kid doc j _ H ltac:(discriminate)) as (_ & _ & V). pose proof (proj1 (with_default_fields j)) as N.
  inversion V as [E1 E2 E3 E4|r E1 E2 E3|r E1 E2 E3 E4]; subst.
  - exact N.
  - rewrite (parse_key_name _ _ _ _ _ (eq_sym E3)). exact N.
  - destruct (load_jwks doc (with_default j)) as [[j2 []]|] eqn:L; try discriminate E4. injection E4 as ->.
    destruct (load_jwks_loaded _ _ _ _ L) as (X & _). congruence.
Qed.

Lemma reached_name : forall pem kid j0 docs j, reached pem kid j0 docs j -> j_name j = j_name j0.
Proof.
  intros pem kid j0 docs j H. induction H as [doc j B V|docs j doc j' err R IH U L]; [exact (validate_name _ _ _ _ _ V)|].
  destruct (load_jwks_loaded _ _ _ _ L) as (X & _). congruence.
Qed.

Lemma in_use_named : forall so srt cfg0 cfg, in_use so srt cfg0 cfg -> forall n o, In (n, o) (c_jwt cfg) -> exists j, o = Some j /\ j_name j = n.
Proof.
  intros so srt cfg0 cfg H n o I. destruct H as (_ & _ & _ & _ & _ & _ & _ & _ & F). induction F as [|e0 e l l' (E & j0 & docs & j & _ & E2 & R) F IH]; [destruct I|].
  destruct I as [->|I]; [|exact (IH I)]. cbn [fst snd] in *. exists j. split; [exact E2|]. apply reached_name in R. rewrite R, E. reflexivity.
Qed.

Lemma checked_iff : forall so n j, (exists j', jwt_checked so n j = Some j') <->
  acceptable (so_pem so n) (so_doc so n) (Jwt n (j_alg j) (j_key j) (j_url j) (j_rsa j) (j_ec j) (j_secret j) (j_skew j) (j_count j)).
Proof.
  intros so n j. unfold jwt_checked. change (Jwt n _ _ _ _ _ _ _ _) with (named n j). rewrite <- (acceptable_spec _ (so_kid so n)).
  destruct (validate_jwt_def _ _ _ _) as [j'| |]; split; intros [x X]; try discriminate X; now exists j'.
Qed.
