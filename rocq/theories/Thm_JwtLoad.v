(** Which keys of a document come to be used, exactly (C44, C47). *)
From Coq Require Import String List Bool ZArith NArith.
From Verif Require Import GoStr Jwt JwtSpec JwtProofs JwtKeys JwtCases JwtLoadSpec JwtLoad.
Import ListNotations.
Local Open Scope string_scope.

(** C47, C44: what is found under a kid after a refresh is what was found before or, if that is nothing, the first
    usable key for that kid that no entry for another algorithm precedes. *)
Theorem C47_exactly_partial : forall pem kid0 j0 docs j ks j' err, reached pem kid0 j0 docs j -> In (j_alg j0) signing -> j_url j <> "" ->
  load_jwks (Some ks) j = Some (j', err) -> forall kid k, find_key (keys j') kid = Some k <->
    find_key (keys j) kid = Some k \/ (~ known j kid /\ first_entry (j_alg j0) kid k ks).
Proof. exact load_exactly. Qed.
Print Assumptions C47_exactly_partial.

(** Of three entries the first is for another key type, the second is used, the third has its kid. *)
Example C47_exactly_case : let ks := [Jwk "a" "RS256" (Some (KEc 256 9)); Jwk "a" "RS256" (Some (KRsa 7)); Jwk "a" "RS256" (Some (KRsa 8))] in
  first_entry "RS256" "a" (KRsa 7) ks /\
  find_key (keys (refresh (boot rs256 (Some doc_old)) ks)) "a" = Some (KRsa 7) /\ ~ known (boot rs256 (Some doc_old)) "a".
Proof.
  cbv zeta. split; [|split; [vm_compute; reflexivity|]].
  - apply fe_later; [reflexivity| |apply fe_here; [split; [reflexivity|split; [reflexivity|split; [|discriminate]]]|reflexivity]].
    + intros _ k' [_ [H [F _]]]. injection H as <-. destruct F as [[F _]|[[F _]|[F _]]]; discriminate.
    + exists "256". split; [now left|now left].
  - intros [k H]. vm_compute in H. destruct H as [H|[]]. discriminate.
Qed.
