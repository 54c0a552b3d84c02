(** Cases for Thm_Jwt: a small library, definitions and documents, and the refutations. *)
From Coq Require Import String Ascii List Bool ZArith NArith Lia.
From Verif Require Import GoStr Jwt JwtSpec JwtProofs JwtKeys JwksRate JwksRateSpec JwksRateProofs.
From Verif Require KidSpec KidProofs.
Import ListNotations.
Local Open Scope string_scope.

(** Tokens with kid k1 and k9 in the header *)
Definition new_k1 : string := "eyJhbGciOiJSUzI1NiIsImtpZCI6ImsxIn0.e30.bmV3".
Definition old_k9 : string := "eyJraWQiOiJcdTAwNmI5IiwiYWxnIjoiUlMyNTYifQ.e30.b2xk".

(** Tokens "old" and [old_k9] are signed with RSA key 1, "new" and [new_k1] with RSA key 2, "bare" has no
    signature and "junk" is no token.  All tokens carry claims [c], and the short ones no kid. *)
Definition small_verify (c : claims) (alg : string) (k : key) (t : string) : option claims :=
  match k with
  | KRsa 1 => if String.eqb alg "RS256" && (String.eqb t "old" || String.eqb t old_k9) then Some c else None
  | KRsa 2 => if String.eqb alg "RS256" && (String.eqb t "new" || String.eqb t new_k1) then Some c else None
  | _ => None
  end.

Definition small (c : claims) : library :=
  Library (fun t => if String.eqb t "junk" then None else if String.eqb t "bare" then Some 0 else Some 1)
    (fun t => if String.eqb t "junk" then None else Some c) (small_verify c).

Lemma small_honest : forall c, honest (small c).
Proof.
  intros c alg k t c' H. cbn [small lib_verify lib_parse] in *. unfold small_verify in H.
  destruct k as [[|[[]|[]|]]| | |]; try discriminate;
    destruct (String.eqb alg "RS256"); cbn [andb] in H; try discriminate.
  all: destruct (String.eqb_spec t "junk") as [->|]; [discriminate H|].
  all: destruct (_ || _)%bool in H; [exact H|discriminate].
Qed.

Definition no_dates := Claims None None None.
Definition bare_jwt alg key url skew := Jwt "auth" alg key url [] [] [] skew 0.
Definition rs256 := bare_jwt "RS256" "" "http://keys" "".
Definition doc_old := [Jwk "k1" "RS256" (Some (KRsa 1))].
Definition doc_new := [Jwk "k1" "RS256" (Some (KRsa 2))].
Definition no_pem : option pem_block * string := (None, "").
Definition boot (j : jwt) (doc : option (list jwk)) : jwt := match validate_jwt_def no_pem "" doc j with ROk j' => j' | _ => j end.
Definition refresh (j : jwt) (doc : list jwk) : jwt := match load_jwks (Some doc) j with Some (j', _) => j' | None => j end.

Lemma bearer_of : forall t, without " " t -> bearer ("Bearer " ++ t) t.
Proof.
  intros t H. exists "Bearer", "". rewrite append_nil_r. split; [cbn; repeat split; discriminate|]. split; [exact H|].
  split; [reflexivity|]. now left.
Qed.

Ltac no_space := cbn; repeat split; discriminate.

Lemma rs256_reached : reached no_pem "" rs256 [doc_old] (boot rs256 (Some doc_old)).
Proof. apply (reached_boot no_pem "" rs256 (Some doc_old)); [repeat split; reflexivity|vm_compute; reflexivity]. Qed.

Lemma rs256_refreshed : reached no_pem "" rs256 [doc_new; doc_old] (refresh (boot rs256 (Some doc_old)) doc_new).
Proof.
  apply (reached_refresh no_pem "" rs256 [doc_old] (boot rs256 (Some doc_old)) (Some doc_new) _ false rs256_reached);
    [discriminate|vm_compute; reflexivity].
Qed.

(** A definition with some skew. *)
Definition skewed s := bare_jwt "RS256" "" "http://keys" s.

Lemma skewed_reached : forall s, validate_jwt_def no_pem "" (Some doc_old) (skewed s) = ROk (boot (skewed s) (Some doc_old)) ->
  reached no_pem "" (skewed s) [doc_old] (boot (skewed s) (Some doc_old)).
Proof. intros s H. apply (reached_boot no_pem "" (skewed s) (Some doc_old)); [repeat split; reflexivity|exact H]. Qed.

(** C41: with a skew of 2000000 seconds (23 days) a token issued ten seconds from now is rejected. *)
Definition c41_fails (skew : Z) (now : Z) (c : claims) : Prop :=
  exists pem kid0 j0 docs j L auth token, reached pem kid0 j0 docs j /\ In (j_alg j0) signing /\ honest L /\ bearer auth token /\
    lib_signatures L token = Some 1 /\ skew_is j skew /\
    (exists kid k, In (kid, k) (keys j) /\ lib_verify L (j_alg j0) k token = Some c) /\
    dated c /\ in_time now skew c /\ fst (validate_jwt L now j auth) = Invalid.

Lemma c41_fails_with : forall s skew now c, validate_jwt_def no_pem "" (Some doc_old) (skewed s) = ROk (boot (skewed s) (Some doc_old)) ->
  skew_is (boot (skewed s) (Some doc_old)) skew -> In ("k1", KRsa 1) (keys (boot (skewed s) (Some doc_old))) -> dated c -> in_time now skew c ->
  fst (validate_jwt (small c) now (boot (skewed s) (Some doc_old)) "Bearer old") = Invalid -> c41_fails skew now c.
Proof.
  intros s skew now c H1 H2 H3 H4 H5 H6.
  exists no_pem, "", (skewed s), [doc_old], (boot (skewed s) (Some doc_old)), (small c), "Bearer old", "old".
  split; [now apply skewed_reached|]. split; [now left|]. split; [apply small_honest|]. split; [apply (bearer_of "old"); no_space|].
  split; [reflexivity|]. split; [exact H2|]. split; [exists "k1", (KRsa 1); split; [exact H3|reflexivity]|]. auto.
Qed.

Lemma skew_unit : c41_fails 2000000 1600000000 (Claims (Some 1600000010%Z) None None).
Proof.
  apply (c41_fails_with "2000000").
  - vm_compute. reflexivity.
  - apply NumberProofs.atoi_iff. vm_compute. reflexivity.
  - vm_compute. now left.
  - repeat split; discriminate.
  - repeat split; intros t H; try discriminate. injection H as <-. lia.
  - vm_compute. reflexivity.
Qed.

(** C41: a skew of 18446744074 seconds overflows to none. *)
Lemma skew_overflow : c41_fails 18446744074 1600000000 (Claims None None (Some 1599999990%Z)).
Proof.
  apply (c41_fails_with "18446744074").
  - vm_compute. reflexivity.
  - apply NumberProofs.atoi_iff. vm_compute. reflexivity.
  - vm_compute. now left.
  - repeat split; discriminate.
  - repeat split; intros t H; try discriminate. injection H as <-. lia.
  - vm_compute. reflexivity.
Qed.

(** C41: a token that expired in the first second of year 1 is accepted. *)
Lemma year_1_accepted : exists pem kid0 j0 docs j L now auth token c skew, reached pem kid0 j0 docs j /\ In (j_alg j0) signing /\ honest L /\
  bearer auth token /\ skew_is j skew /\ lib_parse L token = Some c /\ (0 <= now)%Z /\ ~ in_time now skew c /\ fst (validate_jwt L now j auth) = Valid.
Proof.
  exists no_pem, "", rs256, [doc_old], (boot rs256 (Some doc_old)), (small (Claims None None (Some year_1))), 1600000000%Z, "Bearer old", "old", (Claims None None (Some year_1)), 120%Z.
  split; [exact rs256_reached|]. split; [now left|]. split; [apply small_honest|]. split; [apply (bearer_of "old"); no_space|].
  split; [apply NumberProofs.atoi_iff; reflexivity|]. split; [reflexivity|]. split; [lia|]. split.
  - intros [H _]. specialize (H _ eq_refl). unfold year_1 in H. lia.
  - vm_compute. reflexivity.
Qed.

(** C43 *)
Lemma malformed_crash : exists pem kid0 j0 docs j L now auth, reached pem kid0 j0 docs j /\ honest L /\
  fst (validate_jwt L now j auth) = Crash.
Proof.
  exists no_pem, "", rs256, [doc_old], (boot rs256 (Some doc_old)), (small no_dates), 1600000000%Z, "Bearer junk".
  split; [exact rs256_reached|]. split; [apply small_honest|]. vm_compute. reflexivity.
Qed.

(** C44: key 2 is published under kid k1, but the proxy goes on with key 1. *)
Lemma rotation_fails : exists pem kid0 j0 docs j ks j' L now kid k token, reached pem kid0 j0 docs j /\ honest L /\
  known j kid /\ load_jwks (Some ks) j = Some (j', false) /\ ks = [Jwk kid (j_alg j0) (Some k)] /\ fits (j_alg j0) k /\
  find_key (keys j') kid <> Some k /\ lib_verify L (j_alg j0) k token <> None /\ KidSpec.names_kid token kid /\ bearer ("Bearer " ++ token) token /\
  fst (validate_jwt L now j' ("Bearer " ++ token)) = Invalid /\ refresh_triggered j' (snd (validate_jwt L now j' ("Bearer " ++ token))) = false.
Proof.
  exists no_pem, "", rs256, [doc_old], (boot rs256 (Some doc_old)), doc_new, (refresh (boot rs256 (Some doc_old)) doc_new), (small no_dates), 1600000000%Z, "k1", (KRsa 2), new_k1.
  split; [exact rs256_reached|]. split; [apply small_honest|]. split; [exists (KRsa 1); vm_compute; now left|].
  split; [vm_compute; reflexivity|]. split; [reflexivity|].
  split; [exists "256"; split; [now left|now left]|].
  split; [vm_compute; discriminate|]. split; [discriminate|].
  split; [apply KidProofs.kid_iff; [discriminate|vm_compute; reflexivity]|]. split; [apply (bearer_of new_k1); no_space|].
  split; vm_compute; reflexivity.
Qed.

(** C47: two keys without kid, of which the second is lost. *)
Definition doc_two := [Jwk "" "RS256" (Some (KRsa 1)); Jwk "" "RS256" (Some (KRsa 2))].

Lemma duplicate_lost : exists pem kid0 j0 ks j L now d k token, reached pem kid0 j0 [ks] j /\ honest L /\ In d ks /\
  jk_alg d = j_alg j0 /\ jk_raw d = Some k /\ fits (j_alg j0) k /\
  lib_verify L (j_alg j0) k token <> None /\ bearer ("Bearer " ++ token) token /\ fst (validate_jwt L now j ("Bearer " ++ token)) = Invalid.
Proof.
  exists no_pem, "", rs256, doc_two, (boot rs256 (Some doc_two)), (small no_dates), 1600000000%Z, (Jwk "" "RS256" (Some (KRsa 2))), (KRsa 2), "new".
  split; [apply (reached_boot no_pem "" rs256 (Some doc_two)); [repeat split; reflexivity|vm_compute; reflexivity]|].
  split; [apply small_honest|]. split; [right; now left|]. split; [reflexivity|]. split; [reflexivity|].
  split; [exists "256"; split; [now left|now left]|]. split; [discriminate|]. split; [apply (bearer_of "new"); no_space|].
  vm_compute. reflexivity.
Qed.

(** C65: an RSA key marked ES256. *)
Definition es256 := bare_jwt "ES256" "" "http://keys" "30".
Definition doc_ec := [Jwk "e1" "ES256" (Some (KEc 256 7))].
Definition doc_bad := [Jwk "e2" "ES256" (Some (KRsa 1))].

Lemma refresh_crashes : exists pem kid0 j0 docs j doc, reached pem kid0 j0 docs j /\ j_url j <> "" /\ load_jwks (Some doc) j = None.
Proof.
  exists no_pem, "", es256, [doc_ec], (boot es256 (Some doc_ec)), doc_bad.
  split; [apply (reached_boot no_pem "" es256 (Some doc_ec)); [repeat split; reflexivity|vm_compute; reflexivity]|].
  split; [discriminate|vm_compute; reflexivity].
Qed.

(** C46: three refreshes, the third ten seconds after the second. *)
Definition three_refreshes : list rlabel :=
  [Call; Run 0; Run 0; Run 0; Run 0; Run 0; Call; Run 1; Call; Run 2; Run 1; Run 1; Pass 10000000000; Run 1; Run 1; Run 1; Call; Run 3].
