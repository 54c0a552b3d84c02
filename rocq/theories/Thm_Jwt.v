(** Tokens and keys (C40 to C48, C65).

    [reached pem kid0 j0 docs j] says that [j] is the jwt definition [j0] after a successful boot and any
    number of refreshes, which loaded [docs].  [L] is what jwx answers about tokens, cryptography
    included. *)
From Coq Require Import String Ascii List Bool ZArith NArith.
From Verif Require Import GoStr Jwt JwtSpec JwtProofs JwtKeys JwtCases JwksRate JwksRateSpec JwksRateProofs.
From Verif Require KidSpec.
Import ListNotations.
Local Open Scope string_scope.

(** * Tokens *)

(** C40: a token is accepted if and only if a key verifies it and its dates are accepted, as they would
    be without signature ... *)
Theorem C40_accepted : forall pem kid0 j0 docs j L now auth token n, reached pem kid0 j0 docs j -> In (j_alg j0) signing -> honest L ->
  bearer auth token -> lib_signatures L token = Some (S n) ->
  (fst (validate_jwt L now j auth) = Valid <->
   (exists kid k c, In (kid, k) (keys j) /\ lib_verify L (j_alg j0) k token = Some c) /\ fst (validate_jwt L now (unsigned j) auth) = Valid).
Proof. exact accepted_exact. Qed.
Print Assumptions C40_accepted.

(** ... which for moderate skews means that they are in time (C41) ... *)
Theorem C40_in_time : forall pem kid0 j0 docs j L now auth token n skew c, reached pem kid0 j0 docs j -> In (j_alg j0) signing -> honest L ->
  bearer auth token -> lib_signatures L token = Some (S n) -> skew_is j skew -> moderate now skew -> lib_parse L token = Some c -> dated c ->
  (fst (validate_jwt L now j auth) = Valid <->
   (exists kid k c, In (kid, k) (keys j) /\ lib_verify L (j_alg j0) k token = Some c) /\ in_time now skew c).
Proof. exact accepted_moderate. Qed.
Print Assumptions C40_in_time.

(** ... and the kid plays no part in it: tokens that differ in nothing else are treated alike. *)
Theorem C40_kid : forall L now j auth auth' token token', bearer auth token -> bearer auth' token' ->
  lib_signatures L token = lib_signatures L token' -> lib_parse L token = lib_parse L token' ->
  (forall a k, lib_verify L a k token = lib_verify L a k token') ->
  fst (validate_jwt L now j auth) = fst (validate_jwt L now j auth').
Proof. exact kid_irrelevant. Qed.
Print Assumptions C40_kid.

Example C40_case : fst (validate_jwt (small no_dates) 1600000000 (boot rs256 (Some doc_old)) "Bearer old") = Valid /\
  fst (validate_jwt (small no_dates) 1600000000 (boot rs256 (Some doc_old)) "Bearer new") = Invalid.
Proof. split; vm_compute; reflexivity. Qed.

(** C41: accepted tokens are in time ... *)
Theorem C41_sound : forall pem kid0 j0 docs j L now auth token skew c, reached pem kid0 j0 docs j -> bearer auth token -> skew_is j skew -> (0 <= now)%Z ->
  fst (validate_jwt L now j auth) = Valid -> lib_parse L token = Some c -> dated c -> in_time now skew c.
Proof. exact in_time_of. Qed.
Print Assumptions C41_sound.

(** ... unless they expired in the year 1. *)
Theorem C41_year_1_refuted : exists pem kid0 j0 docs j L now auth token c skew, reached pem kid0 j0 docs j /\ In (j_alg j0) signing /\ honest L /\
  bearer auth token /\ skew_is j skew /\ lib_parse L token = Some c /\ (0 <= now)%Z /\ ~ in_time now skew c /\ fst (validate_jwt L now j auth) = Valid.
Proof. exact year_1_accepted. Qed.
Print Assumptions C41_year_1_refuted.

(** Tokens in time are accepted for moderate skews ... *)
Theorem C41_complete_partial : forall pem kid0 j0 docs j L now auth token n skew kid k c, reached pem kid0 j0 docs j -> In (j_alg j0) signing -> honest L ->
  bearer auth token -> lib_signatures L token = Some (S n) -> In (kid, k) (keys j) -> lib_verify L (j_alg j0) k token = Some c ->
  skew_is j skew -> moderate now skew -> in_time now skew c -> fst (validate_jwt L now j auth) = Valid.
Proof. exact dates_not_rejected. Qed.
Print Assumptions C41_complete_partial.

(** ... but not for large ones: the guard of proxy.go:668 compares seconds with milliseconds, and the
    shift overflows. *)
Theorem C41_unit_refuted : exists skew now c, c41_fails skew now c /\ (0 <= skew /\ skew * 1000000000 <= int64_max)%Z.
Proof. exists 2000000%Z, 1600000000%Z, (Claims (Some 1600000010%Z) None None). split; [exact skew_unit|split; discriminate]. Qed.
Print Assumptions C41_unit_refuted.

Theorem C41_overflow_refuted : exists skew now c, c41_fails skew now c /\ cl_iat c = None /\ cl_nbf c = None.
Proof. exists 18446744074%Z, 1600000000%Z, (Claims None None (Some 1599999990%Z)). split; [exact skew_overflow|split; reflexivity]. Qed.
Print Assumptions C41_overflow_refuted.

(** With the default skew of 120 seconds, a token expired a minute ago is accepted, two minutes ago not. *)
Example C41_case :
  fst (validate_jwt (small (Claims None None (Some 1599999940%Z))) 1600000000 (boot rs256 (Some doc_old)) "Bearer old") = Valid /\
  fst (validate_jwt (small (Claims None None (Some 1599999880%Z))) 1600000000 (boot rs256 (Some doc_old)) "Bearer old") = Invalid.
Proof. split; vm_compute; reflexivity. Qed.

(** C42: the key that verified an accepted token fits the configured algorithm and is the configured
    one or was published for this algorithm ... *)
Theorem C42_key : forall pem kid0 j0 docs j L now auth token, reached pem kid0 j0 docs j -> In (j_alg j0) signing ->
  bearer auth token -> fst (validate_jwt L now j auth) = Valid ->
  exists kid k c, In (kid, k) (keys j) /\ lib_verify L (j_alg j0) k token = Some c /\ fits (j_alg j0) k /\
    ((j_key j0 <> "" /\ stands_for pem j0 k) \/ published docs (j_alg j0) kid k).
Proof. exact accepted_key. Qed.
Print Assumptions C42_key.

(** ... tokens without signature are only accepted for algorithm none ... *)
Theorem C42_unsigned : forall pem kid0 j0 docs j L now auth token, reached pem kid0 j0 docs j -> bearer auth token ->
  lib_signatures L token = Some 0 -> fst (validate_jwt L now j auth) = Valid -> j_alg j0 = "none".
Proof. exact no_signature. Qed.
Print Assumptions C42_unsigned.

(** ... and it does not matter whether a token verifies under another algorithm or with a key that does
    not fit. *)
Theorem C42_other : forall pem kid0 j0 docs j L L' now auth, reached pem kid0 j0 docs j ->
  (forall t, lib_signatures L t = lib_signatures L' t) -> (forall t, lib_parse L t = lib_parse L' t) ->
  (forall k t, fits (j_alg j0) k -> lib_verify L (j_alg j0) k t = lib_verify L' (j_alg j0) k t) ->
  fst (validate_jwt L now j auth) = fst (validate_jwt L' now j auth).
Proof. exact other_algs_irrelevant. Qed.
Print Assumptions C42_other.

Example C42_case : reached no_pem "" rs256 [doc_old] (boot rs256 (Some doc_old)) /\
  fst (validate_jwt (small no_dates) 1600000000 (boot rs256 (Some doc_old)) "Bearer bare") = Invalid.
Proof. split; [exact rs256_reached|vm_compute; reflexivity]. Qed.

(** C43: a rejected token is answered 401 (see C39 for the response), unless it cannot be parsed ... *)
Theorem C43_parsed_partial : forall pem kid0 j0 docs j L now auth, reached pem kid0 j0 docs j -> honest L ->
  (forall token, bearer auth token -> lib_signatures L token <> None) -> fst (validate_jwt L now j auth) <> Valid ->
  fst (validate_jwt L now j auth) = Invalid.
Proof. exact not_valid_401. Qed.
Print Assumptions C43_parsed_partial.

(** ... in which case the handler panics, *)
Theorem C43_refuted : exists pem kid0 j0 docs j L now auth, reached pem kid0 j0 docs j /\ honest L /\
  fst (validate_jwt L now j auth) = Crash.
Proof. exact malformed_crash. Qed.
Print Assumptions C43_refuted.

(** and in no other case. *)
Theorem C43_crash_exactly : forall pem kid0 j0 docs j L now auth, reached pem kid0 j0 docs j -> honest L ->
  (fst (validate_jwt L now j auth) = Crash <-> In (j_alg j0) signing /\ exists token, bearer auth token /\ lib_signatures L token = None).
Proof. exact crash_exactly. Qed.
Print Assumptions C43_crash_exactly.

Example C43_case : fst (validate_jwt (small no_dates) 1600000000 (boot rs256 (Some doc_old)) "Bearer") = Invalid /\
  fst (validate_jwt (small no_dates) 1600000000 (boot rs256 (Some doc_old)) "Basic junk") = Crash.
Proof. split; vm_compute; reflexivity. Qed.

(** * Keys *)

(** C44 fails: a token signed with the key newly published under a known kid, which it names, is rejected
    without starting another refresh ... *)
Theorem C44_refuted : exists pem kid0 j0 docs j ks j' L now kid k token, reached pem kid0 j0 docs j /\ honest L /\
  known j kid /\ load_jwks (Some ks) j = Some (j', false) /\ ks = [Jwk kid (j_alg j0) (Some k)] /\ fits (j_alg j0) k /\
  find_key (keys j') kid <> Some k /\ lib_verify L (j_alg j0) k token <> None /\ KidSpec.names_kid token kid /\ bearer ("Bearer " ++ token) token /\
  fst (validate_jwt L now j' ("Bearer " ++ token)) = Invalid /\ refresh_triggered j' (snd (validate_jwt L now j' ("Bearer " ++ token))) = false.
Proof. exact rotation_fails. Qed.
Print Assumptions C44_refuted.

(** ... because a refresh never changes what is known under a kid. *)
Theorem C44_kept : forall pem kid0 j0 docs j doc j' err kid, reached pem kid0 j0 docs j -> load_jwks doc j = Some (j', err) ->
  known j kid -> (forall k, In (kid, k) (keys j') <-> In (kid, k) (keys j)) /\ find_key (keys j') kid = find_key (keys j) kid.
Proof. exact known_kid_kept. Qed.
Print Assumptions C44_kept.

(** What holds: keys published under new kids are found. *)
Theorem C44_new_kid_partial : forall pem kid0 j0 docs j ks j' d k, reached pem kid0 j0 docs j -> load_jwks (Some ks) j = Some (j', false) -> fresh_kids j ks ->
  In d ks -> jk_raw d = Some k -> fits (j_alg j0) k -> (forall s, k <> KSecret s) -> find_key (keys j') (jk_kid d) = Some k.
Proof. exact new_kid. Qed.
Print Assumptions C44_new_kid_partial.

Example C44_case : find_key (keys (refresh (boot rs256 (Some doc_old)) [Jwk "k2" "RS256" (Some (KRsa 2))])) "k2" = Some (KRsa 2) /\
  find_key (keys (refresh (boot rs256 (Some doc_old)) doc_new)) "k1" = Some (KRsa 1).
Proof. split; vm_compute; reflexivity. Qed.

(** C45 *)
Theorem C45_adds : forall pem kid0 j0 docs j doc j' err, reached pem kid0 j0 docs j -> load_jwks doc j = Some (j', err) ->
  j_alg j' = j_alg j0 /\ j_secret j' = j_secret j /\
  exists a, keys j' = (keys j ++ a)%list /\
    forall kid k, In (kid, k) a -> ~ known j kid /\ fits (j_alg j0) k /\ (forall s, k <> KSecret s) /\ published (delivered doc) (j_alg j0) kid k.
Proof. exact reached_extends. Qed.
Print Assumptions C45_adds.

Example C45_case : keys (refresh (boot rs256 (Some doc_old))
  [Jwk "k2" "RS256" (Some (KRsa 2)); Jwk "k3" "RS256" (Some (KSecret "s")); Jwk "k4" "HS256" (Some (KSecret "s")); Jwk "k5" "RS256" (Some (KRsa 5))]) =
  [("k1", KRsa 1); ("k2", KRsa 2)].
Proof. vm_compute. reflexivity. Qed.

(** C46 *)
Theorem C46_rate : forall now ls s, rate_exec (rate_init now) ls = Some s -> at_most_one s /\ ten_seconds_apart (r_starts s).
Proof. exact refresh_rate. Qed.
Print Assumptions C46_rate.

(** Refreshes do go on. *)
Theorem C46_possible : forall s, r_locked s = false ->
  exists s', rate_exec s [Call; Run (length (r_gs s))] = Some s' /\ r_starts s' = r_now s :: r_starts s.
Proof. exact refresh_possible. Qed.
Print Assumptions C46_possible.

(** The lock is held exactly while a refresh is running ... *)
Theorem C46_lock : forall now ls s, rate_exec (rate_init now) ls = Some s ->
  (r_locked s = true <-> exists i p, nth_error (r_gs s) i = Some p /\ refreshing p).
Proof. exact lock_exactly. Qed.
Print Assumptions C46_lock.

(** ... and a refresh that is running can end by itself, ten seconds after its fetch at the latest. *)
Theorem C46_ends : forall now ls s i p, rate_exec (rate_init now) ls = Some s -> nth_error (r_gs s) i = Some p -> refreshing p ->
  exists ls' s', (forall l, In l ls' -> l = Run i \/ exists d, l = Pass d) /\ rate_exec s ls' = Some s' /\ (r_now s' <= r_now s + 10000000000)%Z /\
    nth_error (r_gs s') i = Some GEnd /\ r_locked s' = false /\ r_starts s' = r_starts s.
Proof. exact refresh_ends. Qed.
Print Assumptions C46_ends.

Example C46_case : option_map r_starts (rate_exec (rate_init 0) three_refreshes) = Some [10000000000%Z; 0%Z; 0%Z].
Proof. vm_compute. reflexivity. Qed.

(** C47 fails for two keys with the same kid, or with none ... *)
Theorem C47_refuted : exists pem kid0 j0 ks j L now d k token, reached pem kid0 j0 [ks] j /\ honest L /\ In d ks /\
  jk_alg d = j_alg j0 /\ jk_raw d = Some k /\ fits (j_alg j0) k /\
  lib_verify L (j_alg j0) k token <> None /\ bearer ("Bearer " ++ token) token /\ fst (validate_jwt L now j ("Bearer " ++ token)) = Invalid.
Proof. exact duplicate_lost. Qed.
Print Assumptions C47_refuted.

(** ... and holds if the kids are new and all different; by C40 the keys then verify tokens. *)
Theorem C47_fresh_partial : forall j ks j', load_jwks (Some ks) j = Some (j', false) -> fresh_kids j ks ->
  forall d k, In d ks -> jk_raw d = Some k -> fits (j_alg j) k -> (forall s, k <> KSecret s) -> In (jk_kid d, k) (keys j').
Proof. exact all_usable. Qed.
Print Assumptions C47_fresh_partial.

Example C47_case : keys (boot rs256 (Some [Jwk "a" "RS256" (Some (KRsa 1)); Jwk "b" "RS256" None; Jwk "c" "RS256" (Some (KRsa 3))])) =
  [("a", KRsa 1); ("c", KRsa 3)].
Proof. vm_compute. reflexivity. Qed.

(** C48 *)
Theorem C48_accepted : forall pem kid doc j, (exists j', validate_jwt_def pem kid doc j = ROk j') <-> acceptable pem doc j.
Proof. exact acceptable_spec. Qed.
Print Assumptions C48_accepted.

Theorem C48_result : forall pem kid doc j j', blank j -> validate_jwt_def pem kid doc j = ROk j' ->
  j_alg j' = j_alg j /\ (In (j_alg j) signing -> keys j' <> []) /\ (forall kid k, In (kid, k) (keys j') -> fits (j_alg j) k) /\
  j_skew j' = (if String.eqb (j_skew j) "" then "120" else j_skew j).
Proof. exact accepted_result. Qed.
Print Assumptions C48_result.

(** Keys in the configuration never crash the boot. *)
Theorem C48_no_panic : forall pem kid doc j, pem_contract pem j -> j_key j <> "" -> validate_jwt_def pem kid doc j <> RPanic.
Proof. exact key_no_panic. Qed.
Print Assumptions C48_no_panic.

Example C48_case :
  validate_jwt_def (Some (PemBlock "PUBLIC KEY" (Some (KEc 256 7)) None), "") "ES256-1" None (bare_jwt "ES256" "pem" "" "") =
    ROk (with_ec [("ES256-1", KEc 256 7)] (bare_jwt "ES256" "pem" "" "120")) /\
  validate_jwt_def (Some (PemBlock "PUBLIC KEY" (Some (KEc 384 7)) None), "") "ES256-1" None (bare_jwt "ES256" "pem" "" "") = RErr.
Proof. split; vm_compute; reflexivity. Qed.

(** C65 fails: a published key that is marked ES256 without being an ECDSA key crashes the refresh, which
    runs in a goroutine of its own and so takes the process with it. *)
Theorem C65_refuted : exists pem kid0 j0 docs j doc, reached pem kid0 j0 docs j /\ j_url j <> "" /\ load_jwks (Some doc) j = None.
Proof. exact refresh_crashes. Qed.
Print Assumptions C65_refuted.

(** Exactly these documents crash it: for RSA definitions none does. *)
Theorem C65_exactly_partial : forall doc j, load_jwks doc j = None <->
  exists ks a d b, doc = Some ks /\ ks = (a ++ d :: b)%list /\ In (j_alg j) ["ES256"; "ES384"; "ES512"] /\ (forall x, In x (a ++ [d])%list -> jk_alg x = j_alg j) /\
    (forall x, In x a -> exists b n, jk_raw x = Some (KEc b n)) /\ (forall b n, jk_raw d <> Some (KEc b n)).
Proof. exact refresh_crash. Qed.
Print Assumptions C65_exactly_partial.

Example C65_case : load_jwks (Some doc_bad) (boot rs256 (Some doc_old)) <> None /\ load_jwks (Some doc_bad) (boot es256 (Some doc_ec)) = None.
Proof. split; vm_compute; [discriminate|reflexivity]. Qed.
