(** What the claims about tokens and keys (C40 to C48) mean. *)
From Coq Require Import String Ascii List Bool ZArith NArith.
From Verif Require Import GoStr NumberSpec Jwt.
Import ListNotations.
Local Open Scope string_scope.

(** * Tokens *)

Fixpoint without (c : ascii) (s : string) : Prop :=
  match s with "" => True | String d s' => d <> c /\ without c s' end.

(** The token of an Authorization header is its second word, whatever the first one is. *)
Definition bearer (auth token : string) : Prop :=
  exists scheme rest, without " " scheme /\ without " " token /\
    auth = scheme ++ " " ++ token ++ rest /\ (rest = "" \/ exists r, rest = " " ++ r).

(** What is assumed of jwx: verification does not change what a token says. *)
Definition honest (L : library) : Prop :=
  forall alg k token c, lib_verify L alg k token = Some c -> lib_parse L token = Some c.

(** C41, with times in seconds *)
Definition in_time (now skew : Z) (c : claims) : Prop :=
  (forall t, cl_exp c = Some t -> (now < t + skew)%Z) /\
  (forall t, cl_iat c = Some t -> (t - skew <= now)%Z) /\
  (forall t, cl_nbf c = Some t -> (t - skew <= now)%Z).

(** No date is the first second of year 1, which Go cannot tell from a missing date. *)
Definition dated (c : claims) : Prop :=
  cl_exp c <> Some (-62135596800)%Z /\ cl_iat c <> Some (-62135596800)%Z /\ cl_nbf c <> Some (-62135596800)%Z.

(** The skew of a jwt definition in seconds. *)
Definition skew_is (j : jwt) (skew : Z) : Prop := int64_text (j_skew j) skew.

(** The skew that a configured text stands for *)
Definition skew_configured (s : string) (skew : Z) : Prop := (s = "" /\ skew = 120%Z) \/ (s <> "" /\ int64_text s skew).

(** Skews for which the code does what C41 says: no overflow as a duration in nanoseconds, and skew
    milliseconds do not exceed the time since 1970 in seconds. *)
Definition moderate (now skew : Z) : Prop := (0 <= skew /\ skew * 1000000000 <= int64_max /\ skew * 1000 <= now)%Z.

(** * Algorithms and keys *)

Definition signing : list string :=
  ["RS256"; "RS384"; "RS512"; "PS256"; "PS384"; "PS512"; "HS256"; "HS384"; "HS512"; "ES256"; "ES384"; "ES512"].

(** The keys an algorithm works with (RFC 7518): RSA keys for RS and PS, keys on the curve of that
    name for ES, shared secrets for HS. *)
Definition fits (alg : string) (k : key) : Prop :=
  match k with
  | KRsa _ => exists n, In n ["256"; "384"; "512"] /\ (alg = "RS" ++ n \/ alg = "PS" ++ n)
  | KEc bits _ => (alg = "ES256" /\ bits = 256%Z) \/ (alg = "ES384" /\ bits = 384%Z) \/ (alg = "ES512" /\ bits = 521%Z)
  | KSecret _ => exists n, In n ["256"; "384"; "512"] /\ alg = "HS" ++ n
  | KOther _ => False
  end.

(** All keys installed, in the order they are tried (only one of the sets is ever non-empty). *)
Definition keys (j : jwt) : keyset := (j_rsa j ++ j_ec j ++ j_secret j)%list.

Definition blank (j : jwt) : Prop := j_rsa j = [] /\ j_ec j = [] /\ j_secret j = [].

(** The key a configured key string stands for: a secret, or the public key of a single PEM block. *)
Inductive stands_for (pem : option pem_block * string) (j : jwt) : key -> Prop :=
| sf_secret : stands_for pem j (KSecret (j_key j))
| sf_cert : forall b k, pem = (Some b, "") -> pb_type b = "CERTIFICATE" -> pb_cert b = Some k ->
    (forall s, k <> KSecret s) -> stands_for pem j k
| sf_public : forall b k, pem = (Some b, "") -> pb_type b = "PUBLIC KEY" -> pb_pkix b = Some k ->
    (forall s, k <> KSecret s) -> stands_for pem j k
| sf_rsa : forall b n, pem = (Some b, "") -> pb_type b = "RSA PUBLIC KEY" -> pb_pkix b = Some (KRsa n) ->
    stands_for pem j (KRsa n).

(** The key is in one of the documents, marked for this algorithm. *)
Definition published (docs : list (list jwk)) (alg : string) (kid : string) (k : key) : Prop :=
  exists doc d, In doc docs /\ In d doc /\ jk_alg d = alg /\ jk_kid d = kid /\ jk_raw d = Some k.

(** Documents a fetch delivered. *)
Definition delivered (doc : option (list jwk)) : list (list jwk) := match doc with Some d => [d] | None => [] end.

(** The jwt definitions reached from [j0] by validation at boot and any number of refreshes, with the
    documents loaded on the way, latest first. *)
Inductive reached (pem : option pem_block * string) (kid0 : string) (j0 : jwt) : list (list jwk) -> jwt -> Prop :=
| reached_boot : forall doc j, blank j0 -> validate_jwt_def pem kid0 doc j0 = ROk j ->
    reached pem kid0 j0 (if String.eqb (j_key j0) "" then delivered doc else []) j
| reached_refresh : forall docs j doc j' err, reached pem kid0 j0 docs j -> j_url j <> "" ->
    load_jwks doc j = Some (j', err) -> reached pem kid0 j0 (delivered doc ++ docs) j'.

(** Kid [kid] is known. *)
Definition known (j : jwt) (kid : string) : Prop := exists k, In (kid, k) (keys j).

(** The first key with that id. *)
Inductive first_for (kid : string) (k : key) : keyset -> Prop :=
| ff_here : forall ks, first_for kid k ((kid, k) :: ks)
| ff_later : forall kid' k' ks, kid' <> kid -> first_for kid k ks -> first_for kid k ((kid', k') :: ks).

(** * Jwt definitions *)

(** A document that yields keys for [alg]: all its keys are marked for [alg], those for an ES algorithm
    are ECDSA keys, and the last one is usable. *)
Definition serves (alg : string) (ks : list jwk) : Prop :=
  (forall d, In d ks -> jk_alg d = alg) /\
  (forall d, In d ks -> In alg ["ES256"; "ES384"; "ES512"] -> exists b n, jk_raw d = Some (KEc b n)) /\
  exists ks' d k, ks = (ks' ++ [d])%list /\ jk_raw d = Some k /\ fits alg k /\ forall s, k <> KSecret s.

(** C48 *)
Definition acceptable (pem : option pem_block * string) (doc : option (list jwk)) (j : jwt) : Prop :=
  j_name j <> "" /\
  (j_skew j = "" \/ exists z, int64_text (j_skew j) z /\ (0 <= z)%Z) /\
  ((j_alg j = "none" /\ j_key j = "" /\ j_url j = "") \/
   (In (j_alg j) signing /\ j_key j <> "" /\ exists k, stands_for pem j k /\ fits (j_alg j) k) \/
   (In (j_alg j) signing /\ j_key j = "" /\ j_url j <> "" /\ exists ks, doc = Some ks /\ serves (j_alg j) ks)).

(** pem.Decode returns its whole input if it finds no block. *)
Definition pem_contract (pem : option pem_block * string) (j : jwt) : Prop := fst pem = None -> snd pem = j_key j.

(** Kids of a document are new and all different. *)
Definition fresh_kids (j : jwt) (ks : list jwk) : Prop :=
  NoDup (map jk_kid ks) /\ forall d, In d ks -> ~ known j (jk_kid d).

(** The same definition without signature, which looks at the dates of a token only. *)
Definition unsigned (j : jwt) : jwt := Jwt (j_name j) "none" "" "" [] [] [] (j_skew j) 0.
