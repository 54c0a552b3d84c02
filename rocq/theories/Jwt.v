(** jwt.go, and the token checks of proxy.go.

    Not modelled: the cryptography and the token and key formats.  What the libraries answer comes in
    through [pem_block], [jwk] and [library] below. *)
From Coq Require Import String Ascii List Bool ZArith NArith.
From Verif Require Import GoStr Kid.
Import ListNotations.
Local Open Scope string_scope.

(** Keys: an RSA public key, an ECDSA public key with the bit size of its curve, a shared secret, or
    any other public key x509 may return.  The numbers tell keys apart. *)
Inductive key := KRsa (n : N) | KEc (bits : Z) (n : N) | KSecret (s : string) | KOther (n : N).

(** jwt.go:19 and 43-46 *)
Definition keyset := list (string * key).

(** jwt.go:21-32.  The loop assigns to its own copy of the pair, so the set keeps its old key. *)
Definition upsert (ks : keyset) (kp : string * key) : keyset :=
  if existsb (fun k => String.eqb (fst k) (fst kp)) ks then ks else (ks ++ [kp])%list.

(** jwt.go:34-41 *)
Fixpoint find_key (ks : keyset) (kid : string) : option key :=
  match ks with
  | [] => None
  | (k, x) :: ks' => if String.eqb k kid then Some x else find_key ks' kid
  end.

(** jwt.go:48-61.  The lock is in JwksRate. *)
Record jwt := Jwt {
  j_name : string; j_alg : string; j_key : string; j_url : string;
  j_rsa : keyset; j_ec : keyset; j_secret : keyset; j_skew : string; j_count : nat }.

Definition with_rsa ks j := Jwt (j_name j) (j_alg j) (j_key j) (j_url j) ks (j_ec j) (j_secret j) (j_skew j) (j_count j).
Definition with_ec ks j := Jwt (j_name j) (j_alg j) (j_key j) (j_url j) (j_rsa j) ks (j_secret j) (j_skew j) (j_count j).
Definition with_secret ks j := Jwt (j_name j) (j_alg j) (j_key j) (j_url j) (j_rsa j) (j_ec j) ks (j_skew j) (j_count j).
Definition with_skew s j := Jwt (j_name j) (j_alg j) (j_key j) (j_url j) (j_rsa j) (j_ec j) (j_secret j) s (j_count j).
Definition counted j := Jwt (j_name j) (j_alg j) (j_key j) (j_url j) (j_rsa j) (j_ec j) (j_secret j) (j_skew j) (S (j_count j)).
Definition named n j := Jwt n (j_alg j) (j_key j) (j_url j) (j_rsa j) (j_ec j) (j_secret j) (j_skew j) (j_count j).

(** jwt.go:63-64 *)
Definition valid_alg_no_none : list string :=
  ["RS256"; "RS384"; "RS512"; "PS256"; "PS384"; "PS512"; "HS256"; "HS384"; "HS512"; "ES256"; "ES384"; "ES512"].
Definition valid_alg : list string := (valid_alg_no_none ++ ["none"])%list.

(** jwa.SignatureAlgorithm.Accept on a fresh value: known names are taken over, others leave it
    empty and are an error.  jwx may know further names, which nothing here lets through. *)
Definition accept_alg (s : string) : string := if mem_str s valid_alg then s else "".

Definition rsa_algs : list string := ["RS256"; "RS384"; "RS512"; "PS256"; "PS384"; "PS512"].
Definition ec_algs : list string := ["ES256"; "ES384"; "ES512"].
Definition hmac_algs : list string := ["HS256"; "HS384"; "HS512"].

(** jwt.go:384-396 *)
Definition bit_size_ok (alg : string) (bits : Z) : bool :=
  if String.eqb alg "ES256" && negb (Z.eqb bits 256) then false
  else if String.eqb alg "ES384" && negb (Z.eqb bits 384) then false
  else if String.eqb alg "ES512" && negb (Z.eqb bits 521) then false
  else true.

(** * Keys from the configuration *)

(** A PEM block: its type, and the public key that x509.ParsePKIXPublicKey and the certificate that
    x509.ParseCertificate (by its public key) give for its bytes, [None] for an error. *)
Record pem_block := PemBlock { pb_type : string; pb_pkix : option key; pb_cert : option key }.

Inductive result := ROk (j : jwt) | RErr | RPanic.

(** jwt.go:257-382.  [pem] is pem.Decode of the key (block and rest), [kid] the key id made up with
    uuid.New. *)
Definition parse_key (pem : option pem_block * string) (kid : string) (alg : string) (j : jwt) : result :=
  let public types install :=
    if negb (String.eqb (snd pem) "") then RErr
    else match fst pem with
         | None => RPanic
         | Some b =>
             if negb (mem_str (pb_type b) types) then RErr
             else if String.eqb (pb_type b) "CERTIFICATE"
                  then match pb_cert b with Some k => install k | None => RErr end
                  else match pb_pkix b with Some k => install k | None => RErr end
         end in
  if mem_str alg rsa_algs then
    public ["PUBLIC KEY"; "RSA PUBLIC KEY"; "CERTIFICATE"]
      (fun k => match k with KRsa _ => ROk (with_rsa (upsert (j_rsa j) (kid, k)) j) | _ => RErr end)
  else if mem_str alg hmac_algs then
    if negb (String.eqb (j_key j) "") then ROk (with_secret (upsert (j_secret j) (kid, KSecret (j_key j))) j) else RErr
  else if mem_str alg ec_algs then
    public ["PUBLIC KEY"; "CERTIFICATE"]
      (fun k => match k with
                | KEc bits _ => if bit_size_ok alg bits then ROk (with_ec (upsert (j_ec j) (kid, k)) j) else RErr
                | _ => RErr
                end)
  else if String.eqb alg "none" then if negb (String.eqb (j_key j) "") then RErr else ROk j
  else RErr.

(** * Keys from a JWKS document *)

(** A key of the document: kid, alg and what Raw gives ([None] for an error).  Raw into a pointer of
    another type is an error as well. *)
Record jwk := Jwk { jk_kid : string; jk_alg : string; jk_raw : option key }.

(** jwt.go:187-239.  The error, if any, of the keys before is [err]; [None] is a panic (jwt.go:226-227:
    the error of Raw is dropped and the curve of the empty key is nil). *)
Fixpoint load_keys (j : jwt) (ks : list jwk) (err : bool) : option (jwt * bool) :=
  match ks with
  | [] => Some (j, err)
  | k :: ks' =>
      if mem_str (jk_alg k) valid_alg && String.eqb (j_alg j) (jk_alg k) then
        if mem_str (jk_alg k) rsa_algs then
          match jk_raw k with
          | Some (KRsa n) => load_keys (with_rsa (upsert (j_rsa j) (jk_kid k, KRsa n)) j) ks' false
          | _ => load_keys j ks' true
          end
        else if mem_str (jk_alg k) ec_algs then
          match jk_raw k with
          | Some (KEc bits n) =>
              if bit_size_ok (jk_alg k) bits
              then load_keys (with_ec (upsert (j_ec j) (jk_kid k, KEc bits n)) j) ks' false
              else load_keys j ks' true
          | _ => None
          end
        else load_keys j ks' true
      else Some (j, true)
  end.

(** jwt.go:170-255 when the lock is free; [doc] is the document jwk.Fetch gives, [None] for an error.
    The flag tells whether an error is returned. *)
Definition load_jwks (doc : option (list jwk)) (j : jwt) : option (jwt * bool) :=
  match doc with
  | None | Some [] => Some (counted j, true)
  | Some ks => match load_keys j ks false with Some (j', err) => Some (counted j', err) | None => None end
  end.

(** jwt.go:113-167.  The first error is overwritten by every later assignment, so all that remains of
    lines 116 and 147-149 is the case without key and URL. *)
Definition validate_jwt_def (pem : option pem_block * string) (kid : string) (doc : option (list jwk)) (j : jwt) : result :=
  let alg := accept_alg (j_alg j) in
  if String.eqb (j_name j) "" then RErr
  else if negb (String.eqb (j_alg j) "") && negb (mem_str (j_alg j) valid_alg) then RErr
  else if String.eqb (j_alg j) "" && negb (String.eqb (j_url j) "") then RErr
  else if String.eqb (j_alg j) "" && negb (String.eqb (j_key j) "") then RErr
  else if String.eqb alg "none" && negb (String.eqb (j_key j) "") then RErr
  else
    let err := negb (String.eqb alg "none") && String.eqb (j_key j) "" && String.eqb (j_url j) "" in
    let skewed :=
      if negb (String.eqb (j_skew j) "")
      then match atoi (j_skew j) with Some z => if Z.ltb z 0 then None else Some j | None => None end
      else Some (with_skew "120" j) in
    match skewed with
    | None => RErr
    | Some j1 =>
        if negb (String.eqb (j_key j1) "") then parse_key pem kid alg j1
        else if negb (String.eqb (j_url j1) "")
             then match load_jwks doc j1 with
                  | Some (j2, false) => ROk j2
                  | Some (_, true) => RErr
                  | None => RPanic
                  end
        else if err then RErr else ROk j1
    end.

(** * Tokens *)

(** Date claims in seconds since 1970, [None] if missing.  The model has no bounds for them. *)
Record claims := Claims { cl_iat : option Z; cl_nbf : option Z; cl_exp : option Z }.

(** What jwx answers about a token: the number of signatures jws.Parse finds ([None] for an error),
    and the claims jwt.Parse finds without and with verification. *)
Record library := Library {
  lib_signatures : string -> option nat;
  lib_parse : string -> option claims;
  lib_verify : string -> key -> string -> option claims }.

(** Times in nanoseconds since 1970.  A missing claim is the zero time.Time (year 1). *)
Definition year_1 : Z := -62135596800.
Definition nanos (t : Z) : Z := (t * 1000000000)%Z.
Definition date (o : option Z) : Z := nanos (match o with Some t => t | None => year_1 end).
Definition unix (t : Z) : Z := (t / 1000000000)%Z.

(** jwt.Verify of jwx 1.0.6 without options: zero times are skipped; now and claims are truncated to
    seconds. *)
Definition verify_dates (now iat nbf exp : Z) : bool :=
  (Z.eqb exp (nanos year_1) || Z.ltb now (unix exp)) &&
  (Z.eqb iat (nanos year_1) || negb (Z.ltb now (unix iat))) &&
  (Z.eqb nbf (nanos year_1) || (Z.eqb now (unix nbf) || Z.ltb (unix nbf) now)).

(** proxy.go:663-678; true if there is no error.  int64(skew*1000) and the durations wrap around. *)
Definition verify_date_claims (now skew : Z) (c : claims) : bool :=
  let back t := if Z.ltb (wrap64 (skew * 1000)) (unix t) then (t + wrap64 (-1000000000 * skew))%Z else t in
  let exp := date (cl_exp c) in
  verify_dates now (back (date (cl_iat c))) (back (date (cl_nbf c)))
    (if Z.ltb 1 (unix exp) then (exp + wrap64 (1000000000 * skew))%Z else exp).

(** The loop of proxy.go:606-612: parsed token and whether there was an error. *)
Fixpoint try_keys (L : library) (alg token : string) (ks : keyset) (r : option claims * bool) : option claims * bool :=
  match ks with
  | [] => r
  | (_, k) :: ks' =>
      match lib_verify L alg k token with
      | Some c => (Some c, false)
      | None => try_keys L alg token ks' (None, true)
      end
  end.

(** proxy.go:576-618: parsed token, error, and whether a key rotation check is triggered; [None] is
    the nil dereference of proxy.go:582 after an error of jws.Parse. *)
Definition verify_signature (L : library) (token : string) (ks : keyset) (alg : string) : option (option claims * bool * bool) :=
  match lib_signatures L token with
  | None => None
  | Some O => Some (None, true, false)
  | Some (S _) =>
      let kid := extract_kid token in
      let key := if String.eqb kid "" then None else find_key ks kid in
      let r := match key with
               | Some k => match lib_verify L alg k token with Some c => (Some c, false) | None => (None, true) end
               | None => (None, false)
               end in
      let rotate := negb (String.eqb kid "") && match key with None => true | Some _ => false end in
      let again := String.eqb kid "" || match key with None => true | Some _ => false end ||
                   (snd r && Nat.ltb 1 (length ks)) in
      let (parsed, err) := if again then try_keys L alg token ks r else r in
      Some (parsed, err, rotate)
  end.

(** The keys validateJwt passes on (proxy.go:539-546). *)
Definition keys_for (alg : string) (j : jwt) : keyset :=
  if mem_str alg rsa_algs then j_rsa j else if mem_str alg ec_algs then j_ec j else j_secret j.

Inductive verdict := Valid | Invalid | Crash.

(** proxy.go:518-574 with the jwt [j] of the route, at time [now]; the flag tells whether a key
    rotation check is triggered.  An unparsable skew counts as 0, which Validate rules out. *)
Definition validate_jwt (L : library) (now : Z) (j : jwt) (auth : string) : verdict * bool :=
  match split " " auth with
  | _ :: token :: _ =>
      let alg := accept_alg (j_alg j) in
      let r :=
        if mem_str alg rsa_algs || mem_str alg ec_algs || mem_str alg hmac_algs
        then verify_signature L token (keys_for alg j) alg
        else match lib_parse L token with Some c => Some (Some c, false, false) | None => Some (None, true, false) end in
      match r with
      | None => (Crash, false)
      | Some (parsed, err, rotate) =>
          let skew := match atoi (j_skew j) with Some z => z | None => 0%Z end in
          let v :=
            match parsed, err with
            | Some _, false =>
                match lib_parse L token with
                | Some c => if verify_date_claims now skew c then Valid else Invalid
                | None => Crash
                end
            | _, _ => Invalid
            end in
          (v, rotate)
      end
  | _ => (Invalid, false)
  end.

(** proxy.go:620-632: whether a refresh is started. *)
Definition refresh_triggered (j : jwt) (rotate : bool) : bool := rotate && negb (String.eqb (j_url j) "").
