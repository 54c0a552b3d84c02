(** What the log says before a load of keys panics (C133). *)
From Coq Require Import String List ZArith NArith.
From Verif Require Import GoStr Jwt JwtSpec KeyLog KeyLogSpec KeyLogProofs KeyPanicProofs.
Import ListNotations.
Local Open Scope string_scope.

(** C133: a load panics at the first entry for an elliptic curve that is no such key; the entries before it have been
    told, that one and the rest are not. *)
Theorem C133_panic : forall ks cause j, load_jwks (Some ks) j = None ->
  exists a d rest, ks = (a ++ d :: rest)%list /\ (forall x, In x (a ++ [d]) -> jk_alg x = j_alg j) /\ (forall x, In x a -> exists bits n, jk_raw x = Some (KEc bits n)) /\
    (forall bits n, jk_raw d <> Some (KEc bits n)) /\
    map key_text (fst (load_told (Some ks) cause j)) = (says_fetched (j_name j) (List.length ks) (j_url j) :: repeat (says_parsed (j_name j) (j_alg j)) (List.length a))%list.
Proof. exact panic_told. Qed.
Print Assumptions C133_panic.

Example C133_panic_case : let j := Jwt "pay" "ES256" "" "https://id.example/keys" [] [] [] "" 0 in
  let ks := [Jwk "a" "ES256" (Some (KEc 256%Z 9%N)); Jwk "b" "ES256" None; Jwk "c" "ES256" (Some (KEc 256%Z 8%N))] in
  load_jwks (Some ks) j = None /\
  map key_text (fst (load_told (Some ks) "" j)) = ["jwt [pay] fetched 3 jwk from jwks URL https://id.example/keys"; "jwt [pay] successfully parsed ES256 key from remote jwk"].
Proof. split; vm_compute; reflexivity. Qed.
