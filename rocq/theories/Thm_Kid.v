(** The key a token names (C84), and what it starts (C85). *)
From Coq Require Import String Ascii List Bool ZArith NArith.
From Verif Require Import GoStr Kid Jwt JwtSpec JwtRefresh JwtCases KidSpec KidProofs.
Import ListNotations.
Local Open Scope string_scope.

(** C84: extractKid returns a kid exactly if the token names it ... *)
Theorem C84_kid : forall token k, k <> "" -> (extract_kid token = k <-> names_kid token k).
Proof. exact kid_iff. Qed.
Print Assumptions C84_kid.

(** ... and the empty text exactly if it names none. *)
Theorem C84_none : forall token, (forall k, k <> "" -> ~ names_kid token k) <-> extract_kid token = "".
Proof. exact no_kid. Qed.
Print Assumptions C84_none.

(** The header of the first token is [ {"kid": "k1", "crit": [1e2, {"kid": "x"}], "kid": "\u006b\ud83d\ude00" }], with
    an escaped k and an escaped pair of surrogates; that of the second one is {"kid":"k1","n":1e999}, with a
    number that does not fit a float64. *)
Example C84_case :
  extract_kid "IHsia2lkIjogImsxIiwgImNyaXQiOiBbMWUyLCB7ImtpZCI6ICJ4In1dLCAia2lkIjogIlx1MDA2Ylx1ZDgzZFx1ZGUwMCIgfQ.e30.c2ln" = String "k" (String "240" (String "159" (String "152" (String "128" "")))) /\
  extract_kid "eyJraWQiOiJrMSIsIm4iOjFlOTk5fQ.e30.c2ln" = "" /\ extract_kid new_k1 = "k1" /\ extract_kid "junk" = "".
Proof. repeat split; vm_compute; reflexivity. Qed.

(** C85 *)
Theorem C85_refresh : forall pem kid0 j0 docs j L now auth, reached pem kid0 j0 docs j ->
  (refresh_triggered j (snd (validate_jwt L now j auth)) = true <->
   In (j_alg j0) signing /\ j_url j0 <> "" /\ exists token n kid, bearer auth token /\ lib_signatures L token = Some (S n) /\
     kid <> "" /\ names_kid token kid /\ ~ known j kid).
Proof. exact refresh_exactly. Qed.
Print Assumptions C85_refresh.

(** Key 1 is known under k1: [new_k1] names it, [old_k9] names another one. *)
Example C85_case :
  let starts token := refresh_triggered (boot rs256 (Some doc_old)) (snd (validate_jwt (small no_dates) 1600000000 (boot rs256 (Some doc_old)) ("Bearer " ++ token))) in
  reached no_pem "" rs256 [doc_old] (boot rs256 (Some doc_old)) /\ starts old_k9 = true /\ starts new_k1 = false /\ starts "old" = false.
Proof. split; [exact rs256_reached|]. repeat split; vm_compute; reflexivity. Qed.
