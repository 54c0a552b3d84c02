(** C123: the keys a process holds for a jwt definition. *)
From Coq Require Import String List NArith.
From Verif Require Import GoStr Jwt JwtSpec JwtCases Process ProcessSpec ProcessCases KeyGrowthSpec KeyGrowthProofs.
Import ListNotations.
Local Open Scope string_scope.

(** At any time there is one key for each kid. *)
Theorem C123_one_per_kid : forall m es p n j, after m es p -> now_is p n j -> NoDup (map fst (keys j)).
Proof. exact one_per_kid. Qed.
Print Assumptions C123_one_per_kid.

(** Whatever requests come in, there are no more keys than the one configured and the kids ever published.
    Missing for the claim: that keys no longer published are given up, see C123_refuted. *)
Theorem C123_bound_partial : forall m es p n j0 j, after m es p -> defined m n j0 -> now_is p n j ->
  List.length (keys j) <= own_keys j0 + List.length (kids_in (at_boot m n j0 ++ since p n)).
Proof. exact size_bound. Qed.
Print Assumptions C123_bound_partial.

(** A document that comes again, whatever came in between, adds nothing. *)
Theorem C123_same : forall j doc j1 e1 more j2 j3 e3,
  load_jwks doc j = Some (j1, e1) -> loads j1 more j2 -> load_jwks doc j2 = Some (j3, e3) -> keys j3 = keys j2.
Proof. exact same_again. Qed.
Print Assumptions C123_same.

(** No bound on the number of keys published at any one time bounds those held: where every document has one
    key, any number of keys is held at some time. *)
Theorem C123_refuted : exists m n, forall N, exists es p j,
  after m es p /\ now_is p n j /\ (forall doc, In doc (since p n) -> List.length doc = 1) /\ N < List.length (keys j).
Proof. exact (ex_intro _ daemon0 (ex_intro _ "auth" growth)). Qed.
Print Assumptions C123_refuted.

(** A process that holds the key of the start and one fetched since *)
Example C123_case : after daemon0 day12 (state_after day12) /\ now_is (state_after day12) "auth" (auth_after day12) /\
  map fst (keys (auth_after day12)) = ["k1"; "k9"] /\ kids_in (at_boot daemon0 "auth" rs256 ++ since (state_after day12) "auth") = ["k1"; "k9"] /\ own_keys rs256 = 0.
Proof. split; [exact day12_happens|]. split; [vm_compute; reflexivity|]. split; [vm_compute; reflexivity|]. split; vm_compute; reflexivity. Qed.

(** A document, another, and the first again *)
Example C123_case_same : let one := Some [Jwk "a" "RS256" (Some (KRsa 1%N))] in let two := Some [Jwk "b" "RS256" (Some (KRsa 2%N)); Jwk "a" "RS256" (Some (KRsa 3%N))] in
  exists j1 j2 j3, load_jwks one rs256 = Some (j1, false) /\ loads j1 [two] j2 /\ load_jwks one j2 = Some (j3, false) /\ keys j3 = [("a", KRsa 1%N); ("b", KRsa 2%N)].
Proof.
  cbv zeta. eexists. eexists. eexists. split; [reflexivity|]. split; [eapply loads_one; [reflexivity|apply loads_none]|]. split; reflexivity.
Qed.
