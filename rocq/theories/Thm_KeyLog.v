(** What the log says while keys are loaded from a JWKS document (C133). *)
From Coq Require Import String Ascii List Bool ZArith NArith.
From Verif Require Import GoStr Jwt JwtSpec JwtLoadSpec JwtKeys KeyLog KeyLogSpec KeyLogProofs.
Import ListNotations.
Local Open Scope string_scope.

(** C133: with its lines the load does what it does without, *)
Theorem C133_same : forall doc cause j, snd (load_told doc cause j) = load_jwks doc j.
Proof. exact told_same. Qed.
Print Assumptions C133_same.

(** and these are the lines about a document that could be fetched: one with the number of its entries, one for
    each of those before the first for another algorithm, and one about that. *)
Theorem C133_lines : forall ks cause j r a rest, In (j_alg j) signing -> up_to_other (j_alg j) ks a rest -> load_jwks (Some ks) j = Some r ->
  map key_text (fst (load_told (Some ks) cause j)) =
    (says_fetched (j_name j) (List.length ks) (j_url j) :: repeat (says_parsed (j_name j) (j_alg j)) (List.length a) ++
     match rest with [] => [] | d :: _ => [says_other (j_name j) (jk_alg d) (j_alg j)] end)%list.
Proof. exact told_lines. Qed.
Print Assumptions C133_lines.

Example C133_lines_case : let ks := [Jwk "a" "RS256" (Some (KRsa 7)); Jwk "b" "RS256" None; Jwk "c" "ES256" (Some (KEc 256 9)); Jwk "d" "RS256" (Some (KRsa 8))] in
  In (j_alg in_use) signing /\ up_to_other (j_alg in_use) ks (firstn 2 ks) (skipn 2 ks) /\
  map key_text (fst (load_told (Some ks) "" in_use)) =
    ["jwt [pay] fetched 4 jwk from jwks URL https://id.example/keys"; "jwt [pay] successfully parsed RS256 key from remote jwk";
     "jwt [pay] successfully parsed RS256 key from remote jwk"; "jwt [pay] key algorithm [ES256] in jwks keyset does not match configured alg [RS256]."].
Proof.
  cbv zeta. split; [now left|]. split; [|vm_compute; reflexivity]. split; [reflexivity|]. split; [|discriminate].
  intros d [<-|[<-|[]]]; reflexivity.
Qed.

(** C133: a warning means that the load failed, and there is one exactly if nothing could be fetched or an entry is
    for another algorithm.  Other failures leave none: a document without entries, or one whose last entry is no
    usable key. *)
Theorem C133_warned_partial : forall doc cause j j' err, In (j_alg j) signing -> load_jwks doc j = Some (j', err) ->
  (warned (fst (load_told doc cause j)) <-> doc = None \/ exists ks d, doc = Some ks /\ In d ks /\ jk_alg d <> j_alg j) /\
  (warned (fst (load_told doc cause j)) -> err = true) /\
  (err = true /\ ~ warned (fst (load_told doc cause j)) <->
   doc = Some [] \/ exists a d, doc = Some (a ++ [d])%list /\ (forall x, In x (a ++ [d]) -> jk_alg x = j_alg j) /\ forall k, ~ usable_entry (j_alg j) d k).
Proof. exact told_warned. Qed.
Print Assumptions C133_warned_partial.

(** C133: keys that are new are among those said to be parsed. *)
Theorem C133_new : forall pem kid0 j0 docs j ks j' err a rest kid, reached pem kid0 j0 docs j -> In (j_alg j0) signing -> j_url j <> "" ->
  load_jwks (Some ks) j = Some (j', err) -> up_to_other (j_alg j0) ks a rest -> known j' kid -> ~ known j kid ->
  exists d k, In d a /\ jk_kid d = kid /\ usable_entry (j_alg j0) d k /\ find_key (keys j') kid = Some k.
Proof. exact new_told. Qed.
Print Assumptions C133_new.

Example C133_new_case : let ks := [Jwk "a" "RS256" (Some (KRsa 7)); Jwk "b" "RS256" None] in
  reached (None, "") "" paid [first_doc] in_use /\ load_jwks (Some ks) in_use <> None /\ up_to_other "RS256" ks ks [] /\ ~ known in_use "a".
Proof.
  cbv zeta. split; [exact in_use_reached|]. split; [discriminate|]. split.
  - split; [reflexivity|]. split; [|exact I]. intros d [<-|[<-|[]]]; reflexivity.
  - intros [k H]. vm_compute in H. destruct H as [H|[]]. discriminate H.
Qed.

(** C133 fails: a document with one entry that is no key is told as one key that was successfully parsed; the load
    fails, no key is new, and nothing warns of it. *)
Theorem C133_refuted : exists pem kid0 j0 docs j doc cause j', reached pem kid0 j0 docs j /\ In (j_alg j) signing /\ j_url j <> "" /\
  load_jwks (Some doc) j = Some (j', true) /\ keys j' = keys j /\ List.length doc = 1 /\
  map key_text (fst (load_told (Some doc) cause j)) = [says_fetched (j_name j) 1 (j_url j); says_parsed (j_name j) (j_alg j)] /\
  ~ warned (fst (load_told (Some doc) cause j)).
Proof. exact parsed_untrue. Qed.
Print Assumptions C133_refuted.
