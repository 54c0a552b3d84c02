(** Vocabulary for statements about what is logged while keys are loaded. *)
From Coq Require Import String List NArith.
From Verif Require Import GoStr Jwt JwtSpec JwtLoadSpec KeyLog.
Import ListNotations.
Local Open Scope string_scope.

(** The entries [a] are for the algorithm and [rest] begins with one that is not, if there is one. *)
Definition up_to_other (alg : string) (ks a rest : list jwk) : Prop :=
  ks = (a ++ rest)%list /\ (forall d, In d a -> jk_alg d = alg) /\
  match rest with [] => True | d :: _ => jk_alg d <> alg end.

(** A warning is among the lines. *)
Definition warned (ls : list key_line) : Prop := exists l, In l ls /\ is_warning l = true.

(** The texts about documents, entries and entries for another algorithm *)
Definition says_fetched (name : string) (n : nat) (url : string) : string :=
  "jwt [" ++ name ++ "] fetched " ++ itoa (N.of_nat n) ++ " jwk from jwks URL " ++ url.
Definition says_parsed (name alg : string) : string := "jwt [" ++ name ++ "] successfully parsed " ++ alg ++ " key from remote jwk".
Definition says_other (name key_alg alg : string) : string :=
  "jwt [" ++ name ++ "] key algorithm [" ++ key_alg ++ "] in jwks keyset does not match configured alg [" ++ alg ++ "].".
