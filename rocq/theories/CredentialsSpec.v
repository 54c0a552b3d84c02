(** What the claim about credentials (C136) means. *)
From Coq Require Import String Ascii List Bool NArith.
From Verif Require Import GoStr Header Exchange Jwt JwtSpec.
Import ListNotations.
Local Open Scope string_scope.

(** Letters without regard to case *)
Definition small_letter (c : ascii) : ascii :=
  let n := N_of_ascii c in if (N.leb 65 n && N.leb n 90)%bool then ascii_of_N (n + 32) else c.
Fixpoint small_letters (s : string) : string := match s with "" => "" | String c s' => String (small_letter c) (small_letters s') end.

Fixpoint spaces (n : nat) : string := match n with O => "" | S n' => String " " (spaces n') end.

(** Credentials for a token (RFC 6750, 2.1 and RFC 7235, 2.1): the scheme Bearer in any case, spaces, the token *)
Definition credentials (token v : string) : Prop :=
  token <> "" /\ without " " token /\ exists scheme n, small_letters scheme = "bearer" /\ v = scheme ++ spaces (S n) ++ token.

(** The Authorization fields of a request sent upstream *)
Definition authorizations (rq : up_request) : list string := values "Authorization" (uq_header rq).
