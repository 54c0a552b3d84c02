(** Vocabulary for Thm_Http2Length. *)
From Coq Require Import String Ascii ZArith NArith.
From Verif Require Import NumberSpec.
Local Open Scope string_scope.

(** Text that begins with something else than a sign and is no number below 2^64 up to its first byte that is no digit *)
Definition misread (v : string) : Prop :=
  exists d c rest, v = d ++ String c rest /\ ~ (48 <= N_of_ascii c <= 57)%N /\
    ((d = "" /\ c <> "-"%char /\ c <> "+"%char) \/ exists n, numeral d n /\ (n <= 18446744073709551615)%Z).
