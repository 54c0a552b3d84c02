(** Writing a path with its first character encoded (C64). *)
From Coq Require Import String Ascii List NArith.
Local Open Scope string_scope.

Definition hex (n : N) : ascii := match String.get (N.to_nat n) "0123456789ABCDEF" with Some c => c | None => "0"%char end.
Definition encoded (c : ascii) : string :=
  String "%" (String (hex (N_of_ascii c / 16)) (String (hex (N_of_ascii c mod 16)) "")).
