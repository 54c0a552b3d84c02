(** The language of path expressions (C92). *)
From Coq Require Import String Ascii List Bool NArith.
From Verif Require Import GoStr Regex RegexGrammar RegexGrammarProofs RegexCases.
Import ListNotations.
Local Open Scope string_scope.

(** C92: exactly the texts of the documented syntax are accepted. *)
Theorem C92_accepted : forall p, (exists r, re_compile p = Some r) <-> exists x, written x p.
Proof. exact compiles_iff. Qed.
Print Assumptions C92_accepted.

(** C92: and they match where their documented meaning says so. *)
Theorem C92_matches : forall p x, written x p ->
  exists r, re_compile p = Some r /\ forall s, match_string r s = true <-> found x s.
Proof. exact compiled_meaning. Qed.
Print Assumptions C92_matches.

(** C92: the syntax is unambiguous. *)
Theorem C92_unambiguous : forall x y p, written x p -> written y p -> forall s, found x s <-> found y s.
Proof. exact written_unique. Qed.
Print Assumptions C92_unambiguous.

Example C92_case : written sample_rx "/v\d{1,2}[^a-c]*|x" /\ found sample_rx "see /v12/d here" /\ ~ found sample_rx "/v/d".
Proof. exact (conj sample_written sample_found). Qed.

Example C92_refused : Forall (fun p => forall x, ~ written x p)
  ["*a"; "a**"; "a{3,2}"; "a{1001}"; "{2}"; "(a"; "a)"; "[a"; "[b-a]"; "[]"; "\"; "\z"; "[[:alpha:]]"; "(?i)a"].
Proof. exact refused. Qed.

Example C92_readable : Forall (fun p => exists x, written x p)
  ["{"; "a{,2}"; "a{01}"; "x{2"; "]"; "}"; "[]a]"; "[^]-a]"; "[a-]"; "[\d-z]"; "()"; "a||b"; "^*"; "(?:a|b){2,}c?"; ""].
Proof. exact readable. Qed.
