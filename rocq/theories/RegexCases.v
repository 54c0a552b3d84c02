(** Expressions and how they are read *)
From Coq Require Import String Ascii List Bool NArith Arith Lia.
From Verif Require Import GoStr Regex RegexSpec RegexProofs RegexGrammar RegexGrammarProofs.
Import ListNotations.
Local Open Scope string_scope.

Lemma compiled_meaning : forall p x, written x p ->
  exists r, re_compile p = Some r /\ forall s, match_string r s = true <-> found x s.
Proof.
  intros p x H. exists (of_rx x). split; [now apply compile_written|].
  intros s. exact (compiled_matches p x _ s H (compile_written p x H)).
Qed.

Lemma uncounted : forall c t, c <> "{"%char -> ~ counted (String c t).
Proof. intros c t H K. apply counted_brace in K. destruct K as [u K]. injection K as -> _. congruence. Qed.

(** "/v\d{1,2}[^a-c]*|x" *)
Definition sample : string := "/v\d{1,2}[^a-c]*|x".

Definition sample_rx : rx :=
  XAlt (XSeq (XLit "/") (XSeq (XLit "v") (XSeq (XRep (XSet false digits_set) 1 (Some 2))
          (XSeq (XRep (XSet true [("a", "c")]%char) 0 None) XEmpty))))
       (XSeq (XLit "x") XEmpty).

Lemma one_digit : forall c, digit c -> numeral (String c "") (N.to_nat (N_of_ascii c - 48)).
Proof.
  intros c H. split; [discriminate|]. split; [split; [assumption | exact I]|]. split; [|reflexivity].
  intros t E. now injection E as _ <-.
Qed.

Lemma sample_written : written sample_rx sample.
Proof.
  assert (Hl : forall c, existsb (Ascii.eqb c) special = false -> atom (XLit c) (String c "")).
  { intros c H. constructor. intros Hin. assert (E : existsb (Ascii.eqb c) special = true); [|congruence].
    apply existsb_exists. exists c. split; [assumption | apply Ascii.eqb_refl]. }
  apply (w_alt _ _ "/v\d{1,2}[^a-c]*" "x").
  - refine (q_item _ _ "/" "v\d{1,2}[^a-c]*" (i_atom _ _ (Hl "/"%char eq_refl)) _ (uncounted _ _ _)); [|discriminate].
    refine (q_item _ _ "v" "\d{1,2}[^a-c]*" (i_atom _ _ (Hl "v"%char eq_refl)) _ (uncounted _ _ _)); [|discriminate].
    refine (q_item _ _ "\d{1,2}" "[^a-c]*" (i_rep _ "\d" "{1,2}" _ _ (a_shorthand _ _ _ sh_d) _) _ (uncounted _ _ _)); [| |discriminate].
    + apply op_count.
      * refine (count_range "1" 1 "2" 2 (one_digit "1" _) (one_digit "2" _)); split; vm_compute; discriminate.
      * split; lia.
    + refine (q_item _ _ "[^a-c]*" "" (i_rep _ "[^a-c]" "*" _ _ (a_negated _ "a-c" _) op_star) q_end (uncounted _ _ _)); [|discriminate].
      refine (sb_range true "a" "c" "a" "c" [] "" _ _ _ _ _ sb_end).
      * apply sc_plain. discriminate.
      * discriminate.
      * apply sc_plain. discriminate.
      * discriminate.
      * vm_compute. discriminate.
  - constructor. refine (q_item _ _ "x" "" (i_atom _ _ (Hl "x"%char eq_refl)) q_end (uncounted _ _ _)). discriminate.
Qed.

Lemma sample_found : found sample_rx "see /v12/d here" /\ ~ found sample_rx "/v/d".
Proof.
  destruct (compiled_meaning _ _ sample_written) as [r [E H]]. vm_compute in E. injection E as <-. split.
  - apply H. vm_compute. reflexivity.
  - intros K. apply H in K. vm_compute in K. discriminate.
Qed.

Lemma not_written : forall p, re_compile p = None -> forall x, ~ written x p.
Proof. intros p E x H. rewrite (compile_written p x H) in E. discriminate. Qed.

Lemma refused : Forall (fun p => forall x, ~ written x p)
  ["*a"; "a**"; "a{3,2}"; "a{1001}"; "{2}"; "(a"; "a)"; "[a"; "[b-a]"; "[]"; "\"; "\z"; "[[:alpha:]]"; "(?i)a"].
Proof. repeat constructor; apply not_written; vm_compute; reflexivity. Qed.

Lemma readable : Forall (fun p => exists x, written x p)
  ["{"; "a{,2}"; "a{01}"; "x{2"; "]"; "}"; "[]a]"; "[^]-a]"; "[a-]"; "[\d-z]"; "()"; "a||b"; "^*"; "(?:a|b){2,}c?"; ""].
Proof.
  assert (K : forall p, re_compile p <> None -> exists x, written x p).
  { intros p H. apply compiles_iff. destruct (re_compile p); [eauto | congruence]. }
  repeat constructor; apply K; vm_compute; discriminate.
Qed.
