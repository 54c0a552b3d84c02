(** What the functions on text that other theorems mention mean: capital letters (C20), substrings
    (C32), header names (C22), fields (C67), greetings (C59), numbers (C51) and equality up to case (C60). *)
From Coq Require Import String Ascii List Bool ZArith.
From Verif Require Import GoStr Header HeaderSpec Json NumberSpec TextSpec TextProofs.
Import ListNotations.
Local Open Scope string_scope.

Theorem C20_capitals : forall s t, capitals s t <-> t = to_upper s.
Proof. exact capitals_iff. Qed.
Print Assumptions C20_capitals.

Example C20_capitals_case : to_upper "get-Zz9[" = "GET-ZZ9[".
Proof. reflexivity. Qed.

Theorem C32_contains : forall s sub, contains s sub = true <-> occurs sub s.
Proof. exact contains_spec. Qed.
Print Assumptions C32_contains.

Example C32_contains_case : contains "br, gzip;q=1" "gzip" = true /\ contains "br, gz ip" "gzip" = false.
Proof. split; reflexivity. Qed.

Theorem C22_spelling : forall h, canonical_keys h <-> forall k v, In (k, v) h -> well_spelled k.
Proof. exact canonical_iff. Qed.
Print Assumptions C22_spelling.

Theorem C22_respelled : forall k, well_spelled (canon k) /\ same_letters k (canon k).
Proof. exact canon_spelled. Qed.
Print Assumptions C22_respelled.

Example C22_spelling_case : canon "x-rEQUEST-id" = "X-Request-Id" /\ canon "not a name" = "not a name".
Proof. split; reflexivity. Qed.

Theorem C67_fields : forall sep fs s, joined sep fs s <-> s = join sep fs.
Proof. exact joined_iff. Qed.
Print Assumptions C67_fields.

Example C67_fields_case : join "/" ["a"; ""; "b"] = "a//b".
Proof. reflexivity. Qed.

Theorem C59_greetings : forall g, (exists dice, random_huttese dice = g) <->
  In g ["Achuta!"; "Goodde da lodia!"; "H'chu apenkee!"; "Chuba!"; "Ka Cheesa Crispa Greedo?"; "De wanna wanga?"; "Peedunkee, caba dee unko!"].
Proof. exact greetings. Qed.
Print Assumptions C59_greetings.

Example C59_greetings_case : random_huttese 10 = "Chuba!".
Proof. reflexivity. Qed.

Theorem C60_case_blind : forall s t, equal_fold s t = true <-> same_letters s t.
Proof. exact equal_fold_iff. Qed.
Print Assumptions C60_case_blind.

Example C60_case_blind_case : equal_fold "Bad Gateway" "bad gateway" = true /\ equal_fold "I'm" "i_m" = false.
Proof. split; reflexivity. Qed.

(** Decimal text has no leading zeros, and a sign if the number is negative. *)
Theorem C51_decimal : forall z, exists t, numeral t (Z.abs z) /\ (forall s, t = String "0" s -> s = "") /\
  itoa_Z z = (if Z.ltb z 0 then String "-" t else t).
Proof. exact decimal_text. Qed.
Print Assumptions C51_decimal.

Example C51_decimal_case : itoa_Z (-120) = "-120" /\ itoa_Z 0 = "0".
Proof. split; reflexivity. Qed.
