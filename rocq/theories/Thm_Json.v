(** JSON documents (C59, C60). *)
From Coq Require Import String Ascii List Bool ZArith NArith.
From Verif Require Import GoStr Json JsonSpec JsonProofs JsonInert.
Import ListNotations.
Local Open Scope string_scope.

(** C59, for error documents: whatever bytes go in, the document is an object with the five members
    in order, and each text that is valid UTF-8 is read back unchanged. *)
Theorem C59_status_partial : forall g i v c m, exists g' i' v' m',
  read_object (status_json g i v c m) =
  Some [("j8a", JStr g'); ("ServerID", JStr i'); ("Version", JStr v'); ("Code", JInt c); ("Message", JStr m')] /\
  (utf8 g -> g' = g) /\ (utf8 i -> i' = i) /\ (utf8 v -> v' = v) /\ (utf8 m -> m' = m).
Proof. exact status_well_formed. Qed.
Print Assumptions C59_status_partial.

(** C59, for the about page. *)
Theorem C59_about_partial : forall g i v, utf8 g -> utf8 i -> utf8 v ->
  read_object (about_json g i v) = Some [("j8a", JStr g); ("ServerID", JStr i); ("Version", JStr v)].
Proof. exact about_faithful. Qed.
Print Assumptions C59_about_partial.

(** What is missing for the full statement: a version that is not valid UTF-8 (VERSION is taken from
    the environment) is not carried as it is. *)
Theorem C59_bytes_refuted : exists v,
  read_object (about_json "Chuba!" "unknown" v) <>
  Some [("j8a", JStr "Chuba!"); ("ServerID", JStr "unknown"); ("Version", JStr v)].
Proof. exact bytes_lost. Qed.
Print Assumptions C59_bytes_refuted.

Example C59_case :
  utf8 "say <""hi"" & bye>" /\
  read_object (status_json "De wanna wanga?" "a1b2c3d4" "v0.7.2" 502 "say <""hi"" & bye>") =
  Some [("j8a", JStr "De wanna wanga?"); ("ServerID", JStr "a1b2c3d4"); ("Version", JStr "v0.7.2");
        ("Code", JInt 502); ("Message", JStr "say <""hi"" & bye>")].
Proof. split; [repeat (apply utf8_1; [reflexivity|]); apply utf8_nil | vm_compute; reflexivity]. Qed.

(** C59: the documents are UTF-8 and harmless where they are shown, whatever bytes go in. *)
Theorem C59_inert : forall g i v c m, inert (about_json g i v) /\ inert (status_json g i v c m).
Proof. exact bodies_inert. Qed.
Print Assumptions C59_inert.

Example C59_inert_case : ~ inert attack /\
  status_json "Chuba!" "unknown" "v1" 400 attack =
  "{""j8a"":""Chuba!"",""ServerID"":""unknown"",""Version"":""v1"",""Code"":400,""Message"":""\u003c/script\u003e\u2028\ufffd\u0000""}".
Proof. exact attack_case. Qed.

(** C60: codes registered with IANA have their registered phrase, in lower case. *)
Theorem C60_registered : forall code phrase, In (code, phrase) iana -> equal_fold (with_code code) phrase = true.
Proof. exact registered_phrase. Qed.
Print Assumptions C60_registered.

(** C60: codes neither registered nor in informal use have the general message. *)
Theorem C60_unknown : forall code, ~ In code (map fst iana) -> ~ In code informal ->
  with_code code = "unspecified response code".
Proof. exact unknown_code. Qed.
Print Assumptions C60_unknown.

(** C60: every entry of the table is found, so no entry hides another. *)
Theorem C60_table : forall code m,
  (In (code, m) http_responses -> with_code code = m) /\
  ((forall m', ~ In (code, m') http_responses) -> with_code code = "unspecified response code").
Proof. exact with_code_spec. Qed.
Print Assumptions C60_table.

Example C60_case : In (504, "Gateway Timeout")%Z iana /\ with_code 504 = "gateway timeout" /\
  ~ In 299%Z (map fst iana) /\ ~ In 299%Z informal.
Proof. repeat split; vm_compute; intuition discriminate. Qed.
