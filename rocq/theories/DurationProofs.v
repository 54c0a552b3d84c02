(** Durations that are negative or below a microsecond. *)
From Coq Require Import String Ascii List Bool ZArith NArith Lia.
From Verif Require Import GoStr Tls CertText CertTextSpec CertTextProofs.
Import ListNotations.
Local Open Scope string_scope.

Lemma short_positive : forall n d, (0 < d < 1000)%Z -> durafmt n d = "".
Proof.
  intros n d H. rewrite durafmt_pos by lia. rewrite Z.div_small by lia. unfold eight. now destruct n.
Qed.

Lemma durafmt_short : forall n d, (-1000 < d < 1000)%Z ->
  durafmt n d = match Z.compare d 0 with Lt => "-" | Eq => "0 seconds" | Gt => "" end.
Proof.
  intros n d H. destruct (Z.compare_spec d 0) as [E|L|G].
  - subst d. reflexivity.
  - rewrite durafmt_negative by (unfold int64_min; lia). rewrite short_positive by lia. reflexivity.
  - apply short_positive. lia.
Qed.

Lemma durafmt_past : forall n d, 1 <= n -> (- 2 ^ 63 < d <= -1000)%Z -> exists ps, durafmt n d = "-" ++ join " " (map phrase ps) /\ tells_truly n ps (- d).
Proof.
  intros n d N H. change (2 ^ 63)%Z with 9223372036854775808%Z in H. destruct (durafmt_true n (- d) N ltac:(lia)) as (ps & E & T). exists ps. split; [|exact T].
  rewrite durafmt_negative by (unfold int64_min; lia). now rewrite E.
Qed.
