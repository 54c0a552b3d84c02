(** The dates of tokens, exactly (C41). *)
From Coq Require Import String List Bool ZArith.
From Verif Require Import GoStr Jwt JwtSpec JwtProofs JwtKeys JwtCases JwtDatesSpec JwtDates.
Import ListNotations.
Local Open Scope string_scope.

(** C41: which tokens are accepted, for all skews up to 292 years *)
Theorem C41_exactly_partial : forall pem kid0 j0 docs j L now auth token n skew c, reached pem kid0 j0 docs j -> In (j_alg j0) signing -> honest L ->
  bearer auth token -> lib_signatures L token = Some (S n) -> skew_is j skew -> expressible skew -> (0 <= now)%Z -> lib_parse L token = Some c -> dated c ->
  (fst (validate_jwt L now j auth) = Valid <->
   (exists kid k c, In (kid, k) (keys j) /\ lib_verify L (j_alg j0) k token = Some c) /\ in_time now skew c /\ ~ unskewed now skew c).
Proof. exact accepted_dates. Qed.
Print Assumptions C41_exactly_partial.

(** Only with skews of which a thousandfold is more than the time since 1970 is a token refused although it
    is in time. *)
Theorem C41_unskewed : forall now skew c, (0 <= now)%Z -> in_time now skew c -> unskewed now skew c -> (now < skew * 1000)%Z.
Proof. exact unskewed_large. Qed.
Print Assumptions C41_unskewed.

(** With a skew of 24 days a token issued ten seconds in the future is refused, one that expired is accepted. *)
Example C41_exactly_case :
  unskewed 1600000000 2000000 (Claims (Some 1600000010%Z) None None) /\ in_time 1600000000 2000000 (Claims (Some 1600000010%Z) None None) /\
  verify_date_claims 1600000000 2000000 (Claims (Some 1600000010%Z) None None) = false /\
  verify_date_claims 1600000000 2000000 (Claims (Some 1600000000%Z) None (Some 1599999990%Z)) = true.
Proof.
  split; [left; exists 1600000010%Z; split; [left; reflexivity|split; [reflexivity|vm_compute; discriminate]]|].
  split; [split; [intros t E; discriminate|split; intros t E; [injection E as <-; vm_compute; discriminate|discriminate]]|].
  split; vm_compute; reflexivity.
Qed.
