(** C99: the status in lines about attempts that failed. *)
From Coq Require Import String Ascii List Bool ZArith NArith.
From Verif Require Import GoStr Header Exchange Machine MachineSpec MachineRaces Startup StartupCases AttemptLog AttemptLogSpec AttemptLogCases AttemptCode.
Import ListNotations.
Local Open Scope string_scope.

(** It is positive and the one of the response to that attempt; without timeouts it is always there if there was a response. *)
Theorem C99_failure_code : forall c ls s, exec c init ls = Some s -> forall e o, In e (attempt_lines c ls) -> al_message e = Unsuccessful o ->
  exists n, of_attempt c (S n) e /\
    (forall z, o = Some z -> (0 < z)%Z /\ exists rs, answered ls n rs /\ ur_status rs = z) /\
    (~ In (LUpTimer n) ls -> ~ In LDwnTimer ls -> forall rs, answered ls n rs -> (0 < ur_status rs)%Z -> o = Some (ur_status rs)).
Proof. exact failure_code. Qed.
Print Assumptions C99_failure_code.

(** An attempt that is answered with 503 *)
Example C99_failure_case : let ls := ([LMain 0; LDo 0 (Some (UpResp 503 [])); LSetResp 0; LCloseHdr 0; LSel CComplete; LMain 0; LMain 0; LStatus 0; LRead 0 "" true; LGz 0; LCloseBody 0;
    LSel CComplete; LMain 0; LMain 0; LMain 0; LMain 0] ++ repeat (LMain 0) 6)%list in
  map (fun e => (al_attempt e, al_message e)) (attempt_lines (gets 1) ls) =
    [("1/1", Initialized); ("1/1", HeaderProcessed); ("1/1", BodyProcessed); ("1/1", Unsuccessful (Some 503%Z)); ("1/1", RetriesStopped)] /\
  (exists s, exec (gets 1) init ls = Some s) /\ answered ls 0 (UpResp 503 []) /\ ~ In (LUpTimer 0) ls /\ ~ In LDwnTimer ls.
Proof.
  split; [vm_compute; reflexivity|]. split; [|split; [cbn; tauto|split; cbn; intuition discriminate]].
  match goal with |- exists s, ?e = Some s => assert (X : (if e then true else false) = true) by (vm_compute; reflexivity); destruct e as [s|]; [now exists s|discriminate X] end.
Qed.
