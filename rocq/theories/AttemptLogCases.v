(** Runs for the theorems about the bodies of upstream responses and the lines about attempts. *)
From Coq Require Import String Ascii List Bool ZArith NArith.
From Verif Require Import GoStr Header Exchange ExchangeProofs Machine MachineSpec MachineRaces Startup StartupCases
  AttemptLog AttemptLogSpec AttemptLogProofs.
Import ListNotations.
Local Open Scope string_scope.

(** Attempt 0 times out after its headers, attempt 1 is answered. *)
Definition second_wins : list label := (overtaken (UpResp 200 []) created "ok" ++ repeat (LMain 0) 12)%list.

(** The only attempt times out; the response to it comes after that. *)
Definition too_late : list label :=
  [LMain 0; LUpTimer 0; LSel CUp; LMain 0; LDo 0 (Some created); LMain 0; LMain 0; LMain 0; LMain 0; LMain 0].

Lemma second_runs : exists s, exec (gets 2) init second_wins = Some s /\ s_pc s = PDone.
Proof.
  destruct (outcome_some (exec (gets 2) init second_wins) PDone _ ltac:(vm_compute; reflexivity)) as (s & E1 & E2 & _).
  exists s. split; [exact E1|exact E2].
Qed.

Lemma late_runs : exists s, exec (gets 1) init too_late = Some s /\ s_pc s = PDone.
Proof.
  destruct (outcome_some (exec (gets 1) init too_late) PDone _ ltac:(vm_compute; reflexivity)) as (s & E1 & E2 & _).
  exists s. split; [exact E1|exact E2].
Qed.

Lemma bodies_case : (exists s, exec (gets 2) init second_wins = Some s /\ finished s) /\ closed_bodies (gets 2) init second_wins = [0; 1] /\
  answered second_wins 0 (UpResp 200 []) /\ answered second_wins 1 created /\
  (exists s, exec (gets 1) init too_late = Some s /\ finished s) /\ closed_bodies (gets 1) init too_late = [] /\ answered too_late 0 created.
Proof.
  split; [|split; [vm_compute; reflexivity|split; [right; left; reflexivity|split; [|split; [|split; [vm_compute; reflexivity|do 4 right; left; reflexivity]]]]]].
  - destruct second_runs as (s & H1 & H2). exists s. split; [exact H1|left; exact H2].
  - unfold answered, second_wins. apply in_or_app. left. do 14 right. left. reflexivity.
  - destruct late_runs as (s & H1 & H2). exists s. split; [exact H1|left; exact H2].
Qed.

Lemma second_timely : on_time (gets 2) init second_wins.
Proof. vm_compute. repeat split. Qed.

Lemma lines_case : (exists s, exec (gets 2) init second_wins = Some s /\ on_time (gets 2) init second_wins /\ s_pc s = PDone) /\
  map (fun e => (al_attempt e, al_message e)) (attempt_lines (gets 2) second_wins) =
    [("1/2", Initialized); ("1/2", HeaderProcessed); ("1/2", BodyTimeout); ("1/2", Unsuccessful (Some 200%Z));
     ("2/2", Initialized); ("2/2", HeaderProcessed); ("2/2", BodyProcessed); ("2/2", Successful 201); ("2/2", AsIs)] /\
  (exists s, exec (gets 1) init too_late = Some s /\ s_pc s = PDone) /\
  map (fun e => (al_attempt e, al_message e)) (attempt_lines (gets 1) too_late) =
    [("1/1", Initialized); ("1/1", HeaderTimeout); ("1/1", Unsuccessful None); ("1/1", RetriesStopped)].
Proof.
  split; [|split; [vm_compute; reflexivity|split; [exact late_runs|vm_compute; reflexivity]]].
  destruct second_runs as (s & H1 & H2). exists s. split; [exact H1|]. split; [exact second_timely|exact H2].
Qed.

Lemma other_code : exists c ls s e r, exec c init ls = Some s /\ c_ok c = true /\ s_pc s = PDone /\
  In e (attempt_lines c ls) /\ al_message e = Successful 201 /\ s_out s = [r] /\ rp_status r = 200%Z.
Proof.
  exists (gets 2), (late_status (UpResp 200 []) ++ [LMain 0])%list.
  destruct (outcome_some (exec (gets 2) init (late_status (UpResp 200 []) ++ [LMain 0])%list) _ _ ltac:(vm_compute; reflexivity)) as (s & E1 & E2 & E3).
  exists s, (attempt_line (gets 2) 1 (Successful 201)). eexists. split; [exact E1|]. split; [reflexivity|]. split; [exact E2|].
  split; [|split; [reflexivity|split; [exact E3|reflexivity]]].
  set (L := attempt_lines _ _). assert (F : nth_error L 7 = Some (attempt_line (gets 2) 1 (Successful 201))) by (vm_compute; reflexivity).
  exact (nth_error_In _ _ F).
Qed.

Lemma no_outcome : exists c ls s, exec c init ls = Some s /\ c_ok c = true /\ finished s /\ length (s_sent s) = 2 /\
  forall e, In e (attempt_lines c ls) -> of_attempt c 2 e -> ~ (succeeds e \/ fails e).
Proof.
  exists (gets 2), late_error.
  assert (H : option_map (fun s => (s_pc s, length (s_sent s))) (exec (gets 2) init late_error) = Some (PPanic, 2)) by (vm_compute; reflexivity).
  destruct (exec (gets 2) init late_error) as [s|]; [|discriminate H]. injection H as H1 H2. exists s. split; [reflexivity|]. split; [reflexivity|].
  split; [right; exact H1|]. split; [exact H2|].
  assert (F : forallb (fun e => negb (String.eqb (al_attempt e) "2/2") || match al_message e with Successful _ | Unsuccessful _ => false | _ => true end)
    (attempt_lines (gets 2) late_error) = true) by (vm_compute; reflexivity).
  intros e He Ha. apply (proj1 (forallb_forall _ _) F) in He. unfold of_attempt in Ha. change (numbered (gets 2) 2) with "2/2" in Ha.
  rewrite Ha in He. cbn in He. intros [[x X]|[x X]]; rewrite X in He; discriminate He.
Qed.

Lemma level_case :
  let q := Req "GET" "/a" "/a" [("X-Request-Debug", "True")] 0 "" true in
  asks q /\ to_upper (h_env (host0 "" "LOGLEVEL" "debug") "LOGLEVEL") = "DEBUG" /\
  length (written_lines (host0 "" "LOGLEVEL" "debug") q (gets 1) too_late) = 4 /\
  written_lines (host0 "" "LOGLEVEL" "info") q (gets 1) too_late = [].
Proof. split; [apply asked; reflexivity|]. split; [reflexivity|]. split; vm_compute; reflexivity. Qed.
