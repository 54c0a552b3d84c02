(** Runs in which a goroutine of an abandoned attempt writes late, and other runs for the theorems. *)
From Coq Require Import String Ascii List Bool ZArith NArith.
From Verif Require Import GoStr Header Exchange ExchangeProofs Machine MachineSpec.
Import ListNotations.
Local Open Scope string_scope.

Definition get_down : down := parse_incoming toy "r1" (Req "GET" "/a" "/a" [] 0 "" true).

(** A GET with up to [n] attempts. *)
Definition gets (n : Z) : conf := Conf toy get_down (scaffold_request get_down "http://up/a") true n.

(** Attempt 0 gets response headers, times out before its second goroutine does anything, and is
    followed by attempt 1, which has answered in full when the handler is about to look at the status. *)
Definition overtaken (rs0 rs1 : up_response) (body : string) : list label :=
  [LMain 0; LDo 0 (Some rs0); LSetResp 0; LCloseHdr 0; LSel CComplete; LMain 0; LMain 0; LUpTimer 0; LSel CUp;
   LMain 0; LMain 0; LMain 0; LMain 0;
   LMain 0; LDo 1 (Some rs1); LSetResp 1; LCloseHdr 1; LSel CComplete; LMain 0; LMain 0;
   LStatus 1; LRead 1 body true; LGz 1; LCloseBody 1; LSel CComplete; LMain 0; LMain 0; LMain 0; LMain 0].

Definition rest : list label := repeat (LMain 0) 11.

Definition created : up_response := UpResp 201 [("Location", "/b")].

(** The late status, then the response. *)
Definition late_status (rs0 : up_response) : list label := (overtaken rs0 created "ok" ++ LStatus 0 :: rest)%list.

(** The late gzip flag. *)
Definition late_gzip : list label :=
  (overtaken (UpResp 200 []) created "plain" ++
   LStatus 0 :: LRead 0 (String (ascii_of_N 31) (String (ascii_of_N 139) "x")) true :: LGz 0 :: repeat (LMain 0) 10)%list.

(** Attempt 0 fails; its goroutine stores the missing response in attempt 1. *)
Definition late_error : list label :=
  [LMain 0; LDo 0 None; LUpTimer 0; LSel CUp; LMain 0; LMain 0; LMain 0;
   LMain 0; LDo 1 (Some created); LSetResp 1; LCloseHdr 1; LSel CComplete; LMain 0; LMain 0;
   LStatus 1; LRead 1 "ok" true; LGz 1; LCloseBody 1; LSel CComplete; LMain 0; LMain 0; LMain 0;
   LSetResp 0; LMain 0].

(** One attempt, answered with [rs] and [body]. *)
Definition answer (rs : up_response) (body : string) : list label :=
  [LMain 0; LDo 0 (Some rs); LSetResp 0; LCloseHdr 0; LSel CComplete; LMain 0; LMain 0;
   LStatus 0; LRead 0 body true; LGz 0; LCloseBody 0; LSel CComplete].

Definition outcome (o : option state) : option (pc * list response) := option_map (fun s => (s_pc s, s_out s)) o.

(** The state reached, without computing it. *)
Lemma outcome_some : forall o p out, outcome o = Some (p, out) -> exists s, o = Some s /\ s_pc s = p /\ s_out s = out.
Proof. intros [s|] p out H; [|discriminate]. injection H as <- <-. now exists s. Qed.

Ltac in_cases H := repeat (destruct H as [H|H]; [try discriminate H|]); try contradiction H.

Lemma wrong_status : exists c ls s r, exec c init ls = Some s /\ c_ok c = true /\ s_out s = [r] /\
  rp_status r = 503%Z /\ (forall i rs, answered ls i rs -> (100 <= ur_status rs <= 999)%Z) /\
  ~ (rp_status r = 502%Z \/ rp_status r = 504%Z \/ exists i rs, answered ls i rs /\ rp_status r = ur_status rs /\ (ur_status rs < 500)%Z).
Proof.
  exists (gets 2), (late_status (UpResp 503 [])).
  destruct (outcome_some (exec (gets 2) init (late_status (UpResp 503 []))) _ _ ltac:(vm_compute; reflexivity)) as (s & E1 & E2 & E3).
  eexists s, _. split; [exact E1|]. split; [reflexivity|]. split; [exact E3|]. split; [reflexivity|].
  assert (A : forall i rs, answered (late_status (UpResp 503 [])) i rs -> rs = UpResp 503 [] \/ rs = created).
  { intros i rs H. vm_compute in H. unfold created.
    repeat (destruct H as [H|H]; [try discriminate H; injection H as <- <-; auto|]). contradiction H. }
  split.
  - intros i rs H. destruct (A i rs H) as [-> | ->]; cbn; split; discriminate.
  - intros [H|[H|(i & rs & H1 & H2 & H3)]]; [discriminate H | discriminate H|].
    destruct (A i rs H1) as [-> | ->]; [discriminate H3 | discriminate H2].
Qed.

Lemma mixed_status : exists c ls s r, exec c init ls = Some s /\ c_ok c = true /\ s_out s = [r] /\
  (forall i rs, answered ls i rs -> ur_status rs = 200%Z \/ ur_status rs = 201%Z) /\
  ~ exists i dice rs body, answered ls i rs /\ In (LRead i body true) ls /\ r = proxied (c_env c) dice (c_down c) rs body.
Proof.
  exists (gets 2), (late_status (UpResp 200 [])).
  destruct (outcome_some (exec (gets 2) init (late_status (UpResp 200 []))) _ _ ltac:(vm_compute; reflexivity)) as (s & E1 & E2 & E3).
  eexists s, _. split; [exact E1|]. split; [reflexivity|]. split; [exact E3|]. split.
  - intros i rs H. vm_compute in H. repeat (destruct H as [H|H]; [try discriminate H; injection H as <- <-; auto|]). contradiction H.
  - intros (i & dice & rs & body & H1 & H2 & H3). apply (f_equal rp_status) in H3. vm_compute in H1, H2.
    repeat (destruct H2 as [H2|H2]; [try discriminate H2; injection H2 as <- <-|]); [|contradiction H2].
    repeat (destruct H1 as [H1|H1]; [try discriminate H1; injection H1 as <-|]); [|contradiction H1].
    vm_compute in H3. discriminate H3.
Qed.

Lemma mixed_gzip : exists c ls s r, exec c init ls = Some s /\ c_ok c = true /\ s_out s = [r] /\
  (forall i rs, answered ls i rs -> values "Content-Encoding" (ur_header rs) = []) /\
  In (LRead 1 "plain" true) ls /\ rp_status r = 200%Z /\ rp_body r = "ain".
Proof.
  exists (gets 2), late_gzip.
  destruct (outcome_some (exec (gets 2) init late_gzip) _ _ ltac:(vm_compute; reflexivity)) as (s & E1 & E2 & E3).
  eexists s, _. split; [exact E1|]. split; [reflexivity|]. split; [exact E3|]. split; [|split; [|split]].
  - intros i rs H. vm_compute in H. repeat (destruct H as [H|H]; [try discriminate H; injection H as <- <-; auto|]). contradiction H.
  - apply in_or_app. left. cbn [overtaken In]. auto 40.
  - reflexivity.
  - reflexivity.
Qed.

Lemma late_panic : exists c ls s, exec c init ls = Some s /\ c_ok c = true /\
  (forall i rs, answered ls i rs -> (100 <= ur_status rs <= 999)%Z) /\ s_pc s = PPanic /\ s_out s = [].
Proof.
  exists (gets 2), late_error.
  destruct (outcome_some (exec (gets 2) init late_error) _ _ ltac:(vm_compute; reflexivity)) as (s & E1 & E2 & E3).
  exists s. split; [exact E1|]. split; [reflexivity|]. split; [|split; [exact E2 | exact E3]].
  intros i rs H. vm_compute in H. repeat (destruct H as [H|H]; [try discriminate H; injection H as <- <-; cbn; split; discriminate|]). contradiction H.
Qed.

Lemma code_panic : exists c ls s, exec c init ls = Some s /\ on_time c init ls /\ c_ok c = true /\ c_max c = 1%Z /\
  (forall i rs, answered ls i rs -> ur_status rs = 42%Z) /\ s_pc s = PPanic /\ s_out s = [].
Proof.
  exists (gets 1), (answer (UpResp 42 []) "" ++ repeat (LMain 0) 11)%list.
  destruct (outcome_some (exec (gets 1) init (answer (UpResp 42 []) "" ++ repeat (LMain 0) 11)) _ _ ltac:(vm_compute; reflexivity)) as (s & E1 & E2 & E3).
  exists s. split; [exact E1|]. split; [vm_compute; tauto|]. split; [reflexivity|]. split; [reflexivity|]. split; [|split; [exact E2 | exact E3]].
  intros i rs H. vm_compute in H. repeat (destruct H as [H|H]; [try discriminate H; injection H as <- <-; reflexivity|]). contradiction H.
Qed.

Lemma no_answer : exists c ls s, exec c init ls = Some s /\ c_ok c = true /\ finished s /\ s_out s = [].
Proof.
  destruct late_panic as (c & ls & s & H1 & H2 & _ & H3 & H4). exists c, ls, s. repeat split; auto. now right.
Qed.
