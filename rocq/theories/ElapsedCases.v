(** Cases for [Thm_Elapsed]. *)
From Coq Require Import String List Bool ZArith Lia.
From Verif Require Import GoStr Header Exchange Machine MachineRaces AttemptLog AccessLog AccessLogCases Timing TimingSpec TimingSystem Elapsed ElapsedSpec.
Import ListNotations.
Local Open Scope Z_scope.

Definition home_request : request := Req "GET" "/a" "/a" [] 0 "" true.

(** Twenty milliseconds for the request, eight for an attempt, and a delay of two microseconds; the request is handled
    three microseconds after its begin. *)
Definition clock1 : clock := Clock 0 3500 20000000 8000000 2000.

(** The first attempt is not answered in time, the second is after half a millisecond; there is a delay while the
    response is logged. *)
Definition slow1 : list tlabel :=
  ([Tick 1000; Do (LMain 0); Tick 8000000; Do (LUpTimer 0); Tick 1000; Do (LSel CUp); Do (LMain 0); Do (LMain 0); Do (LMain 0); Tick 1000; Do (LMain 0); Tick 500000;
    Do (LDo 1 (Some created)); Do (LSetResp 1); Do (LCloseHdr 1); Tick 1000; Do (LSel CComplete); Do (LMain 0); Do (LMain 0);
    Do (LStatus 1); Do (LRead 1 "ok" true); Do (LGz 1); Do (LCloseBody 1); Do (LSel CComplete)] ++ repeat (Do (LMain 0)) 14 ++ Tick 2000 :: repeat (Do (LMain 0)) 2)%list.

(** No attempt is answered. *)
Definition silent1 : list tlabel :=
  ([Do (LMain 0); Tick 8000000; Do (LUpTimer 0); Do (LSel CUp); Do (LMain 0); Do (LMain 0); Do (LMain 0); Do (LMain 0); Tick 8000000; Do (LUpTimer 1); Do (LSel CUp)] ++
   repeat (Do (LMain 0)) 6)%list.

(** The time of the request, twelve milliseconds, is over while the second attempt is waited for. *)
Definition clock3 : clock := Clock 0 3500 12000000 8000000 2000.
Definition silent2 : list tlabel :=
  ([Do (LMain 0); Tick 8000000; Do (LUpTimer 0); Do (LSel CUp); Do (LMain 0); Do (LMain 0); Do (LMain 0); Do (LMain 0); Tick 3996500; Do LDwnTimer; Tick 1000; Do (LSel CDwn)] ++
   repeat (Do (LMain 0)) 5)%list.

(** The only attempt is answered; there is a delay while the response is logged. *)
Definition clock2 : clock := Clock 0 0 20000000 8000000 2000.
Definition late_log : list tlabel :=
  ([Do (LMain 0); Tick 500000; Do (LDo 0 (Some created)); Do (LSetResp 0); Do (LCloseHdr 0); Do (LSel CComplete); Do (LMain 0); Do (LMain 0);
    Do (LStatus 0); Do (LRead 0 "ok" true); Do (LGz 0); Do (LCloseBody 0); Do (LSel CComplete)] ++ repeat (Do (LMain 0)) 14 ++ Tick 2000 :: repeat (Do (LMain 0)) 2)%list.

(** Times, and durations: of the attempt first, then of the request *)
Definition told (k : clock) (xs : list tlabel) : option (list (Z * (message + Z * option string) * option Z * Z)) :=
  option_map (map (fun e => match e with
                            | (t, EAttempt a up dwn) => (t, inl (al_message a), Some up, dwn)
                            | (t, EResponse e dwn up) => (t, inr (l_status e, l_error e), up, dwn)
                            end)) (durations k (gets 2) "up" from_home home_request xs).

Definition slow_lines : list (Z * (message + Z * option string) * option Z * Z) :=
  [(3500, inl Initialized, Some 0, 3); (8005500, inl HeaderTimeout, Some 8002, 8005); (8005500, inl (Unsuccessful None), Some 8002, 8005);
   (8005500, inl Initialized, Some 0, 8005); (8507500, inl HeaderProcessed, Some 502, 8507); (8507500, inl BodyProcessed, Some 502, 8507);
   (8507500, inl (Successful 201), Some 502, 8507); (8507500, inl AsIs, Some 502, 8507); (8509500, inr (201, None), Some 504, 8507)].

Lemma slow_told : told clock1 slow1 = Some slow_lines.
Proof. vm_compute. reflexivity. Qed.

Definition last_line {A : Type} (o : option (list A)) : option A := match o with Some l => nth_error l (Nat.pred (List.length l)) | None => None end.

Lemma silent_told : last_line (told clock1 silent1) = Some (16003500, inr (504, Some read_timeout_text), None, 16003) /\
  last_line (told clock3 silent2) = Some (12001000, inr (504, Some round_trip_text), None, 12001).
Proof. split; vm_compute; reflexivity. Qed.

(** A line with an attempt that lasts longer than its request *)
Definition longer (e : Z * eline) : bool := match snd e with EResponse _ dwn (Some up) => Z.ltb dwn up | _ => false end.

Lemma late_told : match durations clock2 (gets 2) "up" from_home home_request late_log with Some L => existsb longer L | None => false end = true.
Proof. vm_compute. reflexivity. Qed.

Lemma longer_than_request : exists k c lab x q xs L t e up dwn, k_arrived k <= k_entered k /\ 0 <= k_delay k /\ 0 < k_round k /\ 0 < k_read k /\ c_ok c = true /\
  durations k c lab x q xs = Some L /\ In (t, EResponse e dwn (Some up)) L /\ dwn < up.
Proof.
  exists clock2, (gets 2), "up"%string, from_home, home_request, late_log. pose proof late_told as H.
  destruct (durations clock2 (gets 2) "up" from_home home_request late_log) as [L|]; [|discriminate H].
  apply existsb_exists in H. destruct H as ([t [a u d|e d [u|]]] & Hi & Hl); try discriminate Hl. apply Z.ltb_lt in Hl.
  exists L, t, e, u, d. split; [cbn; lia|]. split; [cbn; lia|]. split; [cbn; lia|]. split; [cbn; lia|]. split; [reflexivity|]. split; [reflexivity|]. split; [exact Hi|exact Hl].
Qed.
