(** Proofs for [Thm_Timing], from the configuration document on, and cases. *)
From Coq Require Import String Ascii List Bool ZArith NArith Lia.
From Verif Require Import GoStr NumberSpec Header Exchange ExchangeProofs Startup StartupSpec StartupProofs Machine MachineSpec MachineRaces
  ConfigSpec ConfigProofs Config Jwt JwtSpec SystemSpec SystemProofs Handler HandlerSpec HandlerProofs Decode DecodeSpec DecodeProofs DecodeStart DecodeServe DecodeCases StartupCases
  Timing TimingSpec TimingProofs TimingMore TimingEarly.
Import ListNotations.
Local Open Scope string_scope.

(** The clock of a request in [t] *)
Definition clock_in (t : setting) (arrived entered delay : Z) : clock := clock_of (Config.c_down (t_cfg t)) (c_up (t_cfg t)) arrived entered delay.

Lemma lasts_unique : forall v d a b, lasts v d a -> lasts v d b -> a = b.
Proof. intros v d a b (x & [[X1 ->]|[X1 ->]] & ->) (y & [[Y1 ->]|[Y1 ->]] & ->); congruence. Qed.

Lemma document_timers : forall p h t float yaml d a e dl, written_in p h float yaml d -> StartupSpec.serves p h t ->
  (forall z, number_at (down "roundTripTimeoutSeconds") d z -> StartupSpec.fits z -> lasts z 240 (k_round (clock_in t a e dl))) /\
  (forall z, number_at (up "readTimeoutSeconds") d z -> StartupSpec.fits z -> lasts z 120 (k_read (clock_in t a e dl))).
Proof.
  intros p h t float yaml d a e dl W (li & c0 & _ & Ht & _ & Hu). assert (E := told_document _ _ _ _ _ _ W Ht). subst c0.
  destruct Hu as (_ & cfg1 & Hb & _ & _ & _ & Hup & Hdn & _). assert (N := number_read float d).
  assert (K1 : StartupSpec.fits 120) by (unfold StartupSpec.fits; lia). assert (K2 : StartupSpec.fits 240) by (unfold StartupSpec.fits; lia).
  unfold clock_in, clock_of. cbn [k_round k_read]. rewrite Hup, Hdn. split.
  - intros z Hz Hf. destruct (boot_down_filled _ _ _ _ _ Hb) as (_ & F & _).
    rewrite (N (down "roundTripTimeoutSeconds") (fun c => d_roundtrip_timeout (Config.c_down c)) z ltac:(in_table) Hz) in F.
    apply filled_lasts; [exact F|exact (filled_fits _ _ _ F Hf K2)].
  - intros z Hz Hf. destruct (boot_up_filled _ _ _ _ _ Hb) as (_ & _ & _ & F & _).
    rewrite (N (up "readTimeoutSeconds") (fun c => up_read_timeout (c_up c)) z ltac:(in_table) Hz) in F.
    apply filled_lasts; [exact F|exact (filled_fits _ _ _ F Hf K1)].
Qed.

Lemma document_most : forall p h t float yaml d c w, written_in p h float yaml d -> StartupSpec.serves p h t -> t_serve t = Upstream c -> sized (t_req t) ->
  number_at (up "maxAttempts") d w -> most c = Z.max 1 w.
Proof.
  intros p h t float yaml d c w W (li & c0 & _ & Ht & _ & Hu) Hs Hq Hw. assert (E := told_document _ _ _ _ _ _ W Ht). subst c0.
  assert (R : exists t' s, t_serve t' = t_serve t /\ t_req t' = t_req t /\ t_cfg t' = t_cfg t /\ ran t' c s).
  { exists (Setting (t_env t) (t_lib t) (t_new t) (t_cfg t) (t_chance t) (t_in t) []), init. repeat split; try reflexivity. exact Hs. }
  destruct R as (t' & s & E1 & E2 & E3 & Hr).
  destruct (ran_inv t' c s Hr ltac:(rewrite E2; exact Hq)) as (_ & _ & r & u & l & _ & _ & Ec). unfold most. rewrite Ec. cbn [c_max]. rewrite E3.
  destruct Hu as (_ & cfg1 & Hb & _ & _ & _ & Hup & _). rewrite Hup.
  destruct (boot_up_filled _ _ _ _ _ Hb) as (_ & _ & _ & _ & F & _).
  rewrite (number_read float d (up "maxAttempts") (fun c => up_max_attempts (c_up c)) w ltac:(in_table) Hw) in F.
  destruct F as [[-> ->]|[_ ->]]; reflexivity.
Qed.

Lemma document_in_time : forall p h t float yaml d c z n y m w a e dl xs ts, written_in p h float yaml d -> StartupSpec.serves p h t ->
  t_serve t = Upstream c -> sized (t_req t) ->
  number_at (down "roundTripTimeoutSeconds") d z -> StartupSpec.fits z -> lasts z 240 n ->
  number_at (up "readTimeoutSeconds") d y -> StartupSpec.fits y -> lasts y 120 m ->
  number_at (up "maxAttempts") d w -> (0 <= dl)%Z -> runs (clock_in t a e dl) c xs ts ->
  ((Z.max e (a + Z.max 0 n) + 24 * Z.max 1 w * dl < t_now ts)%Z \/ (e + Z.max 1 w * (Z.max 0 m + 25 * dl) < t_now ts)%Z -> finished (t_st ts)) /\
  (forall r u, answered_at (clock_in t a e dl) c xs r u -> rp_status r = 504%Z ->
     (a + Z.max 0 n <= u)%Z \/ exists i v, sent_at (clock_in t a e dl) c xs i v /\ (v + Z.max 0 m <= u)%Z).
Proof.
  intros p h t float yaml d c z n y m w a e dl xs ts W Hv Hs Hq Hz Fz Lz Hy Fy Ly Hw Hd Hr.
  destruct (document_timers p h t float yaml d a e dl W Hv) as [T1 T2].
  assert (En := lasts_unique _ _ _ _ (T1 z Hz Fz) Lz). assert (Em := lasts_unique _ _ _ _ (T2 y Hy Fy) Ly).
  assert (Ew := document_most p h t float yaml d c w W Hv Hs Hq Hw). split.
  - intros [H|H].
    + apply (over_in_time (clock_in t a e dl) c xs ts Hd Hr). rewrite En, Ew. exact H.
    + apply (over_in_attempts (clock_in t a e dl) c xs ts Hd Hr). rewrite Em, Ew. exact H.
  - intros r u A S5. pose proof (never_early (clock_in t a e dl) c xs r u Hd A S5) as X. rewrite En, Em in X. exact X.
Qed.

(** * Cases *)

(** Ten nanoseconds for the request, four for an attempt, and a delay of one. *)
Definition clock0 : clock := Clock 0 1 10 4 1.

(** The first attempt is not answered in time; the second is. *)
Definition slow : list tlabel :=
  ([Do (LMain 0); Tick 4; Do (LUpTimer 0); Do (LSel CUp); Do (LMain 0); Do (LMain 0); Do (LMain 0); Tick 1; Do (LMain 0);
    Do (LDo 1 (Some created)); Do (LSetResp 1); Do (LCloseHdr 1); Tick 1; Do (LSel CComplete); Do (LMain 0); Do (LMain 0);
    Do (LStatus 1); Do (LRead 1 "ok" true); Do (LGz 1); Do (LCloseBody 1); Do (LSel CComplete)] ++ repeat (Do (LMain 0)) 16)%list.

(** The first attempt fails, the second is answered. *)
Definition quick : list tlabel :=
  ([Do (LMain 0); Tick 2; Do (LDo 0 None); Do (LSetResp 0); Do (LCloseHdr 0); Do (LSel CComplete); Do (LMain 0); Do (LMain 0); Do (LMain 0); Do (LMain 0);
    Do (LDo 1 (Some created)); Do (LSetResp 1); Do (LCloseHdr 1); Tick 1; Do (LSel CComplete); Do (LMain 0); Do (LMain 0);
    Do (LStatus 1); Do (LRead 1 "ok" true); Do (LGz 1); Do (LCloseBody 1); Do (LSel CComplete)] ++ repeat (Do (LMain 0)) 16)%list.

(** Nothing is answered: the second attempt is given up when the time of the request is over. *)
Definition silent : list tlabel :=
  [Do (LMain 0); Tick 5; Do (LUpTimer 0); Tick 1; Do (LSel CUp); Do (LMain 0); Do (LMain 0); Do (LMain 0); Do (LMain 0);
   Tick 3; Do LDwnTimer; Tick 1; Do (LSel CDwn); Do (LMain 0); Do (LMain 0); Do (LMain 0); Do (LMain 0)].

Definition shown (k : clock) (xs : list tlabel) : option (Z * list Z) :=
  option_map (fun ts => (t_now ts, map rp_status (s_out (t_st ts)))) (texec k (gets 2) (tinit k) xs).

Lemma shown_runs : forall k xs, shown k xs <> None -> exists ts, runs k (gets 2) xs ts.
Proof.
  intros k xs H. unfold shown, runs in *. destruct (texec k (gets 2) (tinit k) xs) as [ts|]; [now exists ts|now elim H].
Qed.

(** A round trip timeout of 9223372037 seconds is no time at all. *)
Definition endless : downstream := Down 120 9223372037 120 2097152 "HTTP" 8080 "" "".
Definition usual : upstream := Upst 32768 120 3 120 1 false.


(** Finds the step that writes the response, and the one that sends request [i]. *)
Fixpoint writes_at (k : clock) (c : conf) (ts : tstate) (xs : list tlabel) : option (nat * Z * response) :=
  match xs with
  | [] => None
  | x :: xs' =>
      match tstep k c ts x with
      | Some ts' => match s_out (t_st ts), s_out (t_st ts') with
                    | [], [r] => Some (0%nat, t_now ts, r)
                    | _, _ => option_map (fun y => (S (fst (fst y)), snd (fst y), snd y)) (writes_at k c ts' xs')
                    end
      | None => None
      end
  end.

Lemma writes_found : forall k c xs ts0 n t r, writes_at k c ts0 xs = Some (n, t, r) ->
  exists xs1 x xs2 ts ts', xs = (xs1 ++ x :: xs2)%list /\ texec k c ts0 xs1 = Some ts /\ tstep k c ts x = Some ts' /\
    s_out (t_st ts) = [] /\ s_out (t_st ts') = [r] /\ t_now ts = t.
Proof.
  intros k c xs. induction xs as [|x xs IH]; intros ts0 n t r H; cbn [writes_at] in H; [discriminate|].
  destruct (tstep k c ts0 x) as [ts1|] eqn:E; [|discriminate].
  assert (G : option_map (fun y => (S (fst (fst y)), snd (fst y), snd y)) (writes_at k c ts1 xs) = Some (n, t, r) ->
    exists xs1 x0 xs2 ts ts', (x :: xs)%list = (xs1 ++ x0 :: xs2)%list /\ texec k c ts0 xs1 = Some ts /\ tstep k c ts x0 = Some ts' /\
    s_out (t_st ts) = [] /\ s_out (t_st ts') = [r] /\ t_now ts = t).
  { intros G. destruct (writes_at k c ts1 xs) as [[[n' t'] r']|] eqn:Ew; [|discriminate]. cbn [option_map fst snd] in G. injection G as _ <- <-.
    destruct (IH ts1 n' t' r' Ew) as (a & y & b & t1 & t2 & -> & H1 & H2). exists (x :: a), y, b, t1, t2. split; [reflexivity|].
    split; [cbn [texec]; now rewrite E|exact H2]. }
  destruct (s_out (t_st ts0)) as [|r0 o0] eqn:Eo; [|exact (G H)].
  destruct (s_out (t_st ts1)) as [|r1 [|r2 o1]] eqn:Eo1; try exact (G H).
  injection H as _ <- <-. exists [], x, xs, ts0, ts1. auto 10.
Qed.

Fixpoint sends_at (k : clock) (c : conf) (ts : tstate) (xs : list tlabel) : list (nat * Z) :=
  match xs with
  | [] => []
  | x :: xs' =>
      match tstep k c ts x with
      | Some ts' => if Nat.eqb (List.length (s_sent (t_st ts'))) (S (List.length (s_sent (t_st ts))))
                    then (List.length (s_sent (t_st ts)), t_now ts) :: sends_at k c ts' xs' else sends_at k c ts' xs'
      | None => []
      end
  end.

Lemma sends_found : forall k c xs ts0 i u, In (i, u) (sends_at k c ts0 xs) <->
  exists xs1 x xs2 ts ts', xs = (xs1 ++ x :: xs2)%list /\ texec k c ts0 xs1 = Some ts /\ tstep k c ts x = Some ts' /\
    List.length (s_sent (t_st ts)) = i /\ List.length (s_sent (t_st ts')) = S i /\ t_now ts = u.
Proof.
  intros k c xs. induction xs as [|x xs IH]; intros ts0 i u; cbn [sends_at].
  { split; [intros []|]. intros (a & y & b & t1 & t2 & E & _). destruct a; discriminate E. }
  assert (M : (exists xs1 x0 xs2 ts ts', (x :: xs)%list = (xs1 ++ x0 :: xs2)%list /\ texec k c ts0 xs1 = Some ts /\ tstep k c ts x0 = Some ts' /\
      List.length (s_sent (t_st ts)) = i /\ List.length (s_sent (t_st ts')) = S i /\ t_now ts = u) <->
    exists ts1, tstep k c ts0 x = Some ts1 /\ ((List.length (s_sent (t_st ts0)) = i /\ List.length (s_sent (t_st ts1)) = S i /\ t_now ts0 = u) \/ In (i, u) (sends_at k c ts1 xs))).
  { split.
    - intros ([|y a] & x0 & b & t1 & t2 & E & H1 & H2 & H3); cbn [app] in E.
      + injection E as <- <-. injection H1 as <-. exists t2. split; [exact H2|now left].
      + injection E as <- ->. cbn [texec] in H1. destruct (tstep k c ts0 x) as [ts1|]; [|discriminate]. exists ts1. split; [reflexivity|].
        right. apply IH. exists a, x0, b, t1, t2. auto 10.
    - intros (ts1 & E & [H|H]).
      + exists [], x, xs, ts0, ts1. auto 10.
      + apply IH in H. destruct H as (a & x0 & b & t1 & t2 & -> & H1 & H2). exists (x :: a), x0, b, t1, t2. split; [reflexivity|].
        split; [cbn [texec]; now rewrite E|exact H2]. }
  rewrite M. clear M. destruct (tstep k c ts0 x) as [ts1|].
  - destruct (Nat.eqb_spec (List.length (s_sent (t_st ts1))) (S (List.length (s_sent (t_st ts0))))) as [E|E].
    + split.
      * intros [H|H]; exists ts1; (split; [reflexivity|]); [injection H as <- <-; left; auto|now right].
      * intros (ts2 & X & [(H1 & H2 & H3)|H]); injection X as <-; [left; congruence|now right].
    + split.
      * intros H. exists ts1. split; [reflexivity|now right].
      * intros (ts2 & X & [(H1 & H2 & H3)|H]); injection X as <-; [congruence|exact H].
  - split; [intros []|]. intros (ts1 & X & _). discriminate X.
Qed.

Lemma endless_at_once : exists dn u c xs r, d_roundtrip_timeout dn = 9223372037%Z /\ up_read_timeout u = 120%Z /\
  answered_at (clock_of dn u 0 0 1) c xs r 0 /\ rp_status r = 504%Z.
Proof.
  exists endless, usual, (gets 1), [Do LDwnTimer; Do (LMain 0); Do (LSel CDwn); Do (LMain 0); Do (LMain 0); Do (LMain 0); Do (LMain 0)],
    (gave_up_downstream (gets 1) 0). split; [reflexivity|]. split; [reflexivity|]. split; [|vm_compute; reflexivity].
  apply (writes_found _ _ _ _ 6). vm_compute. reflexivity.
Qed.

Lemma quick_run : exists ts r, runs clock0 (gets 2) quick ts /\ answered_at clock0 (gets 2) quick r 4 /\ rp_status r = 201%Z /\ sent_at clock0 (gets 2) quick 1 3 /\
  (4 < k_arrived clock0 + Z.max 0 (k_round clock0))%Z /\ forall i u, sent_at clock0 (gets 2) quick i u -> (4 < u + Z.max 0 (k_read clock0))%Z.
Proof.
  destruct (shown_runs clock0 quick) as [ts E]; [vm_compute; discriminate|]. exists ts, (proxied toy 0 get_down created "ok"). split; [exact E|]. clear E ts.
  split; [apply (writes_found _ _ _ _ 34); vm_compute; reflexivity|]. split; [vm_compute; reflexivity|].
  assert (S2 : sends_at clock0 (gets 2) (tinit clock0) quick = [(0%nat, 1%Z); (1%nat, 3%Z)]) by (vm_compute; reflexivity).
  split; [apply sends_found; rewrite S2; right; now left|]. split; [reflexivity|].
  intros i u H. apply sends_found in H. rewrite S2 in H. destruct H as [H|[H|[]]]; injection H as <- <-; reflexivity.
Qed.

Lemma silent_run : exists r, answered_at clock0 (gets 2) silent r 11 /\ rp_status r = 504%Z.
Proof.
  exists (gave_up_downstream (gets 2) 0). split; [|vm_compute; reflexivity]. apply (writes_found _ _ _ _ 16). vm_compute. reflexivity.
Qed.

Lemma timed_runs : forall k c xs ts, (0 <= k_delay k)%Z -> runs k c xs ts -> exec c init (acts xs) = Some (t_st ts).
Proof. intros k c xs ts Hk R. exact (reach_exec c _ _ (v_reach _ _ _ _ (treached_tinv k c xs ts Hk (runs_treached k c xs ts R)))). Qed.

Lemma good_clock : number_at (down "roundTripTimeoutSeconds") good 0 /\ lasts 0 240 240000000000 /\ number_at (up "readTimeoutSeconds") good 0 /\
  lasts 0 120 120000000000 /\ number_at (up "maxAttempts") good 3 /\ StartupSpec.serves land (host0 "good" "VERSION" "v1") member_of_good /\
  clock_in member_of_good 0 0 1 = Clock 0 0 240000000000 120000000000 1.
Proof.
  assert (R : number_at (down "roundTripTimeoutSeconds") good 0).
  { right. split; [right; eexists; split; [member_|]; right; eexists; split; [member_|]; left; apply lacks_by; reflexivity|reflexivity]. }
  assert (U : number_at (up "readTimeoutSeconds") good 0).
  { right. split; [right; eexists; split; [member_|]; right; eexists; split; [member_|]; left; apply lacks_by; reflexivity|reflexivity]. }
  split; [exact R|]. split; [exists 240%Z; split; [left; split; reflexivity|reflexivity]|]. split; [exact U|].
  split; [exists 120%Z; split; [left; split; reflexivity|reflexivity]|]. split; [exact (proj2 (proj2 (proj2 (proj2 good_settings))))|].
  split; [exact good_served|]. vm_compute. reflexivity.
Qed.
