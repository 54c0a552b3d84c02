(** Proofs for [Thm_Retries]: when attempts are repeated. *)
From Coq Require Import String Ascii List Bool ZArith NArith Arith Lia.
From Verif Require Import GoStr Header Exchange Machine MachineSpec MachineProofs MachineTimely MachineRaces AttemptLog AccessLog
  Timing TimingSpec TimingProofs TimingMore TimingEarly TimingSystem Elapsed ElapsedSpec ElapsedProofs.
Import ListNotations.
Local Open Scope Z_scope.

(** What is known when attempt [S i] is about to be sent *)
Definition rinv (k : clock) (c : conf) (xs : list tlabel) (ts : tstate) : Prop :=
  s_pc (t_st ts) = PStart -> forall i, s_cur (t_st ts) = S i ->
    t_since ts <= t_dwn ts + k_delay k /\ exists u, sent_at k c xs i u /\ u <= t_since ts <= u + Z.max 0 (k_read k) + 24 * k_delay k.

Lemma rinv_runs : forall k c xs ts, 0 <= k_delay k -> runs k c xs ts -> rinv k c xs ts.
Proof.
  intros k c xs ts Hk R. apply runs_treached in R. induction R as [|xs ts y ts' R IH H]; [intros _ i E; discriminate E|].
  pose proof (treached_tinv k c xs ts Hk R) as V. pose proof (treached_runs k c xs ts R) as Rr. unfold rinv in *.
  destruct y as [d|l].
  - pose proof (tick_inv k c _ d ts' H) as (_ & _ & E). rewrite E. cbn [t_st t_since t_dwn]. intros P i Ei. destruct (IH P i Ei) as (D & u & U1 & U2).
    split; [exact D|]. exists u. split; [now apply sent_app|exact U2].
  - pose proof (do_inv k c _ l ts' H) as (_ & Hnow & Hs & Hdw & _ & Hsi). intros P i Ei. pose proof (v_reach _ _ _ _ V) as V0.
    destruct (cur_step c _ l _ Hs) as [Ec|(Ec & Ep & Hl & Pr)].
    + assert (Hl : by_handler l = false /\ s_pc (t_st ts) = PStart).
      { destruct (by_handler l) eqn:Hl; [|split; [reflexivity|]; destruct (others_stay c _ l _ Hs Hl) as [E _]; congruence].
        destruct (handler_moves c _ l _ Hs Hl) as [(_ & _ & X)|[_ X]]; [lia|]. rewrite P in X. cbn [pos] in X. lia. }
      destruct Hl as [Hl P0]. assert (Em : can_move (t_st ts) = true) by (unfold can_move; now rewrite P0).
      rewrite Hsi, Hl, Em, Hdw. cbn [orb negb]. destruct (IH P0 i ltac:(congruence)) as (D & u & U1 & U2). split; [exact D|].
      exists u. split; [now apply sent_app|exact U2].
    + rewrite Hsi, Hl, Hdw. cbn [orb]. rewrite Ec in Ei. injection Ei as <-.
      assert (D : s_dwn (t_st ts) = false).
      { clear - Hs Pr Ec. revert Hs Pr Ec. generalize (t_st ts') as s'. intros s' Hs Pr Ec. destruct (t_st ts) as [m n dw fl p sent out]. simp. subst p. step_cases Hs; simp; subst; try lia.
        match goal with E : may_retry _ _ && negb _ = true |- _ => apply retry_inv in E; destruct E as (_ & _ & E); unfold dwn_aborted in E; simp; destruct dw; [discriminate E|reflexivity] end. }
      split; [exact (v_dwn _ _ _ _ V D)|].
      assert (N1 : s_pc (t_st ts) <> PStart) by congruence. assert (N2 : ~ finished (t_st ts)) by (intros [X|X]; congruence).
      destruct (cur_sent k c xs ts Hk Rr N1 (fun X => N2 (or_intror X))) as (u & U1 & U2). pose proof (attempt_span k c xs ts Hk Rr N1 N2).
      pose proof (sent_before k c xs ts _ u Rr U1). exists u. split; [now apply sent_app|lia].
Qed.

(** The state from which an attempt is sent *)
Lemma sent_split : forall k c xs i t, 0 <= k_delay k -> sent_at k c xs i t ->
  exists xs1 xs2 ts, xs = (xs1 ++ xs2)%list /\ runs k c xs1 ts /\ t_now ts = t /\ s_pc (t_st ts) = PStart /\ s_cur (t_st ts) = i /\ t_now ts <= t_since ts + k_delay k.
Proof.
  intros k c xs i t Hk (xs1 & x & xs2 & ts & ts' & -> & R & H & L1 & L2 & T). exists xs1, (x :: xs2), ts.
  pose proof (treached_tinv k c xs1 ts Hk (runs_treached k c xs1 ts R)) as V. pose proof (v_reach _ _ _ _ V) as V0.
  destruct x as [d|l]; [apply tick_inv in H; destruct H as (_ & _ & E); rewrite E in L2; cbn [t_st] in L2; lia|].
  apply do_inv in H. destruct H as (_ & _ & Hs & _). destruct (sent_step c _ _ l _ V0 Hs) as [E|(_ & Eb & Ec)]; [lia|].
  assert (P : s_pc (t_st ts) = PStart) by (unfold begins in Eb; destruct (s_pc (t_st ts)); try discriminate Eb; reflexivity).
  split; [reflexivity|]. split; [exact R|]. split; [exact T|]. split; [exact P|]. split; [lia|]. apply (v_wait _ _ _ _ V). unfold can_move. now rewrite P.
Qed.

Lemma retry_when : forall k c xs i t, 0 <= k_delay k -> sent_at k c xs (S i) t ->
  (exists u, sent_at k c xs i u /\ u <= t <= u + Z.max 0 (k_read k) + 25 * k_delay k) /\
  t <= Z.max (k_entered k) (k_arrived k + Z.max 0 (k_round k)) + 2 * k_delay k.
Proof.
  intros k c xs i t Hk S0. destruct (sent_split k c xs (S i) t Hk S0) as (xs1 & xs2 & ts & -> & R & <- & P & Ec & W).
  destruct (rinv_runs k c xs1 ts Hk R P i Ec) as (D & u & U1 & U2).
  pose proof (treached_tinv k c xs1 ts Hk (runs_treached k c xs1 ts R)) as V. pose proof (v_since _ _ _ _ V). split.
  - exists u. split; [now apply sent_app|lia].
  - rewrite (v_due _ _ _ _ V) in D. cbn [tinit t_dwn] in D. unfold after in D. lia.
Qed.

Lemma first_when : forall k c xs t, 0 <= k_delay k -> sent_at k c xs 0 t -> k_entered k <= t <= k_entered k + k_delay k.
Proof.
  intros k c xs t Hk S0. destruct (sent_split k c xs 0 t Hk S0) as (xs1 & xs2 & ts & -> & R & <- & P & Ec & W).
  pose proof (runs_from k c xs1 ts R). destruct (treached_uinv k c xs1 ts Hk (runs_treached k c xs1 ts R)) as [W1 _ _]. specialize (W1 P). rewrite Ec in W1. lia.
Qed.

Lemma some_timer : forall ls, (exists i, In (LUpTimer i) ls) \/ forall i, ~ In (LUpTimer i) ls.
Proof.
  induction ls as [|l ls [[i IH]|IH]]; [right; intros i []|left; exists i; now right|].
  destruct l; try (right; intros j [X|X]; [discriminate X | now apply (IH j)]). left. exists i. now left.
Qed.

Lemma retry_why : forall k c xs i t, 0 <= k_delay k -> sent_at k c xs (S i) t ->
  failed_by k c xs i t \/ exists j u, (j <= i)%nat /\ sent_at k c xs j u /\ u + Z.max 0 (k_read k) <= t.
Proof.
  intros k c xs i t Hk S0. destruct (sent_split k c xs (S i) t Hk S0) as (xs1 & xs2 & ts & -> & R & <- & P & Ec & W).
  pose proof (runs_treached k c xs1 ts R) as T. pose proof (v_reach _ _ _ _ (treached_tinv k c xs1 ts Hk T)) as V0.
  destruct (some_timer (acts xs1)) as [[j Hj]|N].
  - right. destruct (fired_long_ago k c xs1 ts j Hk R Hj) as (u & U1 & U2). exists j, u.
    destruct (treached_sinv k c xs1 ts Hk T) as [Q1 _]. destruct (Q1 j u U1) as [L _]. rewrite (sent_start c _ _ V0 P), Ec in L.
    split; [lia|]. split; [now apply sent_app|exact U2].
  - left. pose proof (reach_exec c _ _ V0) as Ex. pose proof (on_time_if c _ _ Ex (or_introl N)) as Ht.
    destruct (t_old _ _ _ (treach_told c _ _ (exec_treach c _ _ Ex Ht)) i ltac:(lia)) as [F|F]; [|now elim (N i)].
    exists xs1, xs2, ts. split; [reflexivity|]. split; [exact R|]. split; [lia|exact F].
Qed.

Lemma retry_why_timely : forall k c xs i t, 0 <= k_delay k -> on_time c init (acts xs) -> sent_at k c xs (S i) t ->
  failed_by k c xs i t \/ exists u, sent_at k c xs i u /\ u + Z.max 0 (k_read k) <= t.
Proof.
  intros k c xs i t Hk Ht S0. destruct (sent_split k c xs (S i) t Hk S0) as (xs1 & xs2 & ts & -> & R & <- & P & Ec & W).
  pose proof (runs_treached k c xs1 ts R) as T. pose proof (v_reach _ _ _ _ (treached_tinv k c xs1 ts Hk T)) as V0.
  pose proof (reach_exec c _ _ V0) as Ex. rewrite acts_app in Ht. apply on_time_app in Ht. destruct Ht as [Ht _].
  destruct (t_old _ _ _ (treach_told c _ _ (exec_treach c _ _ Ex Ht)) i ltac:(lia)) as [F|F].
  - left. exists xs1, xs2, ts. split; [reflexivity|]. split; [exact R|]. split; [lia|exact F].
  - right. destruct (fired_long_ago k c xs1 ts i Hk R F) as (u & U1 & U2). exists u. split; [now apply sent_app|exact U2].
Qed.

(** * Cases *)

(** Attempt 0 is answered 503 when its time is over; attempt 1 is answered 201 in full, but the goroutine of attempt 0
    stores its response in attempt 1, which is therefore repeated. *)
Definition repeated : list tlabel :=
  [Do (LMain 0); Tick 4; Do (LDo 0 (Some (UpResp 503 []))); Do (LUpTimer 0); Do (LSel CUp); Do (LMain 0); Do (LMain 0); Do (LMain 0);
   Do (LMain 0); Do (LDo 1 (Some created)); Do (LSetResp 1); Do (LCloseHdr 1); Do (LSel CComplete); Do (LMain 0); Do (LMain 0);
   Do (LStatus 1); Do (LRead 1 "ok" true); Do (LGz 1); Do (LCloseBody 1); Do (LSel CComplete); Do (LSetResp 0);
   Do (LMain 0); Do (LMain 0); Do (LMain 0); Do (LMain 0); Do (LMain 0); Do (LMain 0)].

Lemma repeated_acts : acts repeated = [LMain 0; LDo 0 (Some (UpResp 503 [])); LUpTimer 0; LSel CUp; LMain 0; LMain 0; LMain 0;
   LMain 0; LDo 1 (Some created); LSetResp 1; LCloseHdr 1; LSel CComplete; LMain 0; LMain 0;
   LStatus 1; LRead 1 "ok" true; LGz 1; LCloseBody 1; LSel CComplete; LSetResp 0;
   LMain 0; LMain 0; LMain 0; LMain 0; LMain 0; LMain 0].
Proof. reflexivity. Qed.

Lemma needless : exists k c xs i t u rs body, 0 <= k_delay k /\ c_ok c = true /\ sent_at k c xs (S i) t /\ sent_at k c xs i u /\ t < u + Z.max 0 (k_read k) /\
  ~ failed_attempt (acts xs) i /\ answered (acts xs) i rs /\ ur_status rs = 201 /\ In (LRead i body true) (acts xs).
Proof.
  exists clock0, (gets 3), repeated, 1%nat, 5, 5, created, "ok"%string.
  assert (S2 : sends_at clock0 (gets 3) (tinit clock0) repeated = [(0%nat, 1); (1%nat, 5); (2%nat, 5)]) by (vm_compute; reflexivity).
  split; [vm_compute; discriminate|]. split; [reflexivity|].
  split; [apply sends_found; rewrite S2; right; right; now left|]. split; [apply sends_found; rewrite S2; right; now left|]. split; [reflexivity|].
  rewrite repeated_acts. split; [|split; [|split; [reflexivity|]]].
  - unfold failed_attempt, answered. intros [H|[[b H]|[rs [H1 H2]]]].
    + repeat (destruct H as [H|H]; [discriminate H|]). exact H.
    + repeat (destruct H as [H|H]; [discriminate H|]). exact H.
    + repeat (destruct H1 as [H1|H1]; [first [discriminate H1|injection H1 as <-; cbn in H2; lia]|]). exact H1.
  - unfold answered. do 8 right. now left.
  - do 15 right. now left.
Qed.

(** The second attempt of [slow] is sent one unit after the first is given up. *)
Lemma slow_sends : sent_at clock0 (gets 2) slow 1 6 /\ sent_at clock0 (gets 2) slow 0 1 /\ on_time (gets 2) init (acts slow).
Proof.
  assert (S2 : sends_at clock0 (gets 2) (tinit clock0) slow = [(0%nat, 1); (1%nat, 6)]) by (vm_compute; reflexivity).
  split; [apply sends_found; rewrite S2; right; now left|]. split; [apply sends_found; rewrite S2; now left|].
  vm_compute. repeat split.
Qed.

Lemma quick_sends : sent_at clock0 (gets 2) quick 1 3 /\ sent_at clock0 (gets 2) quick 0 1 /\ failed_by clock0 (gets 2) quick 0 3.
Proof.
  assert (S2 : sends_at clock0 (gets 2) (tinit clock0) quick = [(0%nat, 1); (1%nat, 3)]) by (vm_compute; reflexivity).
  split; [apply sends_found; rewrite S2; right; now left|]. split; [apply sends_found; rewrite S2; now left|].
  assert (E : shown clock0 (firstn 3 quick) = Some (3, [])) by (vm_compute; reflexivity). unfold shown in E.
  destruct (texec clock0 (gets 2) (tinit clock0) (firstn 3 quick)) as [ts|] eqn:R; [|discriminate E]. injection E as E1 E2.
  exists (firstn 3 quick), (skipn 3 quick), ts. split; [now rewrite firstn_skipn|]. split; [exact R|]. split; [lia|]. left. right. now left.
Qed.
