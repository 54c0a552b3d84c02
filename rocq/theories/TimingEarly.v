(** More proofs for [Thm_Timing]: nothing is given up early, and time can always pass. *)
From Coq Require Import String Ascii List Bool ZArith NArith Arith Lia.
From Verif Require Import GoStr Header Exchange Machine MachineSpec MachineProofs MachineTimely Timing TimingSpec TimingProofs TimingMore.
Import ListNotations.
Local Open Scope Z_scope.

(** * When requests are sent *)

Lemma sent_app : forall k c xs ys i u, sent_at k c xs i u -> sent_at k c (xs ++ ys) i u.
Proof.
  intros k c xs ys i u (a & x & b & ts & ts' & -> & H). exists a, x, (b ++ ys)%list, ts, ts'. rewrite <- app_assoc. split; [reflexivity | exact H].
Qed.

Lemma snoc_split : forall (A : Type) (a : list A) x b xs y, (a ++ x :: b)%list = (xs ++ [y])%list ->
  (a = xs /\ x = y /\ b = []) \/ exists b', b = (b' ++ [y])%list /\ xs = (a ++ x :: b')%list.
Proof.
  intros A a x b xs y E. destruct b as [|z b _] using rev_ind.
  - left. apply app_inj_tail in E. destruct E as [-> ->]. auto.
  - right. exists b. rewrite app_comm_cons, app_assoc in E. apply app_inj_tail in E. destruct E as [E ->]. split; [reflexivity | now rewrite <- E].
Qed.

Lemma sent_snoc : forall k c xs x ts ts' i u, runs k c xs ts -> tstep k c ts x = Some ts' -> sent_at k c (xs ++ [x]) i u ->
  sent_at k c xs i u \/ (length (s_sent (t_st ts)) = i /\ length (s_sent (t_st ts')) = S i /\ t_now ts = u).
Proof.
  intros k c xs x ts ts' i u R H (a & y & b & t1 & t2 & E & R1 & H1 & L1 & L2 & T). symmetry in E. apply snoc_split in E.
  destruct E as [(-> & -> & ->)|(b' & -> & ->)].
  - right. assert (t1 = ts) by (unfold runs in *; congruence). subst t1. assert (t2 = ts') by congruence. subst t2. auto.
  - left. exists a, y, b', t1, t2. auto 10.
Qed.

Lemma sent_step : forall c ls s l s', reach c ls s -> step c s l = Some s' ->
  length (s_sent s') = length (s_sent s) \/ (length (s_sent s') = S (length (s_sent s)) /\ begins s l = true /\ length (s_sent s) = s_cur s).
Proof.
  intros c ls s l s' R H. pose proof (k_all _ _ _ (reach_counts c ls s R)) as K. unfold begins.
  destruct s as [m n dw fl p sent out]. simp.
  step_cases H; simp; subst; auto. right. specialize (K ltac:(discriminate)). cbn [pos Nat.eqb] in K. rewrite app_length. cbn [length]. repeat split; lia.
Qed.

Lemma sent_start : forall c ls s, reach c ls s -> s_pc s = PStart -> length (s_sent s) = s_cur s.
Proof.
  intros c ls s R P. pose proof (k_all _ _ _ (reach_counts c ls s R)) as K. rewrite P in K. specialize (K ltac:(discriminate)). cbn [pos Nat.eqb] in K. lia.
Qed.

Record sinv (k : clock) (c : conf) (xs : list tlabel) (ts : tstate) : Prop := {
  q_sent : forall i u, sent_at k c xs i u -> (i < length (s_sent (t_st ts)))%nat /\ t_up ts i = u + Z.max 0 (k_read k);
  q_all : forall i, (i < length (s_sent (t_st ts)))%nat -> exists u, sent_at k c xs i u }.

Lemma treached_sinv : forall k c xs ts, 0 <= k_delay k -> treached k c xs ts -> sinv k c xs ts.
Proof.
  intros k c xs ts Hk R. induction R as [|xs ts x ts' R [Q1 Q2] H].
  - constructor.
    + intros i u (a & x & b & t1 & t2 & E & _). destruct a; discriminate E.
    + cbn. intros i Hi. lia.
  - pose proof (v_reach _ _ _ _ (treached_tinv k c xs ts Hk R)) as V0. pose proof (treached_runs k c xs ts R) as Rr.
    destruct x as [d|l].
    + destruct (tick_inv k c ts d ts' H) as (_ & _ & E). constructor.
      * intros i u S0. destruct (sent_snoc k c xs _ ts ts' i u Rr H S0) as [S1|(L1 & L2 & _)].
        -- rewrite E. cbn [t_st t_up]. now apply Q1.
        -- rewrite E in L2. cbn [t_st] in L2. lia.
      * rewrite E. cbn [t_st]. intros i Hi. destruct (Q2 i Hi) as [u Hu]. exists u. now apply sent_app.
    + destruct (do_inv k c ts l ts' H) as (Hd & Hnow & Hs & Hdw & Hup & Hsi). constructor.
      * intros i u S0. destruct (sent_snoc k c xs _ ts ts' i u Rr H S0) as [S1|(L1 & L2 & Hu)].
        -- destruct (Q1 i u S1) as [Q3 Q4]. rewrite Hup. destruct (sent_step c _ _ l _ V0 Hs) as [E|(E & Eb & Ec)].
           ++ split; [lia|]. destruct (begins (t_st ts) l) eqn:Eb; cbn [andb]; [|exact Q4].
              assert (P : s_pc (t_st ts) = PStart) by (unfold begins in Eb; destruct (s_pc (t_st ts)); try discriminate Eb; reflexivity).
              pose proof (sent_start c _ _ V0 P). destruct (Nat.eqb_spec i (s_cur (t_st ts))); [lia | exact Q4].
           ++ split; [lia|]. rewrite Eb. cbn [andb]. destruct (Nat.eqb_spec i (s_cur (t_st ts))); [lia | exact Q4].
        -- split; [lia|]. rewrite Hup. destruct (sent_step c _ _ l _ V0 Hs) as [E|(E & Eb & Ec)]; [lia|].
           rewrite Eb, <- Ec, <- L1, Nat.eqb_refl. cbn [andb]. unfold after. lia.
      * intros i Hi. destruct (sent_step c _ _ l _ V0 Hs) as [E|(E & Eb & Ec)].
        -- rewrite E in Hi. destruct (Q2 i Hi) as [u Hu]. exists u. now apply sent_app.
        -- destruct (Nat.lt_ge_cases i (length (s_sent (t_st ts)))) as [Hlt|Hge]; [destruct (Q2 i Hlt) as [u Hu]; exists u; now apply sent_app|].
           exists (t_now ts). exists xs, (Do l), [], ts, ts'. assert (i = length (s_sent (t_st ts))) by lia. subst i. auto 10.
Qed.

(** An attempt whose timer has fired was sent long enough ago. *)
Lemma fired_long_ago : forall k c xs ts i, 0 <= k_delay k -> runs k c xs ts -> In (LUpTimer i) (acts xs) ->
  exists u, sent_at k c xs i u /\ u + Z.max 0 (k_read k) <= t_now ts.
Proof.
  intros k c xs ts i Hk R Hi. pose proof (runs_treached k c xs ts R) as T. pose proof (treached_tinv k c xs ts Hk T) as V.
  destruct (treached_sinv k c xs ts Hk T) as [Q1 Q2]. pose proof (v_reach _ _ _ _ V) as V0.
  assert (L : (i < length (s_sent (t_st ts)))%nat).
  { pose proof (fired_begun c _ _ V0 i Hi) as Hb. pose proof (reach_hist c _ _ V0) as Hh.
    assert (Hc : (i <= s_cur (t_st ts))%nat).
    { destruct (Nat.le_gt_cases i (s_cur (t_st ts))) as [|Hg]; [assumption|]. now destruct (h_new _ _ _ Hh i Hg) as (E & _). }
    clear - V0 Hb Hc. revert Hb Hc. generalize (acts xs) as ls, (t_st ts) as s, V0. clear. intros ls s R.
    (* sent requests and begun attempts *)
    induction R as [|ls s l s' R IH H]; [intros B; now elim B|]. intros B C.
    pose proof (reach_hist c ls s R) as Hh.
    destruct (sent_step c ls s l s' R H) as [E|(E & Eb & Ec)].
    - rewrite E. apply IH.
      + intros X. apply B. clear - H X E C Hh Hh. destruct Hh as [Hg Hn Hp Ho]. destruct s as [m n dw fl p sent out]. simp.
        step_cases H; simp; subst; unfold upd in *; simp;
        repeat match goal with |- context [Nat.eqb ?a ?b] => destruct (Nat.eqb_spec a b); subst; simp end; try assumption; try congruence; try reflexivity.
        rewrite app_length in E. cbn in E. lia.
      + pose proof (cur_mono c s l s' H). destruct (Nat.le_gt_cases i (s_cur s)) as [|Hg]; [assumption|]. exfalso.
        apply B. clear IH. destruct (h_new _ _ _ Hh i Hg) as (N & _). destruct s as [m n dw fl p sent out]. simp.
        step_cases H; simp; subst; unfold upd; simp; try lia;
        repeat match goal with |- context [Nat.eqb ?a ?b] => destruct (Nat.eqb_spec a b); subst; simp end; try assumption; try reflexivity; try lia.
    - rewrite E, Ec. assert (s_cur s' = s_cur s).
      { clear - H Eb. unfold begins in Eb. destruct s as [m n dw fl p sent out]. simp. step_cases H; simp; subst; try discriminate Eb; reflexivity. }
      lia. }
  destruct (Q2 i L) as [u Hu]. exists u. split; [exact Hu|]. destruct (Q1 i u Hu) as [_ E]. rewrite <- E. exact (v_upast _ _ _ _ V i Hi).
Qed.

Lemma dwn_long_ago : forall k c xs ts, 0 <= k_delay k -> runs k c xs ts -> In LDwnTimer (acts xs) ->
  k_arrived k + Z.max 0 (k_round k) <= t_now ts.
Proof.
  intros k c xs ts Hk R Hi. pose proof (treached_tinv k c xs ts Hk (runs_treached k c xs ts R)) as V.
  pose proof (v_reach _ _ _ _ V) as V0. apply (k_dwn _ _ _ (reach_counts c _ _ V0)) in Hi.
  pose proof (v_dpast _ _ _ _ V Hi) as D. rewrite (v_due _ _ _ _ V) in D. cbn [tinit t_dwn] in D. unfold after in D. lia.
Qed.

(** * Responses *)

Lemma sent_prefix : forall k c a x b i u, sent_at k c a i u -> sent_at k c (a ++ x :: b) i u.
Proof. intros. now apply sent_app. Qed.

Lemma never_early : forall k c xs r t, 0 <= k_delay k -> answered_at k c xs r t -> rp_status r = 504 ->
  k_arrived k + Z.max 0 (k_round k) <= t \/ exists i u, sent_at k c xs i u /\ u + Z.max 0 (k_read k) <= t.
Proof.
  intros k c xs r t Hk (a & x & b & ts & ts' & -> & R & H & O1 & O2 & <-) Hr.
  pose proof (v_reach _ _ _ _ (treached_tinv k c a ts Hk (runs_treached k c a ts R))) as V0.
  assert (C : (exists i, In (LUpTimer i) (acts a)) \/ forall i, ~ In (LUpTimer i) (acts a)).
  { generalize (acts a). intros ls. induction ls as [|l ls [[i IH]|IH]]; [right; intros i []|left; exists i; now right|].
    destruct l; try (right; intros j [X|X]; [discriminate X | now apply (IH j)]). left. exists i. now left. }
  destruct C as [[i Hi]|C].
  - right. destruct (fired_long_ago k c a ts i Hk R Hi) as (u & Hu & Hle). exists i, u. split; [now apply sent_app | exact Hle].
  - left. apply (dwn_long_ago k c a ts Hk R). pose proof (reach_exec c _ _ V0) as Ex.
    pose proof (on_time_if c _ _ Ex (or_introl C)) as Ht.
    destruct x as [d|l]; [apply tick_inv in H; destruct H as (_ & _ & E); rewrite E in O2; cbn [t_st] in O2; congruence|].
    apply do_inv in H. destruct H as (_ & _ & Hs & _).
    destruct (exact_kinds c _ _ l _ Ex Ht Hs O1) as [X|[r' [X1 X2]]]; [congruence|]. assert (r' = r) by congruence. subst r'.
    destruct X2 as [(dice & _ & Y)|[(dice & _ & Y & _)|[(dice & Y & _)|(dice & rs & body & _ & _ & Y & ->)]]].
    + exact Y.
    + now elim (C (s_cur (t_st ts))).
    + rewrite Y in Hr. discriminate Hr.
    + rewrite proxied_status in Hr. lia.
Qed.

Lemma wrote_log : forall c s l s' r, step c s l = Some s' -> s_out s = [] -> s_out s' = [r] -> s_pc s' = PLog1.
Proof.
  intros c s l s' r H O1 O2. destruct s as [m n dw fl p sent out]. simp. subst out. step_cases H; simp; subst; simp; try discriminate; auto.
Qed.

Lemma after_out_step : forall c s l s', after_out (s_pc s) -> step c s l = Some s' -> after_out (s_pc s') /\ s_sent s' = s_sent s.
Proof.
  intros c s l s' A H. destruct s as [m n dw fl p sent out]. simp. step_cases H; simp; subst; simp; try contradiction; auto.
Qed.

Lemma answers_in_time : forall k c xs ts r t, 0 <= k_delay k -> runs k c xs ts -> answered_at k c xs r t ->
  t < k_arrived k + Z.max 0 (k_round k) -> (forall i u, sent_at k c xs i u -> t < u + Z.max 0 (k_read k)) ->
  let n := Nat.pred (length (s_sent (t_st ts))) in
  (forall i, (i < n)%nat -> failed_attempt (acts xs) i) /\
  ((exists dice rs body, answered (acts xs) n rs /\ In (LRead n body true) (acts xs) /\ ur_status rs < 500 /\
      r = proxied (c_env c) dice (c_down c) rs body) \/
   (exists dice, failed_attempt (acts xs) n /\ exhausted c (t_st ts) /\ r = gave_up_error c dice)).
Proof.
  intros k c xs ts r t Hk R (a & x & b & t1 & t2 & -> & R1 & H & O1 & O2 & <-) Hd Hu n.
  pose proof (v_reach _ _ _ _ (treached_tinv k c a t1 Hk (runs_treached k c a t1 R1))) as V1.
  destruct x as [d|l]; [apply tick_inv in H; destruct H as (_ & _ & E); rewrite E in O2; cbn [t_st] in O2; congruence|].
  assert (R2 : runs k c (a ++ [Do l]) t2) by (unfold runs in *; rewrite texec_app, R1; cbn [texec]; now rewrite H).
  pose proof (v_reach _ _ _ _ (treached_tinv k c _ t2 Hk (runs_treached k c _ t2 R2))) as V2. rewrite acts_app in V2. cbn [acts] in V2.
  apply do_inv in H. destruct H as (_ & Hnow & Hs & _).
  assert (Nu : forall i, ~ In (LUpTimer i) (acts a ++ [l])).
  { intros i Hi. apply in_app_or in Hi. destruct Hi as [Hi|[Hi|[]]].
    - destruct (fired_long_ago k c a t1 i Hk R1 Hi) as (u & Su & Hle). specialize (Hu i u (sent_app k c a _ i u Su)). lia.
    - subst l. cbn [step goroutine_step] in Hs. destruct (a_h (s_att (t_st t1) i)); [discriminate Hs| | | |];
      destruct (a_ctx (s_att (t_st t1) i)); try discriminate Hs; injection Hs as E; rewrite <- E in O2; cbn [with_atts s_out] in O2; congruence. }
  assert (Nd : ~ In LDwnTimer (acts a ++ [l])).
  { intros Hi. apply in_app_or in Hi. destruct Hi as [Hi|[Hi|[]]].
    - pose proof (dwn_long_ago k c a t1 Hk R1 Hi). lia.
    - subst l. cbn [step goroutine_step] in Hs. destruct (s_dwn (t_st t1)); [discriminate Hs|]. injection Hs as E. rewrite <- E in O2. cbn [s_out] in O2. congruence. }
  pose proof (reach_exec c _ _ V2) as Ex. pose proof (on_time_if c _ _ Ex (or_introl Nu)) as Ht.
  destruct (whole_run c _ _ r Ex Ht O2) as [Hcur W].
  assert (Sn : s_sent (t_st ts) = s_sent (t_st t2)).
  { assert (P2 : after_out (s_pc (t_st t2))).
    { rewrite (wrote_log c _ l _ r Hs O1 O2). exact I. }
    assert (E : texec k c t2 b = Some ts).
    { unfold runs in R, R2. change (a ++ Do l :: b)%list with (a ++ ([Do l] ++ b))%list in R. rewrite app_assoc, texec_app, R2 in R. exact R. }
    clear - E P2. revert t2 E P2. induction b as [|y b IH]; intros t2 E P2; cbn [texec] in E; [now injection E as <-|].
    destruct (tstep k c t2 y) as [t3|] eqn:E3; [|discriminate].
    assert (X : after_out (s_pc (t_st t3)) /\ s_sent (t_st t3) = s_sent (t_st t2)).
    { destruct y as [d|l]; [apply tick_inv in E3; destruct E3 as (_ & _ & ->); cbn [t_st]; auto|].
      apply do_inv in E3. destruct E3 as (_ & _ & H & _). exact (after_out_step c _ l _ P2 H). }
    destruct X as [X1 X2]. rewrite <- X2. exact (IH t3 E X1). }
  assert (En : n = s_cur (t_st t2)) by (unfold n; rewrite Sn; now rewrite Hcur). rewrite En.
  assert (Ea : acts (a ++ Do l :: b) = ((acts a ++ [l]) ++ acts b)%list) by (rewrite acts_app; cbn [acts]; now rewrite <- app_assoc).
  rewrite Ea.
  assert (Lf : forall i, failed_attempt (acts a ++ [l]) i -> failed_attempt ((acts a ++ [l]) ++ acts b) i).
  { intros i [F|[[b0 F]|[rs [F1 F2]]]].
    - left. apply in_or_app. now left.
    - right. left. exists b0. apply in_or_app. now left.
    - right. right. exists rs. split; [apply in_or_app; now left | exact F2]. }
  destruct W as [(dice & _ & Y)|[W1 W2]]; [now elim Nd|]. split.
  - intros i Hi. destruct (W1 i Hi) as [Y|Y]; [now apply Lf | now elim (Nu i)].
  - destruct W2 as [(dice & _ & Y & _)|[(dice & Y1 & Y2 & Y3)|(dice & rs & body & Y1 & Y2 & Y3 & Y4)]].
    + now elim (Nu (s_cur (t_st t2))).
    + right. exists dice. split; [now apply Lf|]. split; [|exact Y1]. intros Hr. specialize (Y3 Hr). rewrite Sn.
      pose proof (k_all _ _ _ (reach_counts c _ _ V2)) as K.
      assert (L : (length (s_sent (t_st t2)) > 0)%nat).
      { rewrite (wrote_log c _ l _ r Hs O1 O2) in K. specialize (K ltac:(discriminate)). cbn [pos Nat.eqb] in K. lia. }
      lia.
    + left. exists dice, rs, body. repeat split; try (apply in_or_app; now left); assumption.
Qed.
