(** More proofs for [Thm_Timing]: the read timeout, what is not early, and that time can always pass. *)
From Coq Require Import String Ascii List Bool ZArith NArith Arith Lia.
From Verif Require Import GoStr Header Exchange Machine MachineSpec MachineProofs MachineTimely Timing TimingSpec TimingProofs.
Import ListNotations.
Local Open Scope Z_scope.

(** * The read timeout *)

Lemma begun_cur : forall c ls s, reach c ls s -> s_pc s <> PStart -> s_pc s <> PPanic -> a_h (cur s) <> HIdle.
Proof.
  intros c ls s R. induction R as [|ls s l s' R IH H]; [intros P; now elim P|].
  intros P1 P2. unfold cur in *. destruct (by_handler l) eqn:Hl.
  - destruct s as [m n dw fl p sent out]. simp.
    step_cases H; simp; subst; cbn [by_handler] in Hl; try discriminate Hl; unfold upd; simp; rewrite ?Nat.eqb_refl; simp; try congruence; apply IH; discriminate.
  - assert (E : s_pc s' = s_pc s /\ s_cur s' = s_cur s).
    { clear - H Hl. destruct s as [m n dw fl p sent out]. step_cases H; simp; subst; cbn [by_handler] in Hl; try discriminate Hl; auto. }
    destruct E as [E1 E2]. rewrite E1 in P1, P2. rewrite E2. intros X. apply (IH P1 P2). exact (idle_back c s l s' _ H (le_n _) X).
Qed.

Lemma handler_moves : forall c s l s', step c s l = Some s' -> by_handler l = true ->
  (s_pc s = PRetry /\ s_pc s' = PStart /\ s_cur s' = S (s_cur s)) \/ (s_cur s' = s_cur s /\ (pos (s_pc s) < pos (s_pc s'))%nat).
Proof.
  intros c s l s' H Hl. destruct s as [m n dw fl p sent out]. simp.
  step_cases H; simp; subst; cbn [by_handler] in Hl; try discriminate Hl; cbn [pos]; auto; right; split; auto; lia.
Qed.

Lemma others_stay : forall c s l s', step c s l = Some s' -> by_handler l = false -> s_pc s' = s_pc s /\ s_cur s' = s_cur s.
Proof.
  intros c s l s' H Hl. destruct s as [m n dw fl p sent out]. simp.
  step_cases H; simp; subst; cbn [by_handler] in Hl; try discriminate Hl; auto.
Qed.

Lemma pos_start : forall p, pos p = 0%nat -> p = PStart.
Proof. intros p. destruct p as [| | | | | | | | | | | [] | | | | | | | |]; cbn [pos]; try discriminate; reflexivity. Qed.

Definition span (k : clock) : Z := Z.max 0 (k_read k) + 25 * k_delay k.

Record uinv (k : clock) (ts : tstate) : Prop := {
  w_start : s_pc (t_st ts) = PStart -> t_since ts <= k_entered k + Z.of_nat (s_cur (t_st ts)) * span k;
  w_up : s_pc (t_st ts) <> PStart -> ~ finished (t_st ts) ->
    t_up ts (s_cur (t_st ts)) <= k_entered k + Z.of_nat (s_cur (t_st ts)) * span k + k_delay k + Z.max 0 (k_read k);
  w_ctx : s_pc (t_st ts) <> PStart -> ~ finished (t_st ts) -> a_ctx (cur (t_st ts)) = true ->
    t_since ts <= t_up ts (s_cur (t_st ts)) + k_delay k + k_delay k * Z.of_nat (pos (s_pc (t_st ts))) }.

Lemma unfinished_running : forall c ls s, reach c ls s -> s_pc s <> PStart -> ~ finished s -> a_ctx (cur s) = false -> running s (s_cur s) = true.
Proof.
  intros c ls s R P F E. pose proof (begun_cur c ls s R P) as B. unfold running. unfold cur in *.
  destruct (a_h (s_att s (s_cur s))) eqn:Eh; try (rewrite E; reflexivity).
  elim B; [|reflexivity]. intros X. apply F. now right.
Qed.

Lemma unfinished_back : forall c s l s', step c s l = Some s' -> ~ finished s' -> ~ finished s.
Proof. intros c s l s' H F F'. apply F. exact (finished_stays c s l s' F' H). Qed.

Lemma ctx_waits : forall s, s_pc s <> PDone -> s_pc s <> PPanic -> a_ctx (cur s) = true -> can_move s = true.
Proof. intros s P1 P2 E. unfold can_move. rewrite E. destruct (s_pc s); try reflexivity; congruence. Qed.

Lemma uinv_step : forall k c xs ts x ts', 0 <= k_delay k -> tinv k c xs ts -> uinv k ts -> tstep k c ts x = Some ts' -> uinv k ts'.
Proof.
  intros k c xs ts x ts' Hk V [W1 W2 W3] H. destruct V as [V0 V1 V2 V3 V4 V5 V6 V7 V8]. destruct x as [d|l].
  - apply tick_inv in H. destruct H as (_ & _ & ->). constructor; cbn [t_st t_since t_up]; assumption.
  - apply do_inv in H. destruct H as (Hd & Hnow & Hs & Hdw & Hup & Hsi). remember (t_st ts) as s eqn:Es. remember (t_st ts') as s' eqn:Es'. pose proof (reach_hist _ _ _ V0) as Hh.
    assert (Hsp : 25 * k_delay k <= span k) by (unfold span; lia).
    destruct (by_handler l) eqn:Hl.
    + cbn [orb] in Hsi. pose proof (V2 (moved c s l s' Hs Hl)) as Hw.
      assert (Hu : s_pc s <> PStart -> ~ finished s -> t_now ts <= t_up ts (s_cur s) + 2 * k_delay k + k_delay k * Z.of_nat (pos (s_pc s))).
      { intros P F. assert (0 <= k_delay k * Z.of_nat (pos (s_pc s))) by (apply Z.mul_nonneg_nonneg; lia).
        destruct (a_ctx (cur s)) eqn:E; [specialize (W3 P F eq_refl); lia|].
        specialize (V4 (s_cur s) (le_n _) (unfinished_running c _ s V0 P F E)). lia. }
      destruct (handler_moves c s l s' Hs Hl) as [(P1 & P2 & C)|[C P]].
      * assert (F : ~ finished s) by (unfold finished; rewrite P1; intros [|]; discriminate).
        assert (P : s_pc s <> PStart) by (rewrite P1; discriminate).
        constructor; rewrite <- Es', P2; try (intros X; now elim X). intros _.
        rewrite Hsi, C, Nat2Z.inj_succ. specialize (W2 P F). specialize (Hu P F). rewrite P1 in Hu. cbn [pos] in Hu. unfold span in *. lia.
      * constructor; rewrite <- Es'.
        -- intros E. rewrite E in P. cbn [pos] in P. lia.
        -- intros P' F'. pose proof (unfinished_back c s l s' Hs F') as F. rewrite C, Hup.
           destruct (begins s l) eqn:Eb.
           ++ rewrite Nat.eqb_refl. cbn [andb]. unfold after.
              assert (E : s_pc s = PStart) by (unfold begins in Eb; destruct (s_pc s); try discriminate Eb; reflexivity).
              specialize (W1 E). lia.
           ++ cbn [andb]. apply W2; [|exact F]. intros E. unfold begins in Eb. rewrite E in Eb.
              destruct l; try discriminate Hl; try discriminate Eb. cbn [step] in Hs. unfold sel_step in Hs. rewrite E in Hs. discriminate Hs.
        -- intros P' F' E'. pose proof (unfinished_back c s l s' Hs F') as F. rewrite C, Hup, Hsi.
           assert (0 <= k_delay k * Z.of_nat (pos (s_pc s'))) by (apply Z.mul_nonneg_nonneg; lia).
           destruct (begins s l) eqn:Eb; [rewrite Nat.eqb_refl; cbn [andb]; unfold after; lia|]. cbn [andb].
           assert (Ps : s_pc s <> PStart).
           { intros E. unfold begins in Eb. rewrite E in Eb.
             destruct l; try discriminate Hl; try discriminate Eb. cbn [step] in Hs. unfold sel_step in Hs. rewrite E in Hs. discriminate Hs. }
           destruct (a_ctx (cur s)) eqn:E.
           ++ specialize (W3 Ps F eq_refl).
              assert (k_delay k * Z.of_nat (S (pos (s_pc s))) <= k_delay k * Z.of_nat (pos (s_pc s'))) by (apply Z.mul_le_mono_nonneg_l; lia). lia.
           ++ specialize (V4 (s_cur s) (le_n _) (unfinished_running c _ s V0 Ps F E)). lia.
    + destruct (others_stay c s l s' Hs Hl) as [Ep Ec]. cbn [orb] in Hsi.
      assert (Eb : begins s l = false) by (unfold begins; destruct (s_pc s), l; try reflexivity; discriminate Hl).
      rewrite Eb in Hup. cbn [andb] in Hup.
      constructor; rewrite <- Es', ?Ep, ?Ec, ?Hup.
      * intros P. assert (Em : can_move s = true) by (unfold can_move; now rewrite P). rewrite Em in Hsi. cbn [negb] in Hsi. rewrite Hsi. now apply W1.
      * intros P F'. exact (W2 P (unfinished_back c s l s' Hs F')).
      * intros P F' E'. pose proof (unfinished_back c s l s' Hs F') as F.
        assert (0 <= k_delay k * Z.of_nat (pos (s_pc s))) by (apply Z.mul_nonneg_nonneg; lia).
        destruct (a_ctx (cur s)) eqn:E.
        -- assert (Em : can_move s = true) by (apply ctx_waits; [| |exact E]; intros X; apply F; [now left | now right]).
           rewrite Em in Hsi. cbn [negb] in Hsi. rewrite Hsi. now apply W3.
        -- specialize (V4 (s_cur s) (le_n _) (unfinished_running c _ s V0 P F E)).
           assert (t_since ts' <= t_now ts) by (rewrite Hsi; destruct (negb (can_move s)); lia). lia.
Qed.

Lemma treached_uinv : forall k c xs ts, 0 <= k_delay k -> treached k c xs ts -> uinv k ts.
Proof.
  intros k c xs ts Hk R. induction R as [|xs ts x ts' R IH H].
  - constructor; cbn [tinit t_st t_since t_up s_pc s_cur init]; [lia | |]; intros X; now elim X.
  - exact (uinv_step k c xs ts x ts' Hk (treached_tinv k c xs ts Hk R) IH H).
Qed.

Lemma over_in_attempts : forall k c xs ts, 0 <= k_delay k -> runs k c xs ts ->
  k_entered k + most c * (Z.max 0 (k_read k) + 25 * k_delay k) < t_now ts -> finished (t_st ts).
Proof.
  intros k c xs ts Hk H Ht. pose proof (runs_treached k c xs ts H) as R.
  pose proof (treached_tinv k c xs ts Hk R) as V. pose proof (treached_uinv k c xs ts Hk R) as [W1 W2 W3].
  destruct V as [V0 V1 V2 V3 V4 V5 V6 V7 V8].
  assert (D : finished (t_st ts) \/ ~ finished (t_st ts)).
  { unfold finished. destruct (s_pc (t_st ts)); auto; right; intros [|]; discriminate. }
  destruct D as [D|D]; [exact D|]. exfalso. fold (span k) in Ht.
  pose proof (k_max _ _ _ (reach_counts c _ _ V0)) as Km. fold (most c) in Km.
  assert (Hm : Z.of_nat (S (s_cur (t_st ts))) * span k <= most c * span k) by (apply Z.mul_le_mono_nonneg_r; [unfold span|]; lia).
  rewrite Nat2Z.inj_succ in Hm.
  assert (P : s_pc (t_st ts) = PStart \/ s_pc (t_st ts) <> PStart) by (destruct (s_pc (t_st ts)); auto; right; discriminate).
  destruct P as [P|P].
  - assert (Em : can_move (t_st ts) = true) by (unfold can_move; now rewrite P). specialize (V2 Em). specialize (W1 P). unfold span in *. lia.
  - specialize (W2 P D). destruct (a_ctx (cur (t_st ts))) eqn:E.
    + assert (Em : can_move (t_st ts) = true) by (apply ctx_waits; [| |exact E]; intros X; apply D; [now left | now right]).
      specialize (V2 Em). specialize (W3 P D eq_refl).
      assert (Hp : (pos (s_pc (t_st ts)) <= 22)%nat).
      { unfold finished in D. destruct (s_pc (t_st ts)) as [| | | | | | | | | | | [] | | | | | | | |]; cbn [pos]; try lia; elim D; auto. }
      assert (k_delay k * Z.of_nat (pos (s_pc (t_st ts))) <= k_delay k * 22) by (apply Z.mul_le_mono_nonneg_l; lia).
      unfold span in *. lia.
    + specialize (V4 _ (le_n _) (unfinished_running c _ _ V0 P D E)). unfold span in *. lia.
Qed.
