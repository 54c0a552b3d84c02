(** Proofs for [Thm_Timing]. *)
From Coq Require Import String Ascii List Bool ZArith NArith Arith Lia.
From Verif Require Import GoStr Header Exchange Machine MachineSpec MachineProofs MachineTimely Timing TimingSpec.
Import ListNotations.
Local Open Scope Z_scope.

(** * Runs *)

Lemma acts_app : forall a b, acts (a ++ b) = (acts a ++ acts b)%list.
Proof. induction a as [|[d|l] a IH]; intros b; cbn [acts app]; [reflexivity | apply IH | now rewrite IH]. Qed.

Lemma texec_app : forall k c a ts b, texec k c ts (a ++ b) = match texec k c ts a with Some ts' => texec k c ts' b | None => None end.
Proof. induction a as [|x a IH]; intros ts b; cbn [texec app]; [reflexivity|]. destruct (tstep k c ts x); [apply IH | reflexivity]. Qed.

Inductive treached (k : clock) (c : conf) : list tlabel -> tstate -> Prop :=
| tr_init : treached k c [] (tinit k)
| tr_step : forall xs ts x ts', treached k c xs ts -> tstep k c ts x = Some ts' -> treached k c (xs ++ [x]) ts'.

Lemma runs_treached : forall k c xs ts, runs k c xs ts -> treached k c xs ts.
Proof.
  intros k c xs. unfold runs. induction xs as [|x xs IH] using rev_ind; intros ts H.
  - injection H as <-. constructor.
  - rewrite texec_app in H. destruct (texec k c (tinit k) xs) as [t1|] eqn:E; [|discriminate].
    cbn [texec] in H. destruct (tstep k c t1 x) as [t2|] eqn:E2; [|discriminate]. injection H as <-.
    exact (tr_step k c xs t1 x t2 (IH t1 eq_refl) E2).
Qed.

Lemma treached_runs : forall k c xs ts, treached k c xs ts -> runs k c xs ts.
Proof.
  intros k c xs ts R. unfold runs. induction R as [|xs ts x ts' R IH H]; [reflexivity|].
  rewrite texec_app, IH. cbn [texec]. now rewrite H.
Qed.

(** What a step of either kind is. *)
Lemma tick_inv : forall k c ts d ts', tstep k c ts (Tick d) = Some ts' ->
  0 <= d /\ may_wait k ts (t_now ts + d) = true /\
  ts' = Timed (t_now ts + d) (t_st ts) (t_dwn ts) (t_up ts) (t_since ts).
Proof.
  intros k c ts d ts' H. cbn [tstep] in H. destruct (_ && _) eqn:E; [|discriminate]. injection H as <-.
  apply andb_true_iff in E. destruct E as [E1 E2]. apply Z.leb_le in E1. auto.
Qed.

Lemma do_inv : forall k c ts l ts', tstep k c ts (Do l) = Some ts' ->
  due ts l = true /\ t_now ts' = t_now ts /\ step c (t_st ts) l = Some (t_st ts') /\ t_dwn ts' = t_dwn ts /\
  (forall j, t_up ts' j = if begins (t_st ts) l && Nat.eqb j (s_cur (t_st ts)) then after (t_now ts) (k_read k) else t_up ts j) /\
  t_since ts' = (if by_handler l || negb (can_move (t_st ts)) then t_now ts else t_since ts).
Proof.
  intros k c ts l ts' H. cbn [tstep] in H. destruct (due ts l); [|discriminate].
  destruct (step c (t_st ts) l) as [s'|]; [|discriminate]. injection H as <-. cbn [t_now t_st t_dwn t_up t_since].
  repeat split; try reflexivity. intros j. destruct (begins (t_st ts) l); reflexivity.
Qed.

Lemma wait_inv : forall k ts t, may_wait k ts t = true ->
  (can_move (t_st ts) = true -> t <= t_since ts + k_delay k) /\ (s_dwn (t_st ts) = false -> t <= t_dwn ts + k_delay k) /\
  (forall i, (i <= s_cur (t_st ts))%nat -> running (t_st ts) i = true -> t <= t_up ts i + k_delay k).
Proof.
  intros k ts t H. unfold may_wait in H. apply andb_true_iff in H. destruct H as [H H3]. apply andb_true_iff in H. destruct H as [H1 H2].
  repeat split.
  - intros E. rewrite E in H1. cbn [negb orb] in H1. now apply Z.leb_le.
  - intros E. rewrite E in H2. cbn [orb] in H2. now apply Z.leb_le.
  - intros i Hi E. rewrite forallb_forall in H3. specialize (H3 i). rewrite E in H3. cbn [negb orb] in H3. apply Z.leb_le, H3, in_seq. lia.
Qed.

Lemma wait_intro : forall k ts t, (can_move (t_st ts) = true -> t <= t_since ts + k_delay k) ->
  (s_dwn (t_st ts) = false -> t <= t_dwn ts + k_delay k) ->
  (forall i, (i <= s_cur (t_st ts))%nat -> running (t_st ts) i = true -> t <= t_up ts i + k_delay k) -> may_wait k ts t = true.
Proof.
  intros k ts t H1 H2 H3. unfold may_wait. apply andb_true_iff. split; [apply andb_true_iff; split|].
  - destruct (can_move (t_st ts)); [cbn [negb orb]; apply Z.leb_le; auto | reflexivity].
  - destruct (s_dwn (t_st ts)); [reflexivity | cbn [orb]; apply Z.leb_le; auto].
  - apply forallb_forall. intros i Hi. apply in_seq in Hi. destruct (running (t_st ts) i) eqn:E; [|reflexivity].
    cbn [negb orb]. apply Z.leb_le, H3; [lia | exact E].
Qed.

(** * Steps of the machine *)

Lemma step_dwn : forall c s l s', step c s l = Some s' -> s_dwn s' = (match l with LDwnTimer => true | _ => s_dwn s end).
Proof.
  intros c s l s' H. destruct s as [m n dw fl p sent out]. step_cases H; simp; congruence.
Qed.

Lemma step_running : forall c ls s l s' i, hist c ls s -> step c s l = Some s' -> (i <= s_cur s')%nat -> running s' i = true ->
  (i <= s_cur s)%nat /\ (running s i = true \/ (begins s l = true /\ i = s_cur s)).
Proof.
  intros c ls s l s' i [Hg Hn Hp Ho] H Hi Hr. unfold running in *.
  destruct s as [m n dw fl p sent out]. unfold cur in *. simp.
  step_cases H; simp; subst; unfold upd, begins in *; simp;
  repeat match goal with
  | Hr : context [Nat.eqb ?a ?b] |- _ => destruct (Nat.eqb_spec a b); subst; simp
  end;
  repeat match goal with E : a_h _ = _ |- _ => rewrite ?E in *; simp end;
  try discriminate; auto.
  all: try (destruct (a_h (m i)); cbn in Hr; discriminate).
  split; [lia | now left].
Qed.

Lemma move_stays : forall c s l s', step c s l = Some s' -> by_handler l = false -> can_move s = true -> can_move s' = true.
Proof.
  intros c s l s' H Hl Hc. unfold can_move in *. destruct s as [m n dw fl p sent out]. unfold cur in *. simp.
  step_cases H; simp; subst; cbn [by_handler] in Hl; try discriminate Hl; simp; destruct p; try assumption; unfold upd; simp;
  repeat match goal with |- context [Nat.eqb ?a ?b] => destruct (Nat.eqb_spec a b); subst; simp end;
  try assumption; rewrite ?orb_true_r; try reflexivity;
  repeat match goal with Hc : context [a_ctx ?a] |- _ => destruct (a_ctx a) end;
  repeat match goal with Hc : context [a_hdr ?a] |- _ => destruct (a_hdr a) end;
  repeat match goal with Hc : context [a_bdy ?a] |- _ => destruct (a_bdy a) end;
  destruct dw; cbn in *; try reflexivity; try discriminate.
Qed.

Lemma count_snoc : forall ls l, Z.of_nat (main_count (ls ++ [l])) = Z.of_nat (main_count ls) + (if by_handler l then 1 else 0).
Proof. intros ls l. rewrite main_count_app. cbn [main_count]. destruct l; cbn [is_main by_handler]; lia. Qed.

(** Only a handler that can move moves. *)
Lemma moved : forall c s l s', step c s l = Some s' -> by_handler l = true -> can_move s = true.
Proof.
  intros c s l s' H Hl. unfold can_move. destruct s as [m n dw fl p sent out]. unfold cur in *. simp.
  step_cases H; simp; subst; cbn [by_handler] in Hl; try discriminate Hl; try reflexivity; unfold cur in *; simp;
  repeat match goal with E : ?x = true |- context [?x] => lazymatch x with true => fail | _ => rewrite E end end; rewrite ?orb_true_r; reflexivity.
Qed.

Lemma finished_stays : forall c s l s', finished s -> step c s l = Some s' -> finished s'.
Proof.
  intros c s l s' F H. unfold finished in *. destruct s as [m n dw fl p sent out]. simp.
  step_cases H; simp; subst; simp; try assumption; destruct F; discriminate.
Qed.

Lemma stuck_finished : forall s, can_move s = false -> s_dwn s = true -> finished s.
Proof.
  intros s H Hd. unfold can_move, finished in *. rewrite Hd in H. destruct (s_pc s); try discriminate H; auto;
  rewrite orb_true_r in H; discriminate H.
Qed.

(** * What holds of every timed run *)

Record tinv (k : clock) (c : conf) (xs : list tlabel) (ts : tstate) : Prop := {
  v_reach : reach c (acts xs) (t_st ts);
  v_since : t_since ts <= t_now ts;
  v_wait : can_move (t_st ts) = true -> t_now ts <= t_since ts + k_delay k;
  v_dwn : s_dwn (t_st ts) = false -> t_now ts <= t_dwn ts + k_delay k;
  v_up : forall i, (i <= s_cur (t_st ts))%nat -> running (t_st ts) i = true -> t_now ts <= t_up ts i + k_delay k;
  v_due : t_dwn ts = t_dwn (tinit k);
  v_dpast : s_dwn (t_st ts) = true -> t_dwn ts <= t_now ts;
  v_upast : forall i, In (LUpTimer i) (acts xs) -> t_up ts i <= t_now ts;
  v_late : s_dwn (t_st ts) = true -> finished (t_st ts) \/ t_since ts <= t_dwn ts + k_delay k + k_delay k * Z.of_nat (main_count (acts xs)) }.

Lemma tinv_init : forall k c, 0 <= k_delay k -> tinv k c [] (tinit k).
Proof.
  intros k c Hk. constructor; cbn [acts tinit t_st t_since t_now t_dwn t_up]; try discriminate; try lia.
  - constructor.
  - intros i [].
Qed.

Lemma idle_back : forall c s l s' i, step c s l = Some s' -> (i <= s_cur s)%nat -> a_h (s_att s' i) = HIdle -> a_h (s_att s i) = HIdle.
Proof.
  intros c s l s' i H Hi Ha. destruct s as [m n dw fl p sent out]. simp.
  step_cases H; simp; subst; unfold upd in *; simp;
  repeat match goal with Ha : context [Nat.eqb ?a ?b] |- _ => destruct (Nat.eqb_spec a b); subst; simp end;
  try discriminate; try assumption; try lia.
Qed.

Lemma fired_begun : forall c ls s, reach c ls s -> forall i, In (LUpTimer i) ls -> a_h (s_att s i) <> HIdle.
Proof.
  intros c ls s R. induction R as [|ls s l s' R IH H]; intros i Hi; [destruct Hi|].
  pose proof (reach_hist c ls s R) as Hh.
  assert (Hl : (i <= s_cur s)%nat /\ a_h (s_att s i) <> HIdle).
  { apply in_app_or in Hi. destruct Hi as [Hi|[->|[]]].
    - split; [|now apply IH]. destruct (Nat.le_gt_cases i (s_cur s)) as [|Hg]; [assumption|]. now destruct (h_new _ _ _ Hh i Hg) as (_ & _ & N).
    - cbn [step goroutine_step] in H. split.
      + destruct (Nat.le_gt_cases i (s_cur s)) as [|Hg]; [assumption|]. destruct (h_new _ _ _ Hh i Hg) as (E & _). now rewrite E in H.
      + intros E. now rewrite E in H. }
  intros E. apply (proj2 Hl). exact (idle_back c s l s' i H (proj1 Hl) E).
Qed.

Lemma begun_new : forall c ls s l i, reach c ls s -> begins s l = true -> In (LUpTimer i) ls -> i <> s_cur s.
Proof.
  intros c ls s l i R Hb Hi E. subst i. pose proof (fired_begun c ls s R _ Hi) as Hf.
  pose proof (h_pc _ _ _ (reach_hist c ls s R)) as Hp. unfold begins in Hb. destruct (s_pc s); try discriminate Hb.
  apply Hf. apply Hp.
Qed.

Lemma tinv_step : forall k c xs ts x ts', 0 <= k_delay k -> tinv k c xs ts -> tstep k c ts x = Some ts' -> tinv k c (xs ++ [x]) ts'.
Proof.
  intros k c xs ts x ts' Hk V H. destruct V as [V0 V1 V2 V3 V4 V5 V6 V7 V8]. destruct x as [d|l].
  - apply tick_inv in H. destruct H as (Hd & Hw & ->). apply wait_inv in Hw. destruct Hw as (W1 & W2 & W3).
    assert (E : acts (xs ++ [Tick d]) = acts xs) by (rewrite acts_app; cbn [acts]; apply app_nil_r).
    constructor; cbn [t_st t_since t_now t_dwn t_up]; rewrite ?E; auto; try lia.
    + intros E0. specialize (V6 E0). lia.
    + intros i Hi. specialize (V7 i Hi). lia.
  - apply do_inv in H. destruct H as (Hd & Hnow & Hs & Hdw & Hup & Hsi).
    assert (E : acts (xs ++ [Do l]) = (acts xs ++ [l])%list) by (now rewrite acts_app).
    pose proof (reach_hist _ _ _ V0) as Hh. pose proof (step_dwn c _ l _ Hs) as Ed.
    assert (B : t_since ts' <= t_now ts) by (rewrite Hsi; destruct (by_handler l || negb (can_move (t_st ts))); lia).
    assert (R : 0 <= Z.max 0 (k_read k)) by lia.
    constructor; rewrite ?E, ?Hnow, ?Hdw; auto.
    + exact (reach_step c _ _ l _ V0 Hs).
    + intros _. rewrite Hsi. destruct (by_handler l || negb (can_move (t_st ts))) eqn:Eb; [lia|].
      apply V2. apply orb_false_iff in Eb. destruct (can_move (t_st ts)); [reflexivity | destruct Eb; discriminate].
    + intros E0. apply V3. rewrite Ed in E0. destruct l; try exact E0; discriminate.
    + intros i Hi Hr. destruct (step_running c _ _ l _ i Hh Hs Hi Hr) as [Hi' [Hr'|[Hb ->]]].
      * rewrite Hup. destruct (begins (t_st ts) l && Nat.eqb i (s_cur (t_st ts))); [unfold after; lia | now apply V4].
      * rewrite Hup, Hb, Nat.eqb_refl. cbn [andb]. unfold after. lia.
    + intros E0. rewrite Ed in E0. destruct l; try (now apply V6). cbn [due] in Hd. now apply Z.leb_le.
    + intros i Hi. rewrite Hup. apply in_app_or in Hi. destruct Hi as [Hi|[->|[]]].
      * destruct (begins (t_st ts) l) eqn:Eb; cbn [andb]; [|now apply V7].
        destruct (Nat.eqb_spec i (s_cur (t_st ts))) as [->|]; [|now apply V7].
        now elim (begun_new c _ _ l _ V0 Eb Hi).
      * cbn [due] in Hd. apply Z.leb_le in Hd. unfold begins. destruct (s_pc (t_st ts)); cbn [andb]; exact Hd.
    + intros E0. rewrite count_snoc. destruct (s_dwn (t_st ts)) eqn:Es.
      * destruct (V8 eq_refl) as [F|V9]; [left; exact (finished_stays c _ l _ F Hs)|].
        rewrite Hsi. destruct (by_handler l) eqn:Eh; cbn [orb].
        -- right. specialize (V2 (moved c _ l _ Hs Eh)). lia.
        -- destruct (can_move (t_st ts)) eqn:Ec; cbn [negb]; [right; lia|].
           left. exact (finished_stays c _ l _ (stuck_finished _ Ec Es) Hs).
      * right. specialize (V3 eq_refl). assert (0 <= k_delay k * Z.of_nat (main_count (acts xs))) by (apply Z.mul_nonneg_nonneg; lia).
        destruct (by_handler l); lia.
Qed.

Lemma treached_tinv : forall k c xs ts, 0 <= k_delay k -> treached k c xs ts -> tinv k c xs ts.
Proof.
  intros k c xs ts Hk R. induction R as [|xs ts x ts' R IH H]; [now apply tinv_init | exact (tinv_step k c xs ts x ts' Hk IH H)].
Qed.

Lemma reach_exec : forall c ls s, reach c ls s -> exec c init ls = Some s.
Proof.
  intros c ls s R. induction R as [|ls s l s' R IH H]; [reflexivity|]. rewrite exec_app, IH. cbn [exec]. now rewrite H.
Qed.

(** * The round trip timeout *)

Lemma unfinished_count : forall c ls s, reach c ls s -> ~ finished s -> Z.of_nat (main_count ls) <= 24 * most c - 2.
Proof.
  intros c ls s R F. destruct (reach_counts c ls s R) as [K1 K2 K3 K4 K0 K5 K6 K7 K8]. unfold most.
  assert ((pos (s_pc s) <= 22)%nat).
  { unfold finished in F. destruct (s_pc s) as [| | | | | | | | | | | [] | | | | | | | |]; cbn [pos]; try lia; elim F; auto. }
  lia.
Qed.

Lemma over_in_time : forall k c xs ts, 0 <= k_delay k -> runs k c xs ts ->
  Z.max (k_entered k) (k_arrived k + Z.max 0 (k_round k)) + 24 * most c * k_delay k < t_now ts -> finished (t_st ts).
Proof.
  intros k c xs ts Hk H Ht. pose proof (treached_tinv k c xs ts Hk (runs_treached k c xs ts H)) as V.
  destruct V as [V0 V1 V2 V3 V4 V5 V6 V7 V8]. cbn [tinit t_dwn] in V5. unfold after in V5. rewrite <- V5 in Ht.
  assert (D : finished (t_st ts) \/ ~ finished (t_st ts)).
  { unfold finished. destruct (s_pc (t_st ts)); auto; right; intros [|]; discriminate. }
  destruct D as [D|D]; [exact D|]. exfalso. pose proof (unfinished_count c _ _ V0 D) as Hc.
  assert (Hm : k_delay k * Z.of_nat (main_count (acts xs)) <= k_delay k * (24 * most c - 2)) by (apply Z.mul_le_mono_nonneg_l; lia).
  assert (1 <= most c) by (unfold most; lia).
  destruct (s_dwn (t_st ts)) eqn:Ed.
  - destruct (can_move (t_st ts)) eqn:Ec; [|now elim D; apply stuck_finished].
    specialize (V2 eq_refl). destruct (V8 eq_refl) as [F|V9]; [now elim D|]. lia.
  - specialize (V3 eq_refl). assert (0 <= k_delay k * (24 * most c - 1)) by (apply Z.mul_nonneg_nonneg; lia). lia.
Qed.
