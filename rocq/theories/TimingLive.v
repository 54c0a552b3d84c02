(** Time can always pass, so statements about late times are not empty. *)
From Coq Require Import String Ascii List Bool ZArith NArith Arith Lia.
From Verif Require Import GoStr Header Exchange Machine MachineSpec MachineProofs MachineTimely Timing TimingSpec TimingProofs TimingMore.
Import ListNotations.
Local Open Scope Z_scope.

Definition live (s : state) : list nat := filter (running s) (seq 0 (S (s_cur s))).

Lemma live_in : forall s i, In i (live s) <-> (i <= s_cur s)%nat /\ running s i = true.
Proof. intros s i. unfold live. rewrite filter_In, in_seq. split; intros [H1 H2]; split; auto; lia. Qed.

Lemma live_nodup : forall s, NoDup (live s).
Proof. intros s. apply NoDup_filter, seq_NoDup. Qed.

(** What can still happen at no later time *)
Definition left_over (c : conf) (ls : list label) (s : state) : nat :=
  2 * (24 * Z.to_nat (most c) - main_count ls) + length (live s) + (if s_dwn s then 0 else 1).

Lemma live_step : forall c ls s l s', hist c ls s -> step c s l = Some s' -> (length (live s') <= S (length (live s)))%nat.
Proof.
  intros c ls s l s' Hh H. change (S (length (live s))) with (length (s_cur s :: live s)).
  apply NoDup_incl_length; [apply live_nodup|]. intros i Hi. apply live_in in Hi. destruct Hi as [H1 H2].
  destruct (step_running c ls s l s' i Hh H H1 H2) as [H3 [H4|[_ H4]]]; [right; now apply live_in | now left].
Qed.

Lemma live_kept : forall c ls s l s', hist c ls s -> step c s l = Some s' -> begins s l = false -> incl (live s') (live s).
Proof.
  intros c ls s l s' Hh H Hb i Hi. apply live_in in Hi. destruct Hi as [H1 H2].
  destruct (step_running c ls s l s' i Hh H H1 H2) as [H3 [H4|[H4 _]]]; [now apply live_in | congruence].
Qed.

Lemma move_enabled : forall c s, can_move s = true -> exists l s', by_handler l = true /\ step c s l = Some s'.
Proof.
  intros c s H. unfold can_move in H.
  assert (G : s_pc s <> PSelHdr -> s_pc s <> PSelBody -> s_pc s <> PDone -> s_pc s <> PPanic -> exists l s', by_handler l = true /\ step c s l = Some s').
  { intros H1 H2 H3 H4. destruct (main_enabled c s 0 H1 H2 H3 H4) as [s' E]. exists (LMain 0), s'. split; [reflexivity | exact E]. }
  destruct (s_pc s) eqn:E; try (apply G; discriminate); try discriminate H.
  all: apply orb_true_iff in H; destruct H as [H|H]; [apply orb_true_iff in H; destruct H as [H|H]|].
  all: [> exists (LSel CUp) | exists (LSel CDwn) | exists (LSel CComplete) | exists (LSel CUp) | exists (LSel CDwn) | exists (LSel CComplete) ];
    cbn [step sel_step]; unfold sel_step; rewrite E, H; eexists; (split; [reflexivity | reflexivity]).
Qed.

Lemma least : forall (l : list Z), l <> [] -> exists m, In m l /\ forall x, In x l -> m <= x.
Proof.
  induction l as [|a l IH]; intros H; [now elim H|]. destruct l as [|b l].
  - exists a. split; [now left|]. intros x [->|[]]. lia.
  - destruct (IH ltac:(discriminate)) as (m & M1 & M2). destruct (Z.le_gt_cases a m) as [L|L].
    + exists a. split; [now left|]. intros x [->|Hx]; [lia|]. specialize (M2 x Hx). lia.
    + exists m. split; [now right|]. intros x [->|Hx]; [lia | now apply M2].
Qed.

Lemma time_goes_on : forall k c T, 0 <= k_delay k -> forall n xs ts, treached k c xs ts ->
  (left_over c (acts xs) (t_st ts) <= n)%nat -> exists ys ts', texec k c ts ys = Some ts' /\ T <= t_now ts'.
Proof.
  intros k c T Hk. induction n as [n IH] using lt_wf_ind. intros xs ts R Hn.
  pose proof (treached_tinv k c xs ts Hk R) as V. destruct V as [V0 V1 V2 V3 V4 V5 V6 V7 V8].
  pose proof (reach_hist c _ _ V0) as Hh.
  assert (GO : forall zs ts1, texec k c ts zs = Some ts1 -> treached k c (xs ++ zs) ts1 ->
    (left_over c (acts (xs ++ zs)) (t_st ts1) < left_over c (acts xs) (t_st ts))%nat -> exists ys ts', texec k c ts ys = Some ts' /\ T <= t_now ts').
  { intros zs ts1 E1 R1 L1. destruct (IH (left_over c (acts (xs ++ zs)) (t_st ts1)) ltac:(lia) _ _ R1 (le_n _)) as (ys & ts' & E2 & L2).
    exists (zs ++ ys)%list, ts'. split; [rewrite texec_app, E1; exact E2 | exact L2]. }
  destruct (can_move (t_st ts)) eqn:Em.
  - destruct (move_enabled c _ Em) as (l & s' & Hl & Hs).
    assert (E : exists ts1, tstep k c ts (Do l) = Some ts1).
    { cbn [tstep]. assert (Hd : due ts l = true) by (destruct l; try discriminate Hl; reflexivity). rewrite Hd, Hs. eexists. reflexivity. }
    destruct E as [ts1 E]. apply (GO [Do l] ts1); [cbn [texec]; now rewrite E | exact (tr_step k c xs ts _ ts1 R E)|].
    destruct (do_inv k c ts l ts1 E) as (_ & _ & Hs1 & _). rewrite acts_app. cbn [acts].
    pose proof (live_step c _ _ l _ Hh Hs1) as L1.
    pose proof (handler_bound c _ _ (reach_exec c _ _ (reach_step c _ _ l _ V0 Hs1))) as B. fold (most c) in B.
    pose proof (count_snoc (acts xs) l) as C. rewrite Hl in C.
    pose proof (step_dwn c _ l _ Hs1) as D. unfold left_over.
    assert (Dd : s_dwn (t_st ts1) = s_dwn (t_st ts)) by (rewrite D; destruct l; try discriminate Hl; reflexivity). rewrite Dd.
    assert (Z.of_nat (24 * Z.to_nat (most c)) = 24 * most c) by (unfold most; lia). lia.
  - set (dues := (map (t_up ts) (live (t_st ts)) ++ (if s_dwn (t_st ts) then [] else [t_dwn ts]))%list).
    assert (Cases : dues = [] \/ dues <> []) by (destruct dues; [now left | right; discriminate]).
    destruct Cases as [D|D].
    + apply app_eq_nil in D. destruct D as [D1 D2]. apply map_eq_nil in D1.
      assert (W : may_wait k ts (t_now ts + Z.max 0 (T - t_now ts)) = true).
      { apply wait_intro.
        - intros X. congruence.
        - intros X. rewrite X in D2. discriminate D2.
        - intros i Hi Hr. assert (X : In i (live (t_st ts))) by (apply live_in; auto). rewrite D1 in X. destruct X. }
      exists [Tick (Z.max 0 (T - t_now ts))]. cbn [texec tstep]. rewrite W.
      assert (E0 : (0 <=? Z.max 0 (T - t_now ts)) = true) by (apply Z.leb_le; lia). rewrite E0. cbn [andb]. eexists. split; [reflexivity|]. cbn [t_now]. lia.
    + destruct (least dues D) as (m & M1 & M2).
      set (d := Z.max 0 (m - t_now ts)).
      assert (W : may_wait k ts (t_now ts + d) = true).
      { apply wait_intro.
        - intros X. congruence.
        - intros X. assert (m <= t_dwn ts) by (apply M2; unfold dues; rewrite X; apply in_or_app; right; now left). specialize (V3 X). unfold d. lia.
        - intros i Hi Hr. assert (m <= t_up ts i) by (apply M2; unfold dues; apply in_or_app; left; apply in_map, live_in; auto).
          specialize (V4 i Hi Hr). unfold d. lia. }
      assert (E1 : tstep k c ts (Tick d) = Some (Timed (t_now ts + d) (t_st ts) (t_dwn ts) (t_up ts) (t_since ts))).
      { cbn [tstep]. rewrite W. assert (E0 : (0 <=? d) = true) by (apply Z.leb_le; unfold d; lia). rewrite E0. reflexivity. }
      set (ts1 := Timed (t_now ts + d) (t_st ts) (t_dwn ts) (t_up ts) (t_since ts)) in *.
      assert (Hm : m <= t_now ts1) by (unfold ts1, d; cbn [t_now]; lia).
      assert (FIRE : exists l s', step c (t_st ts) l = Some s' /\ due ts1 l = true /\ by_handler l = false /\
         (length (live s') + (if s_dwn s' then 0 else 1) < length (live (t_st ts)) + (if s_dwn (t_st ts) then 0 else 1))%nat).
      { unfold dues in M1. apply in_app_or in M1. destruct M1 as [M1|M1].
        - apply in_map_iff in M1. destruct M1 as (i & Ei & Hi). pose proof Hi as Hin. apply live_in in Hi. destruct Hi as [Hi Hr].
          assert (X : step c (t_st ts) (LUpTimer i) = Some (with_atts (upd i (with_ctx true) (s_att (t_st ts))) (t_st ts))).
          { cbn [step goroutine_step]. unfold running in Hr. destruct (a_h (s_att (t_st ts) i)); try discriminate Hr;
            destruct (a_ctx (s_att (t_st ts) i)); try discriminate Hr; reflexivity. }
          exists (LUpTimer i). eexists. split; [exact X|]. split; [cbn [due ts1 t_up]; apply Z.leb_le; lia|]. split; [reflexivity|].
          assert (Eb : begins (t_st ts) (LUpTimer i) = false) by (unfold begins; destruct (s_pc (t_st ts)); reflexivity).
          pose proof (live_kept c _ _ _ _ Hh X Eb) as K.
          set (s' := with_atts (upd i (with_ctx true) (s_att (t_st ts))) (t_st ts)) in *.
          assert (N : ~ In i (live s')).
          { intros Y. apply live_in in Y. destruct Y as [_ Y]. unfold running, s', with_atts, upd in Y. cbn [s_att] in Y.
            rewrite Nat.eqb_refl in Y. cbn [with_ctx a_h a_ctx negb] in Y. destruct (a_h (s_att (t_st ts) i)); discriminate Y. }
          assert (L : (length (i :: live s') <= length (live (t_st ts)))%nat).
          { apply NoDup_incl_length; [constructor; [exact N | apply live_nodup]|]. intros j [<-|Hj]; [exact Hin | now apply K]. }
          cbn [length] in L. assert (s_dwn s' = s_dwn (t_st ts)) by reflexivity. rewrite H. lia.
        - destruct (s_dwn (t_st ts)) eqn:Ed; [destruct M1|]. destruct M1 as [M1|[]].
          assert (X : exists s', step c (t_st ts) LDwnTimer = Some s') by (cbn [step goroutine_step]; rewrite Ed; eexists; reflexivity).
          destruct X as [s' X]. exists LDwnTimer, s'. split; [exact X|]. split; [cbn [due ts1 t_dwn]; apply Z.leb_le; lia|]. split; [reflexivity|].
          pose proof (step_dwn c _ _ _ X) as Y. cbn beta iota in Y. rewrite Y.
          assert (Eb : begins (t_st ts) LDwnTimer = false) by (unfold begins; destruct (s_pc (t_st ts)); reflexivity).
          pose proof (NoDup_incl_length (live_nodup s') (live_kept c _ _ _ _ Hh X Eb)). lia. }
      destruct FIRE as (l & s' & Hs & Hd & Hl & L).
      assert (E2 : exists ts2, tstep k c ts1 (Do l) = Some ts2).
      { cbn [tstep]. rewrite Hd. cbn [ts1 t_st]. rewrite Hs. eexists. reflexivity. }
      destruct E2 as [ts2 E2]. apply (GO [Tick d; Do l] ts2).
      * cbn [texec]. rewrite E1, E2. reflexivity.
      * change [Tick d; Do l] with ([Tick d] ++ [Do l])%list. rewrite app_assoc. exact (tr_step k c _ ts1 _ ts2 (tr_step k c xs ts _ ts1 R E1) E2).
      * destruct (do_inv k c ts1 l ts2 E2) as (_ & _ & Hs1 & _). cbn [ts1 t_st] in Hs1. assert (Es : t_st ts2 = s') by congruence.
        rewrite Es, acts_app. cbn [acts]. unfold left_over. rewrite main_count_app. cbn [main_count].
        assert (is_main l = false) by (destruct l; try discriminate Hl; reflexivity). rewrite H. lia.
Qed.

Lemma time_passes : forall k c xs ts T, 0 <= k_delay k -> runs k c xs ts -> exists ys ts', texec k c ts ys = Some ts' /\ T <= t_now ts'.
Proof. intros k c xs ts T Hk R. exact (time_goes_on k c T Hk _ xs ts (runs_treached k c xs ts R) (le_n _)). Qed.
