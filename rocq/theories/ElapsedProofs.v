(** Proofs for [Thm_Elapsed]. *)
From Coq Require Import String Ascii List Bool ZArith NArith Arith Lia.
From Verif Require Import GoStr Header Json Exchange Machine MachineSpec MachineProofs MachineTimely AttemptLog AttemptLogSpec AccessLog AccessLogSpec
  Timing TimingSpec TimingProofs TimingMore TimingEarly Elapsed ElapsedSpec.
From Verif Require AttemptLogProofs AccessLogProofs.
Import ListNotations.
Local Open Scope Z_scope.

(** * Runs with durations *)

Definition enext (k : clock) (c : conf) (lab : string) (x : wire) (q : request) (es : estate) (y : tlabel) (ts' : tstate) : estate * list (Z * eline) :=
  match y with
  | Tick _ => (ESt ts' (es_message es) (es_start es) (es_elapsed es), [])
  | Do l => (eafter k es l ts', elines k c lab x q es l ts')
  end.

Inductive ereached (k : clock) (c : conf) (lab : string) (x : wire) (q : request) : list tlabel -> estate -> list (Z * eline) -> Prop :=
| er_init : ereached k c lab x q [] (einit k) []
| er_step : forall xs es L y ts', ereached k c lab x q xs es L -> tstep k c (es_ts es) y = Some ts' ->
    ereached k c lab x q (xs ++ [y]) (fst (enext k c lab x q es y ts')) (L ++ snd (enext k c lab x q es y ts')).

Lemma erun_app : forall k c lab x q a es b, erun k c lab x q es (a ++ b) =
  match erun k c lab x q es a with
  | Some (es1, L1) => match erun k c lab x q es1 b with Some (es2, L2) => Some (es2, (L1 ++ L2)%list) | None => None end
  | None => None
  end.
Proof.
  intros k c lab x q. induction a as [|y a IH]; intros es b; cbn [erun app].
  - destruct (erun k c lab x q es b) as [[e2 L2]|]; reflexivity.
  - destruct (tstep k c (es_ts es) y) as [ts'|]; [|reflexivity].
    assert (G : forall es' new, match erun k c lab x q es' (a ++ b) with Some (es2, rest) => Some (es2, (new ++ rest)%list) | None => None end =
      match match erun k c lab x q es' a with Some (es2, rest) => Some (es2, (new ++ rest)%list) | None => None end with
      | Some (es1, L1) => match erun k c lab x q es1 b with Some (es2, L2) => Some (es2, (L1 ++ L2)%list) | None => None end
      | None => None end).
    { intros es' new. rewrite IH. destruct (erun k c lab x q es' a) as [[e1 L1]|]; [|reflexivity].
      destruct (erun k c lab x q e1 b) as [[e2 L2]|]; [|reflexivity]. now rewrite app_assoc. }
    destruct y; apply G.
Qed.

Lemma erun_reached : forall k c lab x q xs es L, erun k c lab x q (einit k) xs = Some (es, L) -> ereached k c lab x q xs es L.
Proof.
  intros k c lab x q xs. induction xs as [|y xs IH] using rev_ind; intros es L H.
  - injection H as <- <-. constructor.
  - rewrite erun_app in H. destruct (erun k c lab x q (einit k) xs) as [[e1 L1]|]; [|discriminate].
    cbn [erun] in H. destruct (tstep k c (es_ts e1) y) as [ts'|] eqn:E; [|discriminate].
    pose proof (er_step k c lab x q xs e1 L1 y ts' (IH e1 L1 eq_refl) E) as R. unfold enext in R.
    destruct y as [d|l]; cbn [fst snd] in R; injection H as <- <-; rewrite ?app_nil_r in *; exact R.
Qed.

Lemma next_ts : forall k c lab x q es y ts', es_ts (fst (enext k c lab x q es y ts')) = ts'.
Proof. intros. destruct y; reflexivity. Qed.

Lemma ereached_runs : forall k c lab x q xs es L, ereached k c lab x q xs es L -> runs k c xs (es_ts es).
Proof.
  intros k c lab x q xs es L R. unfold runs. induction R as [|xs es L y ts' R IH H]; [reflexivity|].
  rewrite texec_app, IH. cbn [texec]. rewrite H. now rewrite next_ts.
Qed.

Lemma runs_durations : forall k c lab x q xs ts, runs k c xs ts -> exists L, durations k c lab x q xs = Some L.
Proof.
  intros k c lab x q xs ts H. unfold runs, durations in *.
  assert (G : forall es, es_ts es = tinit k -> exists es' L, erun k c lab x q es xs = Some (es', L)).
  { intros es. revert ts H. revert es. generalize (tinit k) as t0. induction xs as [|y xs IH]; intros t0 es ts H E; cbn [erun texec] in *; [now exists es, []|].
    rewrite E. destruct (tstep k c t0 y) as [ts1|]; [|discriminate].
    destruct y as [d|l].
    - destruct (IH ts1 (ESt ts1 (es_message es) (es_start es) (es_elapsed es)) ts H eq_refl) as (e2 & L & E2). rewrite E2. eauto.
    - destruct (IH ts1 (eafter k es l ts1) ts H eq_refl) as (e2 & L & E2). rewrite E2. eauto. }
  destruct (G (einit k) eq_refl) as (es' & L & ->). eauto.
Qed.

(** * The lines are those of [AttemptLog] and [AccessLog] *)

Lemma attempt_part_app : forall a b, attempt_part (a ++ b) = (attempt_part a ++ attempt_part b)%list.
Proof. intros. unfold attempt_part. now rewrite flat_map_app. Qed.
Lemma response_part_app : forall a b, response_part (a ++ b) = (response_part a ++ response_part b)%list.
Proof. intros. unfold response_part. now rewrite flat_map_app. Qed.

Lemma attempt_part_map : forall k now st f (ms : list message), attempt_part (map (fun m => about_attempt k now st (f m)) ms) = map f ms.
Proof. intros. induction ms as [|m ms IH]; [reflexivity|]. cbn. now f_equal. Qed.
Lemma response_part_map : forall k now st f (ms : list message), response_part (map (fun m => about_attempt k now st (f m)) ms) = [].
Proof. intros. induction ms as [|m ms IH]; [reflexivity|]. exact IH. Qed.

Lemma elines_parts : forall k c lab x q es l ts',
  attempt_part (elines k c lab x q es l ts') = step_lines c (t_st (es_ts es)) l (t_st ts') /\
  response_part (elines k c lab x q es l ts') =
    match l with LMain _ => match encoding_of c (t_st (es_ts es)) with Some e => [line c lab x q (t_st (es_ts es)) (es_message es) e] | None => [] end | _ => [] end.
Proof.
  intros. unfold elines, step_lines. rewrite !attempt_part_app, !response_part_app, attempt_part_map, response_part_map. split.
  - f_equal. destruct (Nat.ltb _ _); [|destruct l; try destruct (encoding_of _ _); reflexivity].
    destruct l; try destruct (encoding_of _ _); reflexivity.
  - destruct (Nat.ltb _ _); destruct l; try destruct (encoding_of _ _); reflexivity.
Qed.

Lemma parts : forall k c lab x q xs es L, 0 <= k_delay k -> ereached k c lab x q xs es L ->
  attempt_part L = run_lines c init (acts xs) /\
  lexec c lab x q linit (acts xs) = Some (LSt (t_st (es_ts es)) (es_message es) (response_part L)).
Proof.
  intros k c lab x q xs es L Hk R. induction R as [|xs es L y ts' R [IH1 IH2] H]; [split; reflexivity|].
  pose proof (v_reach _ _ _ _ (treached_tinv k c xs _ Hk (runs_treached k c xs _ (ereached_runs k c lab x q xs es L R)))) as V0.
  rewrite attempt_part_app, response_part_app, acts_app. destruct y as [d|l]; cbn [acts enext fst snd].
  - rewrite !app_nil_r. split; [exact IH1|]. rewrite IH2. cbn [es_ts es_message]. apply tick_inv in H. destruct H as (_ & _ & ->). cbn [t_st]. reflexivity.
  - destruct (elines_parts k c lab x q es l ts') as [E1 E2]. rewrite E1, E2. apply do_inv in H. destruct H as (_ & _ & Hs & _). split.
    + rewrite AttemptLogProofs.lines_app, (reach_exec c _ _ V0), IH1. cbn [run_lines]. now rewrite Hs, app_nil_r.
    + assert (G : forall a ls b, lexec c lab x q ls (a ++ b) = match lexec c lab x q ls a with Some l1 => lexec c lab x q l1 b | None => None end).
      { induction a as [|z a IHa]; intros ls b; cbn [lexec app]; [reflexivity|]. destruct (lstep c lab x q ls z); [apply IHa | reflexivity]. }
      rewrite G, IH2. cbn [lexec]. unfold lstep. cbn [ls_state ls_message ls_lines]. rewrite Hs. unfold eafter. cbn [es_ts es_message].
      destruct l; rewrite ?app_nil_r; try reflexivity. destruct (encoding_of c (t_st (es_ts es))); rewrite ?app_nil_r; reflexivity.
Qed.

Lemma same_lines : forall k c lab x q xs L, 0 <= k_delay k -> durations k c lab x q xs = Some L ->
  attempt_part L = attempt_lines c (acts xs) /\
  exists ls, lexec c lab x q linit (acts xs) = Some ls /\ response_part L = ls_lines ls.
Proof.
  intros k c lab x q xs L Hk H. unfold durations in H. destruct (erun k c lab x q (einit k) xs) as [[es L']|] eqn:E; [|discriminate]. injection H as <-.
  destruct (parts k c lab x q xs es L' Hk (erun_reached k c lab x q xs es L' E)) as [P1 P2]. split.
  - unfold attempt_lines. rewrite <- P1. reflexivity.
  - eexists. split; [exact P2|]. reflexivity.
Qed.

(** * Times *)

Lemma time_goes_on : forall k c ts y ts', tstep k c ts y = Some ts' -> t_now ts <= t_now ts'.
Proof.
  intros k c ts [d|l] ts' H; [apply tick_inv in H; destruct H as (H & _ & ->); cbn [t_now]; lia|]. apply do_inv in H. destruct H as (_ & -> & _). lia.
Qed.

Lemma runs_from : forall k c xs ts, runs k c xs ts -> k_entered k <= t_now ts.
Proof.
  intros k c xs ts H. apply runs_treached in H. induction H as [|xs ts y ts' R IH H]; [cbn; lia|]. pose proof (time_goes_on k c ts y ts' H). lia.
Qed.

Lemma sent_before : forall k c xs ts i u, runs k c xs ts -> sent_at k c xs i u -> u <= t_now ts.
Proof.
  intros k c xs ts i u R. pose proof (runs_treached k c xs ts R) as T. clear R. revert i u. induction T as [|xs ts y ts' T IH H]; intros i u S0.
  - destruct S0 as (a & z & b & t1 & t2 & E & _). destruct a; discriminate E.
  - pose proof (time_goes_on k c ts y ts' H). destruct (sent_snoc k c xs y ts ts' i u (treached_runs k c xs ts T) H S0) as [S1|(_ & _ & <-)]; [specialize (IH i u S1)|]; lia.
Qed.

Lemma answered_app : forall k c xs ys r t, answered_at k c xs r t -> answered_at k c (xs ++ ys) r t.
Proof.
  intros k c xs ys r t (a & x & b & ts & ts' & -> & H). exists a, x, (b ++ ys)%list, ts, ts'. rewrite <- app_assoc. split; [reflexivity | exact H].
Qed.

Lemma micros_lasted : forall a b, a <= b -> lasted (micros (b - a)) a b.
Proof. intros a b H. unfold lasted, micros. rewrite Z.quot_div_nonneg by lia. pose proof (Z.div_mod (b - a) 1000 ltac:(lia)). pose proof (Z.mod_pos_bound (b - a) 1000 ltac:(lia)). lia. Qed.

(** Within its time an attempt is finished. *)
Lemma attempt_span : forall k c xs ts, 0 <= k_delay k -> runs k c xs ts -> s_pc (t_st ts) <> PStart -> ~ finished (t_st ts) ->
  t_now ts <= t_up ts (s_cur (t_st ts)) + 24 * k_delay k.
Proof.
  intros k c xs ts Hk H P D. pose proof (runs_treached k c xs ts H) as R.
  pose proof (treached_tinv k c xs ts Hk R) as V. pose proof (treached_uinv k c xs ts Hk R) as [W1 W2 W3].
  destruct V as [V0 V1 V2 V3 V4 V5 V6 V7 V8]. destruct (a_ctx (cur (t_st ts))) eqn:E.
  - assert (Em : can_move (t_st ts) = true) by (apply ctx_waits; [| |exact E]; intros X; apply D; [now left | now right]).
    specialize (V2 Em). specialize (W3 P D eq_refl).
    assert (Hp : (pos (s_pc (t_st ts)) <= 22)%nat).
    { unfold finished in D. destruct (s_pc (t_st ts)) as [| | | | | | | | | | | [] | | | | | | | |]; cbn [pos]; try lia; elim D; auto. }
    assert (k_delay k * Z.of_nat (pos (s_pc (t_st ts))) <= k_delay k * 22) by (apply Z.mul_le_mono_nonneg_l; lia). lia.
  - specialize (V4 _ (le_n _) (unfinished_running c _ _ V0 P D E)). lia.
Qed.

(** * When the current attempt began *)

Record einv (k : clock) (c : conf) (xs : list tlabel) (es : estate) : Prop := {
  f_past : es_start es <= t_now (es_ts es);
  f_since : s_pc (t_st (es_ts es)) = PStart -> t_since (es_ts es) = es_start es;
  f_cur : forall u, sent_at k c xs (s_cur (t_st (es_ts es))) u -> es_start es <= u <= es_start es + k_delay k }.

Lemma start_unsent : forall k c xs ts u, 0 <= k_delay k -> runs k c xs ts -> s_pc (t_st ts) = PStart -> ~ sent_at k c xs (s_cur (t_st ts)) u.
Proof.
  intros k c xs ts u Hk R P S0. pose proof (runs_treached k c xs ts R) as T.
  pose proof (v_reach _ _ _ _ (treached_tinv k c xs ts Hk T)) as V0. destruct (treached_sinv k c xs ts Hk T) as [Q1 _].
  destruct (Q1 _ _ S0) as [L _]. pose proof (sent_start c _ _ V0 P). lia.
Qed.

Lemma cur_step : forall c s l s', step c s l = Some s' -> s_cur s' = s_cur s \/ (s_cur s' = S (s_cur s) /\ s_pc s' = PStart /\ by_handler l = true /\ s_pc s = PRetry).
Proof. intros c s l s' H. destruct s as [m n dw fl p sent out]. step_cases H; simp; subst; auto. Qed.

Lemma einv_reached : forall k c lab x q xs es L, 0 <= k_delay k -> ereached k c lab x q xs es L -> einv k c xs es.
Proof.
  intros k c lab x q xs es L Hk R. induction R as [|xs es L y ts' R [F1 F2 F3] H].
  - constructor; cbn [einit es_ts es_start tinit t_now t_st t_since]; try lia; auto.
    intros u (a & z & b & t1 & t2 & E & _). destruct a; discriminate E.
  - pose proof (ereached_runs k c lab x q xs es L R) as Rr. pose proof (runs_treached k c xs _ Rr) as T.
    pose proof (treached_tinv k c xs _ Hk T) as V. pose proof (v_reach _ _ _ _ V) as V0.
    assert (Rr' : runs k c (xs ++ [y]) ts') by (unfold runs in *; rewrite texec_app, Rr; cbn [texec]; now rewrite H).
    pose proof (time_goes_on k c _ y ts' H) as Hg.
    destruct y as [d|l]; cbn [enext fst].
    + pose proof (tick_inv k c _ d ts' H) as (_ & _ & E). constructor; cbn [es_ts es_start].
      * lia.
      * rewrite E. cbn [t_st t_since]. exact F2.
      * intros u S0. destruct (sent_snoc k c xs _ _ ts' _ u Rr H S0) as [S1|(L1 & L2 & _)]; [|rewrite E in L1, L2; cbn [t_st] in L1, L2; lia].
        apply F3. rewrite E in S1. exact S1.
    + pose proof (do_inv k c _ l ts' H) as (_ & Hnow & Hs & _ & _ & Hsi).
      unfold eafter. cbn zeta. destruct (cur_step c _ l _ Hs) as [Ec|(Ec & Ep & Hl & _)].
      * rewrite Ec, Nat.ltb_irrefl. constructor; cbn [es_ts es_start].
        -- lia.
        -- intros P. assert (Hl : by_handler l = false /\ s_pc (t_st (es_ts es)) = PStart).
           { destruct (by_handler l) eqn:Hl; [|split; [reflexivity|]; destruct (others_stay c _ l _ Hs Hl) as [E _]; congruence].
             destruct (handler_moves c _ l _ Hs Hl) as [(_ & _ & X)|[_ X]]; [lia|]. rewrite P in X. cbn [pos] in X. lia. }
           destruct Hl as [Hl P0]. rewrite Hsi, Hl. assert (Em : can_move (t_st (es_ts es)) = true) by (unfold can_move; now rewrite P0).
           rewrite Em. cbn [orb negb]. now apply F2.
        -- intros u S0. rewrite Ec in S0. destruct (sent_snoc k c xs _ _ ts' _ u Rr H S0) as [S1|(L1 & L2 & <-)]; [now apply F3|].
           destruct (sent_step c _ _ l _ V0 Hs) as [E|(_ & Eb & _)]; [lia|].
           assert (P : s_pc (t_st (es_ts es)) = PStart) by (unfold begins in Eb; destruct (s_pc (t_st (es_ts es))); try discriminate Eb; reflexivity).
           specialize (F2 P). assert (Em : can_move (t_st (es_ts es)) = true) by (unfold can_move; now rewrite P).
           destruct V as [_ V1 V2 _ _ _ _ _ _]. specialize (V2 Em). lia.
      * rewrite Ec. assert (El : Nat.ltb (s_cur (t_st (es_ts es))) (S (s_cur (t_st (es_ts es)))) = true) by (apply Nat.ltb_lt; lia). rewrite El.
        constructor; cbn [es_ts es_start].
        -- lia.
        -- intros _. rewrite Hsi, Hl. reflexivity.
        -- intros u S0. exfalso. exact (start_unsent k c _ ts' u Hk Rr' Ep S0).
Qed.

(** Once it is sent, the request of the current attempt was sent at some time. *)
Lemma cur_sent : forall k c xs ts, 0 <= k_delay k -> runs k c xs ts -> s_pc (t_st ts) <> PStart -> s_pc (t_st ts) <> PPanic ->
  exists u, sent_at k c xs (s_cur (t_st ts)) u /\ t_up ts (s_cur (t_st ts)) = u + Z.max 0 (k_read k).
Proof.
  intros k c xs ts Hk R P1 P2. pose proof (runs_treached k c xs ts R) as T.
  pose proof (v_reach _ _ _ _ (treached_tinv k c xs ts Hk T)) as V0. destruct (treached_sinv k c xs ts Hk T) as [Q1 Q2].
  pose proof (k_all _ _ _ (reach_counts c _ _ V0) P2) as K.
  assert (N : pos (s_pc (t_st ts)) <> 0%nat) by (intros X; now apply P1, pos_start).
  apply Nat.eqb_neq in N. rewrite N in K. destruct (Q2 (s_cur (t_st ts)) ltac:(lia)) as [u Hu]. exists u. split; [exact Hu|]. now apply Q1.
Qed.

(** * Where the flag of the downstream timer is set *)

Definition flagged (s : state) : Prop :=
  match s_pc s with
  | PRetHdr | PProc _ => a_ctx (cur s) = true
  | PRetBody | PCheck1 _ _ | PRetry | PFin1 | PLog1 | PLog2 | PLog3 | PDone | PPanic => True
  | _ => False
  end.

Lemma flag_where : forall c ls s, reach c ls s -> s_flag s = true -> flagged s.
Proof.
  intros c ls s R. induction R as [|ls s l s' R IH H]; [discriminate|]. intros F. pose proof (k_flag _ _ _ (reach_counts c ls s R)) as Kf.
  unfold flagged in *. destruct s as [m n dw fl p sent out]. unfold cur in *. simp.
  step_cases H; simp; subst; simp; unfold cur, upd in *; simp; try (specialize (IH eq_refl)); try (specialize (IH F)); try exact I; try assumption; try contradiction;
    rewrite ?Nat.eqb_refl; simp;
    repeat match goal with |- context [Nat.eqb ?a ?b] => destruct (Nat.eqb_spec a b); subst; simp end; try assumption; try reflexivity.
  all: repeat match goal with E : _ = true |- _ => rewrite E in * | E : (_ || _)%bool = _ |- _ => rewrite ?orb_true_r in E; cbn in E end; try discriminate; try contradiction; auto.
  all: try (destruct p; simp; repeat match goal with |- context [Nat.eqb ?a ?b] => destruct (Nat.eqb_spec a b); subst; simp end; auto; fail).
  - unfold up_aborted, cur in Heqb. cbn [s_att s_cur] in Heqb. rewrite IH in Heqb. discriminate Heqb.
  - rewrite andb_false_r in Heqb. discriminate Heqb.
Qed.

Lemma ctx_fired : forall c ls s, reach c ls s -> s_flag s = false -> a_ctx (cur s) = true -> In (LUpTimer (s_cur s)) ls.
Proof.
  intros c ls s R F E. destruct (g_ctx _ _ _ _ (h_good _ _ _ (reach_hist c ls s R) (s_cur s) (le_n _)) E) as [H|H]; [exact H|congruence].
Qed.

Lemma up_ctx : forall c ls s, reach c ls s -> up_aborted s = true -> a_ctx (cur s) = true.
Proof.
  intros c ls s R E. unfold up_aborted in E. apply orb_true_iff in E. destruct E as [E|E]; [exact E|].
  exact (g_flag _ _ _ _ (h_good _ _ _ (reach_hist c ls s R) (s_cur s) (le_n _)) E).
Qed.

(** * Lines about attempts *)

(** The step that writes a message about the read timeout comes after that timeout; one about the round trip timeout
    after that. *)
Lemma message_timer : forall c ls s l s' m, reach c ls s -> step c s l = Some s' -> In m (messages c s l) ->
  s_pc s <> PStart /\ ~ finished s /\ by_handler l = true /\ m <> Initialized /\
  (m = HeaderTimeout \/ m = BodyTimeout -> In (LUpTimer (s_cur s)) ls) /\
  (m = HeaderAborted \/ m = BodyAborted \/ m = PriorAborted -> In LDwnTimer ls).
Proof.
  intros c ls s l s' m R H Hm. pose proof (flag_where c ls s R) as Fw. pose proof (ctx_fired c ls s R) as Cf.
  pose proof (k_dwn _ _ _ (reach_counts c ls s R)) as Kd. unfold messages in Hm.
  assert (U : s_pc s = PSelHdr \/ s_pc s = PSelBody -> a_ctx (cur s) = true -> In (LUpTimer (s_cur s)) ls).
  { intros P E. apply Cf; [|exact E]. destruct (s_flag s); [|reflexivity]. specialize (Fw eq_refl). unfold flagged in Fw. destruct P as [P|P]; rewrite P in Fw; contradiction. }
  clear Fw Cf. unfold finished. destruct (s_pc s) eqn:P; destruct l as [dice|b| | | | | | | | |]; try contradiction.
  all: try (match goal with st : stage |- _ => destruct st; try contradiction end).
  all: try (destruct b; cbn [step] in H; unfold sel_step in H; rewrite P in H).
  all: assert (HP : forall q, q <> PDone -> q <> PPanic -> ~ (q = PDone \/ q = PPanic)) by (intros q A1 A2 [B|B]; [exact (A1 B)|exact (A2 B)]).
  all: split; [discriminate|]; split; [apply HP; discriminate|]; split; [reflexivity|].
  all: try (destruct (a_ctx (cur s)) eqn:E; [|discriminate H]; destruct Hm as [<-|[]]; split; [discriminate|]; split; [intros _; apply U; auto|intros [X|[X|X]]; discriminate X]).
  all: assert (D : s_dwn s = true -> m = HeaderAborted \/ m = BodyAborted \/ m = PriorAborted ->
    m <> Initialized /\ (m = HeaderTimeout \/ m = BodyTimeout -> In (LUpTimer (s_cur s)) ls) /\
    (m = HeaderAborted \/ m = BodyAborted \/ m = PriorAborted -> In LDwnTimer ls)).
  all: try (intros E Em; split; [intros X; rewrite X in Em; destruct Em as [Em|[Em|Em]]; discriminate Em|];
            split; [intros [X|X]; rewrite X in Em; destruct Em as [Em|[Em|Em]]; discriminate Em|intros _; exact (proj1 Kd E)]).
  all: try (destruct (s_dwn s); [|discriminate H]; apply (D eq_refl); apply in_app_or in Hm; destruct Hm as [Hm|[Hm|[]]];
            [apply repeat_spec in Hm; auto | subst m; auto]).
  all: clear D.
  all: clear H HP U Kd.
  all: repeat match goal with Hm : In _ (match ?t with _ => _ end) |- _ => destruct t; cbn [In] in Hm end; try contradiction.
  all: try (destruct Hm as [<-|[]]; split; [discriminate|]; split; [intros [X|X]; discriminate X|intros [X|[X|X]]; discriminate X]).
Qed.
