(** More proofs for [Thm_Elapsed]: what the lines tell. *)
From Coq Require Import String Ascii List Bool ZArith NArith Arith Lia Sorted.
From Verif Require Import GoStr Header Json Exchange Machine MachineSpec MachineProofs MachineTimely AttemptLog AttemptLogSpec AccessLog AccessLogSpec
  Timing TimingSpec TimingProofs TimingMore TimingEarly Elapsed ElapsedSpec ElapsedProofs.
Import ListNotations.
Local Open Scope Z_scope.

(** * Until when a request can be served *)

Definition latest (k : clock) (c : conf) : Z := Z.max (k_entered k) (k_arrived k + Z.max 0 (k_round k)) + 24 * most c * k_delay k.

Lemma not_late : forall k c xs ts, 0 <= k_delay k -> runs k c xs ts -> ~ finished (t_st ts) -> t_now ts <= latest k c.
Proof.
  intros k c xs ts Hk R D. destruct (Z.le_gt_cases (t_now ts) (latest k c)) as [H|H]; [exact H|]. elim D. exact (over_in_time k c xs ts Hk R (Z.gt_lt _ _ (Z.lt_gt _ _ H))).
Qed.

(** * The message of the response *)

Lemma code_text : forall m st, forallb (fun e => negb (String.eqb (snd e) m)) http_responses = true -> m <> "unspecified response code"%string -> with_code st <> m.
Proof.
  intros m st F N E. unfold with_code in E. destruct (find _ http_responses) as [e|] eqn:X; [|congruence].
  apply find_some in X. destruct X as [X _]. rewrite forallb_forall in F. specialize (F e X). rewrite E, String.eqb_refl in F. discriminate F.
Qed.

Lemma none_text : forall st, status_message st "none" = with_code st.
Proof. reflexivity. Qed.

Lemma not_finished : forall s p, s_pc s = p -> p <> PDone -> p <> PPanic -> ~ finished s.
Proof. intros s p E A B [X|X]; congruence. Qed.

(** Steps into the three stages of logging *)
Lemma log_from : forall c ls s l s', reach c ls s -> step c s l = Some s' -> s_pc s' = PLog1 ->
  (s_pc s = PLog1 /\ by_handler l = false /\ s_out s' = s_out s /\ s_cur s' = s_cur s) \/
  (exists d r, l = LMain d /\ s_out s = [] /\ s_out s' = [r] /\ s_cur s' = s_cur s /\ exists m, message_of s = Some m /\
     (m = round_trip_text -> s_dwn s = true) /\ (m = read_timeout_text -> In (LUpTimer (s_cur s)) ls) ).
Proof.
  intros c ls s l s' R H P. pose proof (k_out _ _ _ (reach_counts c ls s R)) as K. pose proof (k_flag _ _ _ (reach_counts c ls s R)) as Kf.
  pose proof (h_pc _ _ _ (reach_hist c ls s R)) as Hp. pose proof (ctx_fired c ls s R) as Cf. pose proof (up_ctx c ls s R) as Uc.
  destruct (by_handler l) eqn:Hl.
  - right. destruct l as [d|b| | | | | | | | |]; try discriminate Hl.
    + exists d. cbn [step] in H. unfold main_step in H. unfold message_of.
      destruct (s_pc s) eqn:Ep; cbn [out_ok] in K; try discriminate H.
      all: repeat match goal with H : match ?t with _ => _ end = Some _ |- _ => destruct t eqn:?; try discriminate H end.
      all: try (injection H as <-; simp; discriminate P).
      all: try (injection H as <-; simp; repeat match goal with P : (if ?t then _ else _) = _ |- _ => destruct t end; discriminate P).
      all: injection H as <-; simp; rewrite K; cbn [app]; eexists; (split; [reflexivity|]); (split; [reflexivity|]); (split; [reflexivity|]); (split; [reflexivity|]);
           eexists; (split; [reflexivity|]); split; intros X.
      all: try (exfalso; rewrite none_text in X; revert X; apply code_text; [vm_compute; reflexivity|discriminate]).
      all: try discriminate X.
      all: try (match goal with E : dwn_aborted _ = true |- _ => unfold dwn_aborted in E; apply orb_true_iff in E; destruct E as [E|E]; [exact E|exact (Kf E)] end).
      all: try (apply Cf; [cbn [at_pc] in Hp; tauto|apply Uc; assumption]).
    + exfalso. cbn [step] in H. unfold sel_step in H. destruct (s_pc s), b; try discriminate H;
        repeat match goal with H : (if ?t then _ else _) = Some _ |- _ => destruct t; try discriminate H end; injection H as <-; simp; discriminate P.
  - left. destruct (others_stay c s l s' H Hl) as [E1 E2]. repeat split; try congruence.
    clear - H Hl. destruct s as [m n dw fl p sent out]. step_cases H; simp; subst; cbn [by_handler] in Hl; try discriminate Hl; reflexivity.
Qed.

Lemma log_on : forall c s l s', step c s l = Some s' -> s_pc s' = PLog2 \/ s_pc s' = PLog3 ->
  (s_pc s' = s_pc s /\ by_handler l = false \/ s_pc s = PLog1 /\ s_pc s' = PLog2 /\ (exists d, l = LMain d) \/ s_pc s = PLog2 /\ s_pc s' = PLog3 /\ (exists d, l = LMain d)) /\
  s_out s' = s_out s /\ s_cur s' = s_cur s /\ (by_handler l = true -> message_of s = None).
Proof.
  intros c s l s' H P. destruct (by_handler l) eqn:Hl.
  - destruct l as [d|b| | | | | | | | |]; try discriminate Hl.
    + cbn [step] in H. unfold main_step in H. unfold message_of.
      destruct (s_pc s) eqn:Ep; try discriminate H.
      all: repeat match goal with H : match ?t with _ => _ end = Some _ |- _ => destruct t eqn:?; try discriminate H end.
      all: try (injection H as <-; simp; destruct P as [P|P]; discriminate P).
      all: try (injection H as <-; simp; repeat match goal with P : context [if ?t then _ else _] |- _ => destruct t end; destruct P as [P|P]; discriminate P).
      all: injection H as <-; simp; try (destruct (a_gz (cur s)); [destruct P as [P|P]; discriminate P|]); (split; [right; ((left; solve [eauto]) || (right; solve [eauto]))|auto]).
    + exfalso. cbn [step] in H. unfold sel_step in H. destruct (s_pc s), b; try discriminate H;
        repeat match goal with H : (if ?t then _ else _) = Some _ |- _ => destruct t; try discriminate H end; injection H as <-; simp; destruct P as [P|P]; discriminate P.
  - destruct (others_stay c s l s' H Hl) as [E1 E2]. split; [left; auto|]. split; [|split; [exact E2|discriminate]].
    clear - H Hl. destruct s as [m n dw fl p sent out]. step_cases H; simp; subst; cbn [by_handler] in Hl; try discriminate Hl; reflexivity.
Qed.

(** What is known while the response is logged *)
Definition written (k : clock) (c : conf) (xs : list tlabel) (es : estate) : Prop :=
  exists r ta, s_out (t_st (es_ts es)) = [r] /\ answered_at k c xs r ta /\ ta <= t_now (es_ts es) /\
    (es_message es = round_trip_text -> k_arrived k + Z.max 0 (k_round k) <= ta) /\
    (es_message es = read_timeout_text -> exists u, sent_at k c xs (s_cur (t_st (es_ts es))) u /\ u + Z.max 0 (k_read k) <= ta) /\
    (s_pc (t_st (es_ts es)) = PLog1 \/ (ta - k_arrived k <= es_elapsed es <= t_now (es_ts es) - k_arrived k)).

Definition ginv (k : clock) (c : conf) (xs : list tlabel) (es : estate) : Prop :=
  match s_pc (t_st (es_ts es)) with PLog1 | PLog2 | PLog3 => written k c xs es | _ => True end.

Lemma ginv_written : forall k c xs es, (s_pc (t_st (es_ts es)) = PLog1 \/ s_pc (t_st (es_ts es)) = PLog2 \/ s_pc (t_st (es_ts es)) = PLog3 -> written k c xs es) -> ginv k c xs es.
Proof. intros k c xs es H. unfold ginv. destruct (s_pc (t_st (es_ts es))); try exact I; apply H; auto. Qed.

Lemma ginv_reached : forall k c lab x q xs es L, 0 <= k_delay k -> ereached k c lab x q xs es L -> ginv k c xs es.
Proof.
  intros k c lab x q xs es L Hk R. induction R as [|xs es L y ts' R G H]; [exact I|].
  pose proof (ereached_runs k c lab x q xs es L R) as Rr. pose proof (runs_treached k c xs _ Rr) as T.
  pose proof (v_reach _ _ _ _ (treached_tinv k c xs _ Hk T)) as V0. pose proof (time_goes_on k c _ y ts' H) as Hg.
  apply ginv_written. destruct y as [d|l]; cbn [enext fst].
  - pose proof (tick_inv k c _ d ts' H) as (_ & _ & E). unfold written. cbn [es_ts es_message es_elapsed]. rewrite E. cbn [t_st t_now]. intros P.
    assert (W : written k c xs es) by (unfold ginv in G; destruct P as [P|[P|P]]; rewrite P in G; exact G).
    rewrite E in Hg. cbn [t_now] in Hg. destruct W as (r & ta & W1 & W2 & W3 & W4 & W5 & W6). exists r, ta. split; [exact W1|]. split; [now apply answered_app|]. split; [lia|]. split; [exact W4|].
    split; [|destruct W6 as [W6|W6]; [left; exact W6|right; lia]]. intros M. destruct (W5 M) as (u & U1 & U2). exists u. split; [now apply sent_app|exact U2].
  - pose proof (do_inv k c _ l ts' H) as (_ & Hnow & Hs & _). unfold written, eafter. cbn [es_ts es_message es_elapsed]. intros P.
    assert (A : forall r ta, answered_at k c xs r ta -> answered_at k c (xs ++ [Do l]) r ta) by (intros; now apply answered_app).
    assert (S5 : forall i u, sent_at k c xs i u -> sent_at k c (xs ++ [Do l]) i u) by (intros; now apply sent_app).
    destruct P as [P|P].
    + destruct (log_from c _ _ l _ V0 Hs P) as [(P0 & Hl & O & C)|(dc & r & -> & O1 & O2 & C & m & Em & M1 & M2)].
      * unfold ginv in G. rewrite P0 in G. destruct G as (r & ta & W1 & W2 & W3 & W4 & W5 & W6). exists r, ta.
        rewrite O, C. assert (El : (match l with LMain _ => match message_of (t_st (es_ts es)) with Some m => m | None => es_message es end | _ => es_message es end) = es_message es)
          by (destruct l; try discriminate Hl; reflexivity). rewrite El.
        split; [exact W1|]. split; [auto|]. split; [lia|]. split; [exact W4|]. split; [|now left].
        intros M. destruct (W5 M) as (u & U1 & U2). exists u. auto.
      * exists r, (t_now (es_ts es)). rewrite Em, O2. split; [reflexivity|]. split; [exists xs, (Do (LMain dc)), [], (es_ts es), ts'; auto 10|]. split; [lia|].
        split; [intros X; apply (dwn_long_ago k c xs (es_ts es) Hk Rr), (k_dwn _ _ _ (reach_counts c _ _ V0)), M1, X|].
        split; [|left; exact P].
        intros X. destruct (fired_long_ago k c xs _ _ Hk Rr (M2 X)) as (u & U1 & U2). exists u. rewrite C. auto.
    + destruct (log_on c _ l _ Hs P) as (Q & O & C & Mn).
      assert (El : (match l with LMain _ => match message_of (t_st (es_ts es)) with Some m => m | None => es_message es end | _ => es_message es end) = es_message es).
      { destruct l; try reflexivity. now rewrite (Mn eq_refl). }
      rewrite El, O, C.
      assert (W : written k c xs es) by (unfold ginv in G; destruct Q as [[Q _]|[(Q & _)|(Q & _)]]; [rewrite Q in P; destruct P as [P|P]; rewrite P in G|rewrite Q in G|rewrite Q in G]; exact G).
      destruct W as (r & ta & W1 & W2 & W3 & W4 & W5 & W6). exists r, ta. split; [exact W1|]. split; [auto|]. split; [lia|]. split; [exact W4|].
      split; [intros M; destruct (W5 M) as (u & U1 & U2); exists u; auto|]. right.
      destruct Q as [[Q Hl]|[(Q & _ & d & ->)|(Q & _ & d & ->)]].
      * assert (Ee : (match s_pc (t_st (es_ts es)), l with PLog1, LMain _ => t_now (es_ts es) - k_arrived k | _, _ => es_elapsed es end) = es_elapsed es)
          by (destruct l; try discriminate Hl; destruct (s_pc (t_st (es_ts es))); reflexivity).
        rewrite Ee. destruct W6 as [W6|W6]; [rewrite W6 in Q; rewrite Q in P; destruct P as [P|P]; discriminate P|lia].
      * rewrite Q. lia.
      * rewrite Q. destruct W6 as [W6|W6]; [congruence|lia].
Qed.

(** * The lines *)

Definition attempt_fact (k : clock) (c : conf) (xs : list tlabel) (t : Z) (a : aline) (up dwn : Z) : Prop :=
  lasted dwn (k_arrived k) t /\ t <= latest k c /\
  (round_trip_line a -> k_arrived k + Z.max 0 (k_round k) <= t) /\
  exists n, of_attempt c (S n) a /\
    ((al_message a = Initialized /\ up = 0) \/
     (al_message a <> Initialized /\ exists b u, sent_at k c xs n u /\ b <= u <= b + k_delay k /\ u <= t /\ lasted up b t /\
        t <= u + Z.max 0 (k_read k) + 24 * k_delay k /\ (read_timeout_line a -> b + Z.max 0 (k_read k) <= t))).

Definition response_fact (k : clock) (c : conf) (xs : list tlabel) (t : Z) (e : entry) (dwn : Z) (up : option Z) : Prop :=
  exists r ta, answered_at k c xs r ta /\ rp_status r = l_status e /\ ta <= t <= latest k c /\
    ta - k_arrived k < 1000 * (dwn + 1) /\ 1000 * dwn <= t - k_arrived k /\ 0 <= dwn /\
    (l_error e = Some round_trip_text -> k_arrived k + Z.max 0 (k_round k) <= ta) /\
    (up = None <-> l_up e = None) /\
    (forall v w, up = Some v -> l_up e = Some w -> exists n b u, ue_count w = numbered c (S n) /\
       sent_at k c xs n u /\ b <= u <= b + k_delay k /\ u <= t /\ lasted v b t /\ t <= u + Z.max 0 (k_read k) + 24 * k_delay k /\
       (l_error e = Some read_timeout_text -> b + Z.max 0 (k_read k) <= ta)) /\
    (l_error e = Some read_timeout_text -> exists n u, sent_at k c xs n u /\ u + Z.max 0 (k_read k) <= ta).

Definition fact (k : clock) (c : conf) (xs : list tlabel) (e : Z * eline) : Prop :=
  match e with (t, EAttempt a up dwn) => attempt_fact k c xs t a up dwn | (t, EResponse e dwn up) => response_fact k c xs t e dwn up end.

Lemma fact_app : forall k c xs ys e, fact k c xs e -> fact k c (xs ++ ys) e.
Proof.
  intros k c xs ys [t [a up dwn|e dwn up]]; cbn [fact].
  - intros (H1 & H2 & H3 & n & H4 & H5). repeat (split; [assumption|]). exists n. split; [exact H4|]. destruct H5 as [H5|(Hb & b & u & U1 & U2)]; [left; exact H5|right].
    split; [exact Hb|]. exists b, u. split; [now apply sent_app|exact U2].
  - intros (r & ta & H1 & H2 & H3 & H4 & H5 & H6 & H7 & H8 & H9 & H10). exists r, ta. split; [now apply answered_app|]. repeat (split; [assumption|]). split.
    + intros v w E1 E2. destruct (H9 v w E1 E2) as (n & b & u & U1 & U2 & U3). exists n, b, u. split; [exact U1|]. split; [now apply sent_app|exact U3].
    + intros E. destruct (H10 E) as (n & u & U1 & U2). exists n, u. split; [now apply sent_app|exact U2].
Qed.

Lemma micros_self : forall a, micros (a - a) = 0.
Proof. intros a. rewrite Z.sub_diag. reflexivity. Qed.

Lemma begin_line : forall k c xs now n, k_arrived k <= now -> now <= latest k c ->
  fact k c xs (about_attempt k now now (attempt_line c n Initialized)).
Proof.
  intros k c xs now n H1 H2. cbn [fact about_attempt]. split; [now apply micros_lasted|]. split; [exact H2|].
  split; [intros [X|[X|X]]; discriminate X|]. exists n. split; [reflexivity|]. left. split; [reflexivity|apply micros_self].
Qed.

Lemma logging_at : forall c s e, encoding_of c s = Some e -> s_pc s = PLog1 \/ s_pc s = PLog2 \/ s_pc s = PLog3.
Proof. intros c s e H. unfold encoding_of in H. destruct (s_pc s); try discriminate H; auto. Qed.

Lemma ltb_same : forall n, Nat.ltb n n = false.
Proof. intros n. apply Nat.ltb_irrefl. Qed.

Lemma facts_step : forall k c lab x q xs es L l ts', 0 <= k_delay k -> k_arrived k <= k_entered k -> ereached k c lab x q xs es L ->
  tstep k c (es_ts es) (Do l) = Some ts' -> Forall (fact k c xs) (elines k c lab x q es l ts').
Proof.
  intros k c lab x q xs es L l ts' Hk Ha R H.
  pose proof (ereached_runs k c lab x q xs es L R) as Rr. pose proof (runs_treached k c xs _ Rr) as T.
  pose proof (v_reach _ _ _ _ (treached_tinv k c xs _ Hk T)) as V0. pose proof (do_inv k c _ l ts' H) as (_ & _ & Hs & _).
  pose proof (runs_from k c xs _ Rr) as Hf. pose proof (einv_reached k c lab x q xs es L Hk R) as [F1 F2 F3].
  unfold elines. apply Forall_app. split; [|apply Forall_app; split].
  - apply Forall_forall. intros e He. apply in_map_iff in He. destruct He as (m & <- & Hm).
    destruct (message_timer c _ _ l _ m V0 Hs Hm) as (P1 & P2 & _ & P3 & P4 & P5).
    destruct (cur_sent k c xs _ Hk Rr P1 (fun X => P2 (or_intror X))) as (u & U1 & U2).
    pose proof (attempt_span k c xs _ Hk Rr P1 P2) as Sp. pose proof (sent_before k c xs _ _ _ Rr U1) as Ub.
    cbn [fact about_attempt]. split; [apply micros_lasted; lia|]. split; [exact (not_late k c xs _ Hk Rr P2)|].
    split; [intros X; apply (dwn_long_ago k c xs _ Hk Rr), P5; exact X|].
    exists (s_cur (t_st (es_ts es))). split; [reflexivity|]. right. split; [exact P3|]. exists (es_start es), u. pose proof (F3 u U1).
    split; [exact U1|]. split; [assumption|]. split; [exact Ub|]. split; [now apply micros_lasted|]. split; [lia|].
    intros X. destruct (fired_long_ago k c xs _ _ Hk Rr (P4 X)) as (u' & U3 & U4). pose proof (F3 u' U3). lia.
  - destruct (Nat.ltb _ _) eqn:E; [|constructor]. constructor; [|constructor].
    assert (Ee : es_start (eafter k es l ts') = t_now (es_ts es)) by (unfold eafter; cbn [es_start]; now rewrite E). rewrite Ee.
    apply begin_line; [lia|]. apply not_late with xs; auto.
    destruct (cur_step c _ l _ Hs) as [X|(_ & _ & _ & X)]; [rewrite X, ltb_same in E; discriminate E|]. apply (not_finished _ _ X); discriminate.
  - destruct l as [d|b| | | | | | | | |]; try constructor. destruct (encoding_of c (t_st (es_ts es))) as [en|] eqn:Ee; [|constructor].
    constructor; [|constructor]. pose proof (logging_at c _ en Ee) as Pl.
    assert (W : written k c xs es) by (pose proof (ginv_reached k c lab x q xs es L Hk R) as G; unfold ginv in G; destruct Pl as [P|[P|P]]; rewrite P in G; exact G).
    assert (Nf : ~ finished (t_st (es_ts es))) by (destruct Pl as [P|[P|P]]; apply (not_finished _ _ P); discriminate).
    assert (Ns : s_pc (t_st (es_ts es)) <> PStart) by (destruct Pl as [P|[P|P]]; rewrite P; discriminate).
    assert (Sc : s_cur (t_st ts') = s_cur (t_st (es_ts es))) by (destruct (cur_step c _ _ _ Hs) as [X|(_ & _ & _ & X)]; [exact X|destruct Pl as [P|[P|P]]; congruence]).
    destruct W as (r & ta & W1 & W2 & W3 & W4 & W5 & W6). unfold about_response. cbn [fact].
    assert (Es : es_start (eafter k es (LMain d) ts') = es_start es) by (unfold eafter; cbn [es_start]; now rewrite Sc, ltb_same). rewrite Es.
    assert (El : ta - k_arrived k <= es_elapsed (eafter k es (LMain d) ts') <= t_now (es_ts es) - k_arrived k).
    { unfold eafter; cbn [es_elapsed]. destruct Pl as [P|[P|P]]; rewrite P; [lia| |]; (destruct W6 as [W6|W6]; [congruence|lia]). }
    remember (es_elapsed (eafter k es (LMain d) ts')) as el eqn:Eel. clear Eel.
    assert (Tb : k_arrived k <= ta).
    { destruct W2 as (a & z & b & t1 & t2 & _ & A1 & _ & _ & _ & <-). pose proof (runs_from k c a t1 A1). lia. }
    pose proof (micros_lasted 0 el ltac:(lia)) as Lm. rewrite Z.sub_0_r in Lm. unfold lasted in Lm.
    destruct (cur_sent k c xs _ Hk Rr Ns (fun X => Nf (or_intror X))) as (u & U1 & U2).
    pose proof (attempt_span k c xs _ Hk Rr Ns Nf) as Sp. pose proof (sent_before k c xs _ _ _ Rr U1) as Ub. pose proof (F3 u U1) as Fu.
    exists r, ta. split; [exact W2|]. split; [unfold line, log_entry; cbn [l_status]; now rewrite W1|].
    pose proof (not_late k c xs _ Hk Rr Nf). split; [lia|]. split; [lia|]. split; [lia|].
    assert (M0 : 0 <= micros el) by (unfold micros; apply Z.quot_pos; lia). split; [exact M0|].
    assert (Me : forall m, l_error (line c lab x q (t_st (es_ts es)) (es_message es) en) = Some m -> es_message es = m).
    { intros m. unfold line, log_entry. cbn [l_error]. destruct (Z.gtb _ _); congruence. }
    split; [intros X; apply W4, Me, X|].
    split; [destruct (l_up (line _ _ _ _ _ _ _)); split; congruence|]. split.
    + intros v w E1 E2. exists (s_cur (t_st (es_ts es))), (es_start es), u. rewrite E2 in E1. injection E1 as <-.
      split. { unfold line, log_entry in E2; cbn [l_up] in E2. unfold attempt_entry in E2. destruct (a_resp _); [|discriminate E2]. injection E2 as <-. reflexivity. }
      split; [exact U1|]. split; [assumption|]. split; [exact Ub|]. split; [now apply micros_lasted|]. split; [lia|].
      intros X. destruct (W5 (Me _ X)) as (u' & U3 & U4). pose proof (F3 u' U3). lia.
    + intros X. destruct (W5 (Me _ X)) as (u' & U3 & U4). exists (s_cur (t_st (es_ts es))), u'. auto.
Qed.

Lemma facts : forall k c lab x q xs L, 0 <= k_delay k -> k_arrived k <= k_entered k -> durations k c lab x q xs = Some L -> Forall (fact k c xs) L.
Proof.
  intros k c lab x q xs L Hk Ha H. unfold durations in H. destruct (erun k c lab x q (einit k) xs) as [[es L']|] eqn:E; [|discriminate]. injection H as <-.
  constructor; [apply begin_line; [exact Ha|unfold latest, most; nia]|].
  apply erun_reached in E. induction E as [|xs es L y ts' R IH H]; [constructor|].
  apply Forall_app. split; [eapply Forall_impl; [|exact IH]; intros e; apply fact_app|].
  destruct y as [d|l]; cbn [enext snd]; [constructor|].
  eapply Forall_impl; [intros e; apply fact_app|]. exact (facts_step k c lab x q xs es L l ts' Hk Ha R H).
Qed.

(** Lines come in the order of time *)
Lemma sorted_app : forall a b, StronglySorted Z.le a -> StronglySorted Z.le b -> (forall x y, In x a -> In y b -> x <= y) -> StronglySorted Z.le (a ++ b).
Proof.
  induction a as [|z a IH]; intros b Ha Hb H; [exact Hb|]. cbn [app]. inversion Ha as [|z' a' H1 H2]; subst. constructor.
  - apply IH; auto. intros x y Hx Hy. apply H; [now right|exact Hy].
  - apply Forall_app. split; [exact H2|]. apply Forall_forall. intros y Hy. apply H; [now left|exact Hy].
Qed.

Lemma sorted_const : forall v a, (forall x, In x a -> x = v) -> StronglySorted Z.le a.
Proof.
  intros v a. induction a as [|z a IH]; intros H; constructor; [apply IH; intros; apply H; now right|].
  apply Forall_forall. intros x Hx. rewrite (H z (or_introl eq_refl)), (H x (or_intror Hx)). lia.
Qed.

Lemma order_reached : forall k c lab x q xs es L, ereached k c lab x q xs es L ->
  (forall v, In v (map fst L) -> k_entered k <= v <= t_now (es_ts es)) /\ StronglySorted Z.le (map fst L).
Proof.
  intros k c lab x q xs es L R. induction R as [|xs es L y ts' R [IH1 IH2] H].
  - split; [intros v []|constructor].
  - pose proof (time_goes_on k c _ y ts' H) as Hg. pose proof (runs_from k c xs _ (ereached_runs k c lab x q xs es L R)) as Hf.
    assert (N : forall v, In v (map fst (snd (enext k c lab x q es y ts'))) -> v = t_now (es_ts es)).
    { intros v Hv. apply in_map_iff in Hv. destruct Hv as (e & <- & He). destruct y as [d|l]; cbn [enext snd] in He; [destruct He|]. unfold elines in He.
      apply in_app_or in He. destruct He as [He|He]; [apply in_map_iff in He; destruct He as (m & <- & _); reflexivity|].
      apply in_app_or in He. destruct He as [He|He]; [destruct (Nat.ltb _ _); [destruct He as [<-|[]]; reflexivity|destruct He]|].
      destruct l; try destruct He. destruct (encoding_of _ _); [|destruct He]. destruct He as [<-|[]]. reflexivity. }
    rewrite next_ts, map_app. split.
    + intros v Hv. apply in_app_or in Hv. destruct Hv as [Hv|Hv]; [apply IH1 in Hv|apply N in Hv]; lia.
    + apply sorted_app; [exact IH2|exact (sorted_const _ _ N)|]. intros a b Ha Hb. apply IH1 in Ha. apply N in Hb. lia.
Qed.

Lemma in_order : forall k c lab x q xs L, durations k c lab x q xs = Some L -> StronglySorted Z.le (map fst L).
Proof.
  intros k c lab x q xs L H. unfold durations in H. destruct (erun k c lab x q (einit k) xs) as [[es L']|] eqn:E; [|discriminate]. injection H as <-.
  destruct (order_reached k c lab x q xs es L' (erun_reached k c lab x q xs es L' E)) as [H1 H2]. cbn [map fst about_attempt]. constructor; [exact H2|].
  apply Forall_forall. intros v Hv. apply H1 in Hv. lia.
Qed.

(** * What the theorems state *)

Lemma line_of_attempt : forall k c lab x q xs L t a up dwn, 0 <= k_delay k -> k_arrived k <= k_entered k -> durations k c lab x q xs = Some L ->
  In (t, EAttempt a up dwn) L ->
  lasted dwn (k_arrived k) t /\ exists n, of_attempt c (S n) a /\ (al_message a = Initialized -> up = 0) /\ (al_message a <> Initialized -> attempt_lasted k c xs n up t).
Proof.
  intros k c lab x q xs L t a up dwn Hk Ha H Hi. pose proof (facts k c lab x q xs L Hk Ha H) as F. rewrite Forall_forall in F.
  destruct (F _ Hi) as (F1 & _ & _ & n & F2 & F3). split; [exact F1|]. exists n. split; [exact F2|].
  destruct F3 as [[F3 F4]|(F3 & b & u & U1 & U2 & U3 & U4 & _)]; (split; [intros X; congruence|]); intros X; [congruence|]. exists b, u. auto.
Qed.

Lemma line_of_timeout : forall k c lab x q xs L t a up dwn, 0 <= k_delay k -> k_arrived k <= k_entered k -> durations k c lab x q xs = Some L ->
  In (t, EAttempt a up dwn) L ->
  (read_timeout_line a -> Z.max 0 (k_read k) < 1000 * (up + 1)) /\ (round_trip_line a -> Z.max 0 (k_round k) < 1000 * (dwn + 1)).
Proof.
  intros k c lab x q xs L t a up dwn Hk Ha H Hi. pose proof (facts k c lab x q xs L Hk Ha H) as F. rewrite Forall_forall in F.
  destruct (F _ Hi) as (F1 & _ & F0 & n & F2 & F3). unfold lasted in *. split.
  - intros X. destruct F3 as [[F3 F4]|(F3 & b & u & U1 & U2 & U3 & U4 & _ & U5)]; [destruct X as [X|X]; congruence|]. specialize (U5 X). lia.
  - intros X. specialize (F0 X). lia.
Qed.

Lemma line_bounds : forall k c lab x q xs L t a up dwn, 0 <= k_delay k -> k_arrived k <= k_entered k -> durations k c lab x q xs = Some L ->
  In (t, EAttempt a up dwn) L ->
  0 <= up /\ 0 <= dwn /\
  1000 * dwn <= Z.max (k_entered k - k_arrived k) (Z.max 0 (k_round k)) + 24 * most c * k_delay k /\ 1000 * up <= Z.max 0 (k_read k) + 25 * k_delay k.
Proof.
  intros k c lab x q xs L t a up dwn Hk Ha H Hi. pose proof (facts k c lab x q xs L Hk Ha H) as F. rewrite Forall_forall in F.
  destruct (F _ Hi) as (F1 & F0 & _ & n & F2 & F3). unfold lasted, latest in *.
  assert (k_entered k <= t).
  { unfold durations in H. destruct (erun k c lab x q (einit k) xs) as [[es L']|] eqn:E; [|discriminate]. injection H as <-. destruct Hi as [Hi|Hi]; [injection Hi as <-; lia|].
    apply (proj1 (order_reached k c lab x q xs es L' (erun_reached k c lab x q xs es L' E))). apply in_map_iff. now exists (t, EAttempt a up dwn). }
  split; [|split; [lia|split; [lia|]]].
  - destruct F3 as [[_ ->]|(F3 & b & u & U1 & U2 & U3 & U4 & _ & U5)]; lia.
  - destruct F3 as [[_ ->]|(F3 & b & u & U1 & U2 & U3 & U4 & U6 & U5)]; lia.
Qed.

Lemma line_of_response : forall k c lab x q xs L t e dwn up, 0 <= k_delay k -> k_arrived k <= k_entered k -> durations k c lab x q xs = Some L ->
  In (t, EResponse e dwn up) L ->
  exists r ta, answered_at k c xs r ta /\ rp_status r = l_status e /\ ta <= t /\ ta - k_arrived k < 1000 * (dwn + 1) /\ 1000 * dwn <= t - k_arrived k /\
    (up = None <-> l_up e = None) /\
    (forall v w, up = Some v -> l_up e = Some w -> exists n, ue_count w = numbered c (S n) /\ attempt_lasted k c xs n v t).
Proof.
  intros k c lab x q xs L t e dwn up Hk Ha H Hi. pose proof (facts k c lab x q xs L Hk Ha H) as F. rewrite Forall_forall in F.
  destruct (F _ Hi) as (r & ta & H1 & H2 & H3 & H4 & H5 & H6 & H7 & H8 & H9 & H10). exists r, ta. split; [exact H1|]. split; [exact H2|]. split; [lia|]. split; [exact H4|]. split; [exact H5|].
  split; [exact H8|]. intros v w E1 E2. destruct (H9 v w E1 E2) as (n & b & u & U0 & U1 & U2 & U3 & U4 & _). exists n. split; [exact U0|]. exists b, u. auto.
Qed.

Lemma response_timeout : forall k c lab x q xs L t e dwn up, 0 <= k_delay k -> k_arrived k <= k_entered k -> durations k c lab x q xs = Some L ->
  In (t, EResponse e dwn up) L ->
  (l_error e = Some round_trip_text -> Z.max 0 (k_round k) < 1000 * (dwn + 1)) /\
  (l_error e = Some read_timeout_text -> Z.max 0 (k_read k) < 1000 * (dwn + 1) /\ forall v, up = Some v -> Z.max 0 (k_read k) < 1000 * (v + 1)).
Proof.
  intros k c lab x q xs L t e dwn up Hk Ha H Hi. pose proof (facts k c lab x q xs L Hk Ha H) as F. rewrite Forall_forall in F.
  destruct (F _ Hi) as (r & ta & H1 & H2 & H3 & H4 & H5 & H6 & H7 & H8 & H9 & H10). split; [intros X; specialize (H7 X); lia|]. intros X. split.
  - destruct (H10 X) as (n & u & (xs1 & y & xs2 & ts & ts' & _ & U1 & _ & _ & _ & <-) & U2). pose proof (runs_from k c xs1 ts U1). lia.
  - intros v E. destruct (l_up e) as [w|] eqn:Eu; [|destruct H8 as [_ H8]; specialize (H8 eq_refl); congruence].
    destruct (H9 v w E eq_refl) as (n & b & u & U0 & U1 & U2 & U3 & U4 & U5 & U6). specialize (U6 X). unfold lasted in U4. lia.
Qed.

Lemma response_bounds : forall k c lab x q xs L t e dwn up, 0 <= k_delay k -> k_arrived k <= k_entered k -> durations k c lab x q xs = Some L ->
  In (t, EResponse e dwn up) L ->
  0 <= dwn /\ 1000 * dwn <= Z.max (k_entered k - k_arrived k) (Z.max 0 (k_round k)) + 24 * most c * k_delay k /\
  forall v, up = Some v -> 0 <= v /\ 1000 * v <= Z.max 0 (k_read k) + 25 * k_delay k.
Proof.
  intros k c lab x q xs L t e dwn up Hk Ha H Hi. pose proof (facts k c lab x q xs L Hk Ha H) as F. rewrite Forall_forall in F.
  destruct (F _ Hi) as (r & ta & H1 & H2 & H3 & H4 & H5 & H6 & H7 & H8 & H9 & H10). unfold latest in *. split; [exact H6|]. split; [lia|].
  intros v E. destruct (l_up e) as [w|] eqn:Eu; [|destruct H8 as [_ H8]; specialize (H8 eq_refl); congruence].
  destruct (H9 v w E eq_refl) as (n & b & u & U0 & U1 & U2 & U3 & U4 & U5 & U6). unfold lasted in U4. lia.
Qed.

Lemma every_run : forall k c lab x q xs ts, runs k c xs ts -> exists L, durations k c lab x q xs = Some L /\ StronglySorted Z.le (map fst L).
Proof. intros k c lab x q xs ts H. destruct (runs_durations k c lab x q xs ts H) as [L E]. exists L. split; [exact E|exact (in_order k c lab x q xs L E)]. Qed.

(** No attempt begins before its request is handled. *)
Lemma start_after : forall k c lab x q xs es L, ereached k c lab x q xs es L -> k_entered k <= es_start es.
Proof.
  intros k c lab x q xs es L R. induction R as [|xs es L y ts' R IH H]; [cbn; lia|].
  pose proof (runs_from k c xs _ (ereached_runs k c lab x q xs es L R)). destruct y as [d|l]; cbn [enext fst es_start]; [exact IH|].
  unfold eafter. cbn [es_start]. destruct (Nat.ltb _ _); assumption.
Qed.

Lemma micros_mono : forall a b, a <= b -> micros a <= micros b.
Proof. intros a b H. unfold micros. now apply Z.quot_le_mono. Qed.

Lemma attempt_within : forall k c lab x q xs L t a up dwn, 0 <= k_delay k -> k_arrived k <= k_entered k -> durations k c lab x q xs = Some L ->
  In (t, EAttempt a up dwn) L -> up <= dwn.
Proof.
  intros k c lab x q xs L t a up dwn Hk Ha H Hi. unfold durations in H. destruct (erun k c lab x q (einit k) xs) as [[es L']|] eqn:E; [|discriminate]. injection H as <-.
  destruct Hi as [Hi|Hi]; [injection Hi as <- <- <- <-; apply micros_mono; lia|].
  apply erun_reached in E. induction E as [|xs es L y ts' R IH H]; [destruct Hi|].
  apply in_app_or in Hi. destruct Hi as [Hi|Hi]; [auto|]. pose proof (start_after k c lab x q xs es L R).
  pose proof (runs_from k c xs _ (ereached_runs k c lab x q xs es L R)).
  destruct y as [d|l]; cbn [enext snd] in Hi; [destruct Hi|]. unfold elines in Hi.
  apply in_app_or in Hi. destruct Hi as [Hi|Hi]; [apply in_map_iff in Hi; destruct Hi as (m & Hi & _); injection Hi as <- <- <- <-; apply micros_mono; lia|].
  apply in_app_or in Hi. destruct Hi as [Hi|Hi].
  - destruct (Nat.ltb _ _) eqn:El; [|destruct Hi]. destruct Hi as [Hi|[]]. injection Hi as <- <- <- <-. apply micros_mono. rewrite El. lia.
  - destruct l; try destruct Hi. destruct (encoding_of _ _); [|destruct Hi]. destruct Hi as [Hi|[]]. discriminate Hi.
Qed.
