(** Runs in which every goroutine writes while its own attempt is the current one. *)
From Coq Require Import String List Bool ZArith Lia.
From Verif Require Import GoStr Header Exchange Machine MachineSpec ExchangeProofs MachineProofs.
Import ListNotations.
Local Open Scope string_scope.

Inductive treach (c : conf) : list label -> state -> Prop :=
| treach_nil : treach c [] init
| treach_step : forall ls s l s', treach c ls s -> timely s l -> step c s l = Some s' -> treach c (ls ++ [l]) s'.

Lemma treach_reach : forall c ls s, treach c ls s -> reach c ls s.
Proof. intros c ls s H. induction H as [|ls s l s' H IH Ht Hs]; [constructor | now apply reach_step with (s := s)]. Qed.

Lemma on_time_app : forall c l1 s l2, on_time c s (l1 ++ l2) ->
  on_time c s l1 /\ (forall s', exec c s l1 = Some s' -> on_time c s' l2).
Proof.
  induction l1 as [|l l1 IH]; intros s l2 H; cbn [app on_time exec] in *.
  - split; [exact I|]. now intros s' [= <-].
  - destruct H as [Ht H]. destruct (step c s l) as [s1|]; [|split; [now split|discriminate]].
    destruct (IH s1 l2 H) as [H1 H2]. split; [now split | exact H2].
Qed.

Lemma exec_treach : forall c ls s, exec c init ls = Some s -> on_time c init ls -> treach c ls s.
Proof.
  intros c ls. induction ls as [|l ls IH] using rev_ind; intros s H T.
  - injection H as <-. constructor.
  - rewrite exec_app in H. destruct (exec c init ls) as [s1|] eqn:E; [|discriminate].
    cbn [exec] in H. destruct (step c s1 l) as [s2|] eqn:E2; [|discriminate]. injection H as <-.
    apply on_time_app in T. destruct T as [T1 T2]. specialize (T2 s1 E). cbn [on_time] in T2.
    apply treach_step with (s := s1); [now apply IH | now destruct T2 | exact E2].
Qed.

(** * The fields of the current attempt *)

Definition stored (p : h_phase) : option up_response := match p with HSet o | HEnd o => o | _ => None end.
Definition flagged (p : b_phase) : bool := match p with BFlag b _ | BEnd b _ => is_gzip b | _ => false end.

Record own (a : att) : Prop := {
  o_resp : a_resp a = stored (a_h a);
  o_gz : a_gz a = flagged (a_b a);
  o_status : past_start (a_b a) -> forall rs, a_h a = HEnd (Some rs) -> a_status a = ur_status rs }.

Lemma own_new : own new_att.
Proof. constructor; cbn; auto. intros []. Qed.

Lemma own_same : forall a a', a_resp a' = a_resp a -> a_gz a' = a_gz a -> a_status a' = a_status a -> a_h a' = a_h a ->
  a_b a' = a_b a -> own a -> own a'.
Proof. intros a a' H1 H2 H3 H4 H5 [O1 O2 O3]. constructor; rewrite ?H1, ?H2, ?H3, ?H4, ?H5; auto. Qed.

Lemma own_kept : forall c ls s l s', hist c ls s -> own (cur s) -> timely s l -> step c s l = Some s' -> own (cur s').
Proof.
  intros c ls s l s' [Hg Hn Hp Ho] O T H. destruct s as [m n dw fl p sent out]. unfold cur in *. simp.
  pose proof (g_bh _ _ _ _ (Hg n (le_n n))) as BH.
  step_cases H; simp; subst; simp; cbn [at_pc timely] in *; simp; subst; unfold check_up, check_dwn, cur, upd in *; simp;
    unfold upd in *; rewrite ?Nat.eqb_refl; simp; auto.
  all: try (match goal with O : own ?x |- _ => apply own_same with (a := x); auto end; fail).
  all: repeat match goal with |- context [Nat.eqb ?k ?q] => destruct (Nat.eqb_spec k q) as [?|?]; subst; simp end; auto.
  all: try (match goal with O : own ?x |- _ => apply own_same with (a := x); auto end; fail).
  all: try exact own_new.
  all: destruct O as [O1 O2 O3]; constructor; simp; auto;
       repeat match goal with E : a_h _ = _ |- _ => rewrite E in * | E : a_b _ = _ |- _ => rewrite E in * end;
       cbn [stored flagged past_start] in *; auto; try congruence.
  - destruct Hp as [Hp _]. now rewrite O1, Hp.
  - destruct Hp as [_ Hp]. now rewrite O2, Hp.
  - intros [].
  - destruct Hp as [_ Hp]. rewrite Hp. intros [].
  - intros Hs. destruct BH as [rs [E _]]; [intros E; now rewrite E in Hs | discriminate E].
  - intros _ rs' E'. destruct BH as [rs2 [E2 E3]]; [discriminate|]. rewrite (E3 rs eq_refl). congruence.
Qed.

Lemma treach_own : forall c ls s, treach c ls s -> own (cur s).
Proof.
  intros c ls s H. induction H as [|ls s l s' H IH Ht Hs]; [exact own_new|].
  exact (own_kept c ls s l s' (reach_hist c ls s (treach_reach c ls s H)) IH Ht Hs).
Qed.

(** * What is being put together *)

Definition full (rs : up_response) (b : string) : draft := Draft rs (ur_status rs) (is_gzip b) rs (is_gzip b) rs.

Definition draft_ok (c : conf) (st : stage) (rs : up_response) (b : string) (d : draft) : Prop :=
  match st with
  | StHeader => True
  | StStatus => df_headers d = rs
  | StBody => df_headers d = rs /\ df_status d = ur_status rs
  | StLength => df_headers d = rs /\ df_status d = ur_status rs /\ df_gz_body d = is_gzip b
  | StEnc1 => df_headers d = rs /\ df_status d = ur_status rs /\ df_gz_body d = is_gzip b /\ df_length d = rs
  | StEnc2 => df_headers d = rs /\ df_status d = ur_status rs /\ df_gz_body d = is_gzip b /\ df_length d = rs
  | StEnc3 => df_headers d = rs /\ df_status d = ur_status rs /\ df_gz_body d = is_gzip b /\ df_length d = rs /\ df_gz_header d = is_gzip b
  | StWrite => df_status d = ur_status rs /\ assemble (c_env c) (c_down c) d b = assemble (c_env c) (c_down c) (full rs b) b
  end.

Lemma assemble_skip : forall E w d b, w_send_gzip w = true \/ encode_body E w (df_gz_body d) b = "" ->
  forall g r, assemble E w d b = assemble E w (Draft (df_headers d) (df_status d) (df_gz_body d) (df_length d) g r) b.
Proof.
  intros E w d b H g r. unfold assemble. cbn [df_headers df_status df_gz_body df_length df_gz_header df_encoding].
  destruct H as [H|H].
  - unfold content_encoding. rewrite H. reflexivity.
  - rewrite H. reflexivity.
Qed.

Lemma assemble_gz : forall E w d b, df_gz_header d = true ->
  forall r, assemble E w d b = assemble E w (Draft (df_headers d) (df_status d) (df_gz_body d) (df_length d) true r) b.
Proof.
  intros E w d b H r. unfold assemble. cbn [df_headers df_status df_gz_body df_length df_gz_header df_encoding]. rewrite H.
  unfold content_encoding. destruct (w_send_gzip w); reflexivity.
Qed.

(** * The outcome of the current attempt *)

Definition at_pc_t (c : conf) (ls : list label) (s : state) (a : att) : Prop :=
  match s_pc s with
  | PKind _ => exists rs, a_h a = HEnd (Some rs) /\ (ur_status rs < 500)%Z
  | PErr => exists rs, a_h a = HEnd (Some rs) /\ client_error (ur_status rs) = true
  | PBuild st b d => exists rs, a_h a = HEnd (Some rs) /\ (ur_status rs < 500)%Z /\ client_error (ur_status rs) = false /\
      draft_ok c st rs b d
  | PRetry | PFin1 => failed_attempt ls (s_cur s) \/ a_ctx a = true \/ s_flag s = true
  | PFin2 => failed_attempt ls (s_cur s) \/ a_ctx a = true
  | PLog2 | PLog3 => a_resp a <> None
  | PPanic => c_ok c = false \/ bad_code ls
  | _ => True
  end.

Record told (c : conf) (ls : list label) (s : state) : Prop := {
  t_pc : at_pc_t c ls s (cur s);
  t_old : forall i, i < s_cur s -> failed_attempt ls i \/ In (LUpTimer i) ls }.

Lemma failed_app : forall ls l i, failed_attempt ls i -> failed_attempt (ls ++ [l]) i.
Proof.
  intros ls l i [H|[[b H]|[rs [H1 H2]]]].
  - left. now apply old_in.
  - right. left. exists b. now apply old_in.
  - right. right. exists rs. split; [now apply old_in | exact H2].
Qed.

Lemma bad_app : forall ls l, bad_code ls -> bad_code (ls ++ [l]).
Proof. intros ls l (i & rs & H1 & H2 & H3). exists i, rs. repeat split; auto. now apply old_in. Qed.

Lemma told_main : forall c ls s dice s', hist c ls s -> own (cur s) -> told c ls s -> main_step c dice s = Some s' ->
  at_pc_t c (ls ++ [LMain dice]) s' (cur s').
Proof.
  intros c ls s dice s' [Hg Hn Hp Ho] [O1 O2 O3] [T1 T2] H. pose proof (Hg _ (le_n _)) as G. fold (cur s) in G.
  assert (HE : forall b, a_b (cur s) = BEnd b true -> exists rs, a_h (cur s) = HEnd (Some rs)).
  { intros b E. destruct (g_bh _ _ _ _ G) as [rs [Er _]]; [congruence|]. now exists rs. }
  destruct s as [m n dw fl p sent out]. unfold cur in *. simp. unfold at_pc_t in *. simp.
  unfold main_step in H. break H; try discriminate H; injection H as <-; simp; subst; simp; cbn [at_pc] in *; auto;
    unfold up_aborted, dwn_aborted, check_up, check_dwn, cur, upd in *; simp; unfold upd in *; rewrite ?Nat.eqb_refl in *; simp; auto.
  (* PProc *)
  1: right; left; apply orb_true_iff in Heqb; destruct Heqb; auto using (g_flag _ _ _ _ G).
  1: destruct Hp as [[Hp|[H1 H2]] _]; [now right; left | left; left; apply old_in, (g_h _ _ _ _ G); now rewrite <- H2].
  1: destruct Hp as [[Hp|[H1 H2]] _]; [now right; left | destruct (g_hdr _ _ _ _ G H1) as [o E]; rewrite E in H2; discriminate].
  (* PCheck2 *)
  1: right; left; apply orb_true_iff in Heqb; destruct Heqb; auto using (g_flag _ _ _ _ G).
  (* PCheck3 *)
  1: left; right; left; exists body; apply old_in, (g_b _ _ _ _ G); rewrite Hp; cbn; destruct ok; [discriminate | reflexivity].
  1-3: destruct ok; [|discriminate]; destruct (HE body Hp) as [rs Er]; rewrite O1, Er in Heqo; cbn [stored] in Heqo.
  1: exists rs; split; [exact Er|]; injection Heqo as <-; now apply Z.ltb_lt.
  1: left; right; right; exists rs; split; [apply old_in, (g_h _ _ _ _ G); now rewrite Er |]; injection Heqo as <-; now apply Z.ltb_ge.
  1: discriminate.
  (* PKind *)
  1-2: destruct T1 as (rs & Er & Hlt); exists rs; pose proof (O3 ltac:(rewrite Hp; exact I) rs Er) as Es; rewrite Es in Heqb.
  1: split; assumption.
  1: repeat split; assumption.
  (* PErr *)
  1: { destruct T1 as (rs & Er & Hc). destruct Hp as [b Hp]. right. exists n, rs.
       rewrite (O3 ltac:(rewrite Hp; exact I) rs Er) in Heqb.
       repeat split; [apply old_in, (g_h _ _ _ _ G); now rewrite Er | assumption | apply client_error_range in Hc; lia]. }
  (* PBuild *)
  1-13: destruct T1 as (rs & Er & Hlt & Hc & D); pose proof (O3 ltac:(rewrite Hp; exact I) rs Er) as Es;
        rewrite Er in O1; rewrite Hp in O2; cbn [stored flagged draft_ok] in *;
        repeat match goal with E : a_resp _ = Some ?v, O : a_resp _ = Some ?rs |- _ => lazymatch v with rs => fail | _ => rewrite O in E; injection E as <- end end;
        try congruence.
  1-8: eexists; split; [exact Er|]; split; [exact Hlt|]; split; [exact Hc|];
       cbn [df_headers df_status df_gz_body df_length df_gz_header df_encoding];
       repeat match goal with D : _ /\ _ |- _ => destruct D end; repeat split; auto; try congruence.
  (* StEnc1 to StWrite *)
  1: { rewrite (assemble_skip _ _ d body) with (g := is_gzip body) (r := rs).
       - unfold full. congruence.
       - apply orb_true_iff in Heqb. destruct Heqb as [Hb|Hb]; [now left | right; now apply String.eqb_eq]. }
  1: { rewrite assemble_gz with (r := rs) by reflexivity. cbn [df_headers df_status df_gz_body df_length]. unfold full. congruence. }
  1: { unfold full. congruence. }
  1: { destruct T1 as (rs & Er & Hlt & Hc & D). right. exists n, rs. cbn [draft_ok] in D. destruct D as [D _]. rewrite D in Heqb.
       repeat split; [apply old_in, (g_h _ _ _ _ G); now rewrite Er | exact Heqb | exact Hlt]. }
  (* PRetry, PFin1, PLog1, PLog3 *)
  - destruct T1 as [T1|[T1|T1]]; [left; now apply failed_app | now right; left | right; right; rewrite T1; apply orb_true_r].
  - destruct T1 as [T1|[T1|T1]]; [left; now apply failed_app | now right | rewrite T1, orb_true_r in Heqb; discriminate].
  - congruence.
  - congruence.
Qed.

Lemma told_step : forall c ls s l s', hist c ls s -> own (cur s) -> told c ls s -> timely s l -> step c s l = Some s' ->
  told c (ls ++ [l]) s'.
Proof.
  intros c ls s l s' Hh O T Ht H. constructor.
  - destruct (is_main l) eqn:El.
    + destruct l as [dice|b| | | | | | | | |]; try discriminate El; [exact (told_main c ls s dice s' Hh O T H)|].
      cbn [step] in H. destruct s as [m n dw fl p sent out]. unfold sel_step, at_pc_t in *. simp.
      break H; try discriminate H; injection H as <-; simp; exact I.
    + pose proof (own_kept c ls s l s' Hh O Ht H) as O'. pose proof (le_step c ls s l s' Hh H) as Le.
      destruct T as [T1 _]. destruct s as [m n dw fl p sent out]. destruct s' as [m' n' dw' fl' p' sent' out'].
      assert (E : n' = n /\ p' = p /\ fl' = fl).
      { destruct l; try discriminate El; cbn [step goroutine_step] in H; break H; try discriminate H; injection H; simp; intros; subst; auto. }
      destruct E as (-> & -> & ->). unfold at_pc_t, cur in *. simp. specialize (Le n (le_n n)).
      assert (A : a_resp (m n) <> None -> a_resp (m' n) <> None).
      { rewrite (o_resp _ O), (o_resp _ O'). destruct (a_h (m n)) as [| |o|o|o] eqn:Eh; cbn [stored]; intros N; try congruence.
        - now destruct (l_set _ _ Le o Eh) as [-> | ->].
        - now rewrite (l_hend _ _ Le o Eh). }
      destruct p as [| | |o| | |b ok|b ok|b ok|b| |st b d| | | | | | | |]; auto.
      * destruct T1 as (rs & Er & Hlt). exists rs. split; [exact (l_hend _ _ Le _ Er) | exact Hlt].
      * destruct T1 as (rs & Er & Hc). exists rs. split; [exact (l_hend _ _ Le _ Er) | exact Hc].
      * destruct T1 as (rs & Er & T1). exists rs. split; [exact (l_hend _ _ Le _ Er) | exact T1].
      * destruct T1 as [T1|[T1|T1]]; [left; now apply failed_app | right; left; exact (l_ctx _ _ Le T1) | now right; right].
      * destruct T1 as [T1|[T1|T1]]; [left; now apply failed_app | right; left; exact (l_ctx _ _ Le T1) | now right; right].
      * destruct T1 as [T1|T1]; [left; now apply failed_app | right; exact (l_ctx _ _ Le T1)].
      * destruct T1 as [T1|T1]; [now left | right; now apply bad_app].
  - intros i Hi. destruct T as [T1 T2].
    assert (A : i < s_cur s -> failed_attempt (ls ++ [l]) i \/ In (LUpTimer i) (ls ++ [l])).
    { intros Hl. destruct (T2 i Hl) as [T|T]; [left; now apply failed_app | right; now apply old_in]. }
    destruct (Nat.lt_ge_cases i (s_cur s)) as [Hl|Hl]; [now apply A|].
    destruct Hh as [Hg Hn Hp Ho]. destruct s as [m n dw fl p sent out]. simp.
    step_cases H; simp; subst; simp; try lia. assert (i = n) by lia. subst i.
    unfold at_pc_t, cur in T1. simp. apply retry_inv in Heqb. destruct Heqb as (_ & _ & Hd). unfold dwn_aborted in Hd. simp.
    destruct T1 as [T1|[T1|T1]]; [left; now apply failed_app | | rewrite T1, orb_true_r in Hd; discriminate].
    destruct (g_ctx _ _ _ _ (Hg n (le_n n)) T1) as [T|T]; [right; now apply old_in | rewrite T, orb_true_r in Hd; discriminate].
Qed.

Lemma treach_told : forall c ls s, treach c ls s -> told c ls s.
Proof.
  intros c ls s H. induction H as [|ls s l s' H IH Ht Hs].
  - constructor; cbn; [exact I|]. intros i Hi. lia.
  - exact (told_step c ls s l s' (reach_hist c ls s (treach_reach c ls s H)) (treach_own c ls s H) IH Ht Hs).
Qed.

(** * Writes are on time unless an upstream timer fired before a retry *)

Definition settled (a : att) : Prop :=
  (exists o, a_h a = HEnd o) /\ (a_b a = BIdle \/ exists b ok, a_b a = BEnd b ok).

Record calm (ls : list label) (s : state) : Prop := {
  m_pc : s_pc s = PRetry -> settled (cur s) \/ a_ctx (cur s) = true \/ s_flag s = true;
  m_old : forall i, i < s_cur s -> settled (s_att s i) \/ In (LUpTimer i) ls }.

Lemma settled_le : forall a a', le_att a a' -> (a_b a = BIdle -> a_b a' = BIdle) -> settled a -> settled a'.
Proof.
  intros a a' L Hb [[o H1] H2]. split; [exists o; exact (l_hend _ _ L o H1)|].
  destruct H2 as [H2|[b [ok H2]]]; [left; auto | right; exists b, ok; exact (l_bend _ _ L b ok H2)].
Qed.

(** The second goroutine is started by one step of the handler only. *)
Lemma idle_stays : forall c s l s' i, step c s l = Some s' -> a_b (s_att s i) = BIdle ->
  a_b (s_att s' i) = BIdle \/ (i = s_cur s /\ exists o, s_pc s = PProc o).
Proof.
  intros c s l s' i H E. destruct s as [m n dw fl p sent out]. simp.
  step_cases H; simp; subst; simp; auto; unfold check_up, check_dwn, cur, upd in *; simp; unfold upd in *; simp;
    repeat match goal with |- context [Nat.eqb ?k ?q] => destruct (Nat.eqb_spec k q) as [?|?]; subst; simp end; auto; try congruence.
  right. split; [reflexivity|]. eauto.
Qed.

Lemma calm_step : forall c ls s l s', hist c ls s -> calm ls s -> step c s l = Some s' -> calm (ls ++ [l]) s'.
Proof.
  intros c ls s l s' Hh [M1 M2] H. pose proof (le_step c ls s l s' Hh H) as Le. pose proof (idle_stays c s l s') as Hi.
  assert (ST : forall i, i < s_cur s \/ (i = s_cur s /\ s_pc s = PRetry) -> settled (s_att s i) -> settled (s_att s' i)).
  { intros i Hl. apply settled_le; [apply Le; lia|]. intros E. destruct (Hi i H E) as [|[-> [o E2]]]; [assumption|].
    destruct Hl as [Hl|[_ Hl]]; [lia | congruence]. }
  constructor.
  - intros Ep. destruct (is_main l) eqn:El.
    + destruct Hh as [Hg Hn Hp Ho]. pose proof (Hg _ (le_n _)) as G. fold (cur s) in G. clear ST Le Hi.
      destruct s as [m n dw fl p sent out]. unfold cur in *. simp.
      destruct l; try discriminate El; cbn [step] in H; unfold main_step, sel_step in H; break H; try discriminate H; injection H as <-;
        simp; subst; simp; try discriminate Ep; cbn [at_pc] in *; unfold check_up, check_dwn, up_aborted, dwn_aborted, cur, upd in *; simp;
        unfold upd in *; rewrite ?Nat.eqb_refl in *; simp; auto.
      all: try (match goal with E : (a_ctx _ || a_flag _)%bool = true |- _ => apply orb_true_iff in E; destruct E as [E|E]; [now right; left|] end;
                right; left; now apply (g_flag _ _ _ _ G)).
      * destruct Hp as [[Hp|[H1 H2]] Hb]; [now right; left|]. left. split; [|now left]. exact (g_hdr _ _ _ _ G H1).
      * destruct Hp as [[Hp|[H1 H2]] Hb]; [now right; left|]. left. split; [|now left]. exact (g_hdr _ _ _ _ G H1).
      * left. destruct (g_bh _ _ _ _ G) as [rs [Er _]]; [congruence|]. split; [now exists (Some rs) | right; now exists body, ok].
      * left. destruct (g_bh _ _ _ _ G) as [rs [Er _]]; [congruence|]. split; [now exists (Some rs) | right; now exists body, ok].
    + assert (E : s_cur s' = s_cur s /\ s_pc s' = s_pc s /\ s_flag s' = s_flag s).
      { destruct l; try discriminate El; cbn [step goroutine_step] in H; break H; try discriminate H; injection H as <-; simp; auto. }
      destruct E as (E1 & E2 & E3). rewrite E2 in Ep. unfold cur in *. rewrite E1, E3.
      destruct (M1 Ep) as [A|[A|A]]; [left; now apply ST; [right|] | right; left; now apply (l_ctx _ _ (Le _ (le_n _))) | now right; right].
  - intros i Hl. destruct (Nat.lt_ge_cases i (s_cur s)) as [Hlt|Hge].
    + destruct (M2 i Hlt) as [A|A]; [left; now apply ST; [left|] | right; now apply old_in].
    + assert (E : i = s_cur s /\ s_pc s = PRetry /\ s_flag s = false).
      { destruct s as [m n dw fl p sent out]. clear Le Hi ST M1 M2 Hh. simp. step_cases H; simp; subst; simp; try lia.
        apply retry_inv in Heqb. destruct Heqb as (_ & _ & Hd). unfold dwn_aborted in Hd. simp. destruct dw, fl; try discriminate Hd.
        repeat split; lia. }
      destruct E as (-> & Ep & Ef). destruct (M1 Ep) as [A|[A|A]].
      * left. now apply ST; [right|].
      * destruct (g_ctx _ _ _ _ (h_good _ _ _ Hh _ (le_n _)) A) as [T|T]; [right; now apply old_in | congruence].
      * congruence.
Qed.

Lemma reach_calm : forall c ls s, reach c ls s -> calm ls s.
Proof.
  intros c ls s H. induction H as [|ls s l s' H IH Hs].
  - constructor; cbn; [discriminate|]. intros i Hi. lia.
  - exact (calm_step c ls s l s' (reach_hist c ls s H) IH Hs).
Qed.

Lemma late_write : forall c ls s l s', exec c init ls = Some s -> step c s l = Some s' ->
  timely s l \/ exists i, i < s_cur s /\ In (LUpTimer i) ls /\ (l = LSetResp i \/ l = LStatus i \/ l = LGz i).
Proof.
  intros c ls s l s' H Hs. pose proof (exec_reach c ls s H) as R. pose proof (reach_hist c ls s R) as Hh. pose proof (reach_calm c ls s R) as [_ M].
  assert (X : forall i, i <> s_cur s -> (a_h (s_att s i) <> HIdle \/ a_b (s_att s i) <> BIdle) -> 
     (settled (s_att s i) -> False) -> i < s_cur s /\ In (LUpTimer i) ls).
  { intros i Hi A B. destruct (Nat.lt_ge_cases i (s_cur s)) as [Hlt|Hge].
    - split; [exact Hlt|]. destruct (M i Hlt) as [C|C]; [now elim B | exact C].
    - destruct (h_new _ _ _ Hh i) as (E1 & E2 & _); [lia|]. destruct A; congruence. }
  destruct l as [dice|b|i o|i|i|i|i body ok|i|i|i|]; cbn [timely]; auto; cbn [step goroutine_step] in Hs;
    (destruct (Nat.eq_dec i (s_cur s)) as [|Hne]; [now left | right]; exists i).
  - destruct (a_h (s_att s i)) eqn:E; try discriminate Hs. destruct (X i Hne) as [X1 X2]; auto; [left; congruence|].
    intros [[o' Ho] _]. congruence.
  - destruct (a_b (s_att s i)) eqn:E; try discriminate Hs. destruct (X i Hne) as [X1 X2]; auto; [right; congruence|].
    intros [_ [Hb|[b [ok Hb]]]]; congruence.
  - destruct (a_b (s_att s i)) eqn:E; try discriminate Hs. destruct (X i Hne) as [X1 X2]; auto; [right; congruence|].
    intros [_ [Hb|[b [ok' Hb]]]]; congruence.
Qed.

Lemma on_time_snoc : forall c ls s0 l, on_time c s0 ls -> (forall s, exec c s0 ls = Some s -> timely s l) -> on_time c s0 (ls ++ [l]).
Proof.
  induction ls as [|x ls IH]; intros s0 l H1 H2; cbn [app on_time exec] in *.
  - split; [now apply H2|]. destruct (step c s0 l); exact I.
  - destruct H1 as [Ht H1]. split; [exact Ht|]. destruct (step c s0 x) as [s1|]; [now apply IH | exact I].
Qed.

Lemma on_time_if : forall c ls s, exec c init ls = Some s ->
  (forall i, ~ In (LUpTimer i) ls) \/ (c_max c <= 1)%Z \/ ~ repeatable c -> on_time c init ls.
Proof.
  intros c ls. induction ls as [|l ls IH] using rev_ind; intros s H Hc; [exact I|].
  rewrite exec_app in H. destruct (exec c init ls) as [s1|] eqn:E; [|discriminate].
  cbn [exec] in H. destruct (step c s1 l) as [s2|] eqn:E2; [|discriminate].
  apply on_time_snoc.
  - apply (IH s1 eq_refl). destruct Hc as [Hc|Hc]; [left | now right]. intros i Hi. apply (Hc i). now apply old_in.
  - intros s' Es. rewrite E in Es. injection Es as <-. destruct (late_write c ls s1 l s2 E E2) as [|(i & Hi & Ht & _)]; [assumption|].
    exfalso. pose proof (reach_counts c ls s1 (exec_reach c ls s1 E)) as K. destruct Hc as [Hc|[Hc|Hc]].
    + apply (Hc i). now apply old_in.
    + pose proof (k_max _ _ _ K). lia.
    + pose proof (k_rep _ _ _ K (repeatable_mem c Hc)). lia.
Qed.

(** * Each attempt is answered once *)

Lemma seen_last : forall c ls s, reach c ls s ->
  (forall i o, In (LDo i o) ls -> h_seen (a_h (s_att s i)) = Some o) /\
  (forall i b ok, In (LRead i b ok) ls -> b_seen (a_b (s_att s i)) = Some (b, ok)).
Proof.
  intros c ls s R. induction R as [|ls s l s' R [IH1 IH2] H]; [split; intros; contradiction|].
  pose proof (reach_hist c ls s R) as Hh. pose proof (le_step c ls s l s' Hh H) as Le.
  assert (B : forall i, a_h (s_att s i) <> HIdle \/ a_b (s_att s i) <> BIdle -> i <= s_cur s).
  { intros i A. destruct (Nat.le_gt_cases i (s_cur s)) as [|Hgt]; [assumption|].
    destruct (h_new _ _ _ Hh i Hgt) as (E1 & E2 & _). destruct A; congruence. }
  split.
  - intros i o Hi. apply in_app_or in Hi. destruct Hi as [Hi|[->|[]]].
    + pose proof (IH1 i o Hi) as E. apply (l_h _ _ (Le i (B i ltac:(left; intros F; rewrite F in E; discriminate E)))), E.
    + cbn [step goroutine_step] in H. destruct (a_h (s_att s i)); try discriminate H. injection H as <-. simp. unfold upd.
      now rewrite Nat.eqb_refl.
  - intros i b ok Hi. apply in_app_or in Hi. destruct Hi as [Hi|[->|[]]].
    + pose proof (IH2 i b ok Hi) as E. apply (l_b _ _ (Le i (B i ltac:(right; intros F; rewrite F in E; discriminate E)))), E.
    + cbn [step goroutine_step] in H. destruct (a_b (s_att s i)); try discriminate H. injection H as <-. simp. unfold upd.
      now rewrite Nat.eqb_refl.
Qed.

Lemma do_once : forall c ls s i o1 o2, exec c init ls = Some s -> In (LDo i o1) ls -> In (LDo i o2) ls -> o1 = o2.
Proof.
  intros c ls s i o1 o2 H H1 H2. destruct (seen_last c ls s (exec_reach c ls s H)) as [S _].
  pose proof (S i o1 H1). pose proof (S i o2 H2). congruence.
Qed.

Lemma read_once : forall c ls s i b1 k1 b2 k2, exec c init ls = Some s -> In (LRead i b1 k1) ls -> In (LRead i b2 k2) ls -> b1 = b2 /\ k1 = k2.
Proof.
  intros c ls s i b1 k1 b2 k2 H H1 H2. destruct (seen_last c ls s (exec_reach c ls s H)) as [_ S].
  pose proof (S i b1 k1 H1). pose proof (S i b2 k2 H2). split; congruence.
Qed.

(** * What is answered, exactly *)

Lemma exact_kinds : forall c ls s l s', exec c init ls = Some s -> on_time c init ls -> step c s l = Some s' -> s_out s = [] ->
  s_out s' = [] \/ exists r, s_out s' = [r] /\ exact_kind c ls s r.
Proof.
  intros c ls s l s' H Ht Hs Hout. pose proof (exec_treach c ls s H Ht) as R. pose proof (treach_own c ls s R) as O.
  pose proof (treach_told c ls s R) as T. pose proof (treach_reach c ls s R) as R'.
  pose proof (reach_hist c ls s R') as Hh. pose proof (reach_counts c ls s R') as K.
  destruct K as [K1 K2 K3 K4 K0 K5 K6 K7 K8].
  destruct Hh as [Hg Hn Hp Hol]. destruct O as [O1 O2 O3]. destruct T as [T1 _]. pose proof (Hg _ (le_n _)) as G. fold (cur s) in G.
  assert (EX : s_pc s = PFin2 -> may_retry c s = false -> exhausted c s).
  { intros Ep Hm Hr. pose proof (not_retry c s Hm Hr). rewrite Ep in K0. cbn [pos Nat.eqb] in K0. specialize (K0 ltac:(discriminate)). lia. }
  destruct s as [m n dw fl p sent out]. unfold at_pc_t, cur in *. simp. subst out.
  step_cases Hs; simp; subst; simp; try (now left); right; cbn [at_pc app] in *; eexists; (split; [reflexivity|]).
  - right. right. right. destruct T1 as (rs & Er & Hc). destruct Hp as [b Hp]. exists dice, rs, b. simp.
    pose proof (O3 ltac:(rewrite Hp; exact I) rs Er) as Es. repeat split.
    + apply (g_h _ _ _ _ G). now rewrite Er.
    + apply (g_b _ _ _ _ G). now rewrite Hp.
    + apply client_error_range in Hc. lia.
    + unfold proxied. rewrite Hc. unfold cur. simp. now rewrite Es.
  - right. right. right. destruct T1 as (rs & Er & Hlt & Hc & D). exists dice, rs, body. simp. repeat split.
    + apply (g_h _ _ _ _ G). now rewrite Er.
    + apply (g_b _ _ _ _ G). now rewrite Hp.
    + exact Hlt.
    + unfold proxied. rewrite Hc. exact (proj2 D).
  - left. exists dice. split; [reflexivity|]. apply K7. destruct dw; [reflexivity|]. cbn in *. auto.
  - right. left. destruct Hp as (_ & Hm & Hf). cbn [s_flag] in Hf. exists dice. repeat split; [|now apply EX].
    unfold up_aborted, cur in *. simp. apply orb_true_iff in Heqb.
    destruct (g_ctx _ _ _ _ G) as [T|T]; [destruct Heqb; [assumption|now apply (g_flag _ _ _ _ G)] | exact T | congruence].
  - right. right. left. destruct Hp as (_ & Hm & Hf). cbn [s_flag] in Hf. exists dice. simp.
    unfold up_aborted, cur in *. simp. apply orb_false_iff in Heqb. destruct Heqb as [Hx _]. repeat split; [| |now apply EX].
    + destruct T1; [assumption | congruence].
    + intros T. apply (g_timer _ _ _ _ G) in T. congruence.
Qed.

(** * No panic *)

Lemma panic_causes : forall c ls s, exec c init ls = Some s -> on_time c init ls -> s_pc s = PPanic -> c_ok c = false \/ bad_code ls.
Proof.
  intros c ls s H Ht Ep. pose proof (treach_told c ls s (exec_treach c ls s H Ht)) as [T _].
  unfold at_pc_t in T. now rewrite Ep in T.
Qed.

(** * The upstream timer of the last attempt *)

Definition after_up (c : conf) (n : nat) (s : state) : Prop :=
  s_cur s = n /\ a_ctx (cur s) = true /\ s_dwn s = false /\ s_flag s = false /\
  match s_pc s with
  | PSelHdr | PRetHdr | PProc _ | PSelBody | PRetBody | PCheck1 _ _ | PCheck2 _ _ | PRetry | PFin1 | PFin2 => s_out s = []
  | PLog1 | PLog2 | PLog3 | PDone | PPanic => exists dice, s_out s = [gave_up_upstream c dice]
  | _ => False
  end.

Lemma after_up_step : forall c n s l s', may_retry c s = false -> l <> LDwnTimer -> after_up c n s -> step c s l = Some s' -> after_up c n s'.
Proof.
  intros c n s l s' Hm Hl A H. unfold after_up in *. destruct s as [m k dw fl p sent out]. simp. destruct A as (A1 & A2 & A3 & A4 & A5).
  unfold may_retry in Hm. simp. subst. unfold cur in *. simp.
  step_cases H; simp; subst; simp; try contradiction; try discriminate;
    unfold check_up, check_dwn, up_aborted, dwn_aborted, may_retry, cur, upd in *; simp; unfold upd in *; rewrite ?Nat.eqb_refl in *; simp;
    rewrite ?A2 in *; cbn [orb negb] in *; try discriminate; try congruence; repeat split; auto.
  all: repeat match goal with |- context [Nat.eqb ?k ?q] => destruct (Nat.eqb_spec k q) as [?|?]; subst; simp end; auto.
  all: try (rewrite A5; eexists; reflexivity).
  all: rewrite Hm in Heqb; discriminate.
Qed.

(** The handler has not yet looked at the upstream timer for the last time. *)
Lemma last_may : forall c n s, s_cur s = n -> may_retry c s = false -> forall s', s_cur s' = n -> may_retry c s' = false.
Proof. intros c n s E H s' E'. unfold may_retry in *. now rewrite E', <- E. Qed.

Lemma after_up_exec : forall c n ls s s', may_retry c s = false -> ~ In LDwnTimer ls -> after_up c n s -> exec c s ls = Some s' -> after_up c n s'.
Proof.
  induction ls as [|l ls IH]; intros s s' Hm Hd A H; cbn [exec] in H; [now injection H as <-|].
  destruct (step c s l) as [s1|] eqn:E; [|discriminate].
  assert (A1 : after_up c n s1) by (apply (after_up_step c n s l s1 Hm); auto; intros ->; apply Hd; now left).
  apply (IH s1); auto; [|intros Hi; apply Hd; now right].
  apply (last_may c n s); [apply A | exact Hm | apply A1].
Qed.

Lemma up_timeout : forall c ls1 s1 ls2 s2, exec c init ls1 = Some s1 -> unjudged s1 -> In (LUpTimer (s_cur s1)) ls1 ->
  (repeatable c -> (c_max c <= Z.of_nat (S (s_cur s1)))%Z) -> ~ In LDwnTimer ls1 -> ~ In LDwnTimer ls2 -> exec c s1 ls2 = Some s2 ->
  (s_out s2 = [] /\ ~ finished s2) \/ exists dice, s_out s2 = [gave_up_upstream c dice].
Proof.
  intros c ls1 s1 ls2 s2 H1 U T L D1 D2 H2. pose proof (exec_reach c ls1 s1 H1) as R.
  pose proof (reach_hist c ls1 s1 R) as Hh. pose proof (reach_counts c ls1 s1 R) as K.
  assert (Hm : may_retry c s1 = false).
  { unfold may_retry. destruct (mem_str _ _) eqn:M; [|reflexivity]. cbn [andb]. apply Z.ltb_ge, L.
    apply mem_str_In in M. exact M. }
  pose proof (g_timer _ _ _ _ (h_good _ _ _ Hh _ (le_n _)) T) as Hc.
  assert (Hd : s_dwn s1 = false) by (destruct (s_dwn s1) eqn:E; [now elim D1; apply (k_dwn _ _ _ K) | reflexivity]).
  assert (Hf : s_flag s1 = false) by (destruct (s_flag s1) eqn:E; [rewrite (k_flag _ _ _ K E) in Hd; discriminate | reflexivity]).
  assert (A : after_up c (s_cur s1) s1).
  { repeat split; auto. pose proof (k_out _ _ _ K) as KO. unfold unjudged in U. destruct (s_pc s1); try contradiction; exact KO. }
  pose proof (after_up_exec c _ ls2 s1 s2 Hm D2 A H2) as (_ & _ & _ & _ & A5). unfold finished.
  destruct (s_pc s2); try contradiction; [left|left|left|left|left|left|left|left|left|left|right..]; try exact A5; (split; [exact A5|]); intros [X|X]; discriminate X.
Qed.

(** As long as another attempt is permitted, an upstream timeout does not end the request. *)
Definition again (c : conf) (n : nat) (s : state) : Prop :=
  n < s_cur s \/
  (s_cur s = n /\ a_ctx (cur s) = true /\ s_dwn s = false /\ s_flag s = false /\ s_out s = [] /\
   match s_pc s with
   | PSelHdr | PRetHdr | PProc _ | PSelBody | PRetBody | PCheck1 _ _ | PCheck2 _ _ | PRetry => True
   | _ => False
   end).

Lemma again_step : forall c n s l s', (s_cur s = n -> may_retry c s = true) -> l <> LDwnTimer -> again c n s -> step c s l = Some s' -> again c n s'.
Proof.
  intros c n s l s' Hm Hl A H. destruct A as [A|A]; [left; pose proof (cur_mono c s l s' H); lia|].
  destruct A as (A1 & A2 & A3 & A4 & A5 & A6). specialize (Hm A1). unfold again. destruct s as [m k dw fl p sent out].
  unfold may_retry in Hm. simp. subst. unfold cur in *. simp.
  step_cases H; simp; subst; simp; try contradiction; try discriminate;
    unfold check_up, check_dwn, up_aborted, dwn_aborted, may_retry, cur, upd in *; simp; unfold upd in *; rewrite ?Nat.eqb_refl in *; simp;
    rewrite ?A2 in *; cbn [orb negb] in *; try discriminate; try congruence; try (left; lia); right; repeat split; auto.
  all: repeat match goal with |- context [Nat.eqb ?k ?q] => destruct (Nat.eqb_spec k q) as [?|?]; subst; simp end; auto.
  all: rewrite Hm in Heqb; discriminate.
Qed.

Lemma up_retry : forall c ls1 s1 ls2 s2, exec c init ls1 = Some s1 -> unjudged s1 -> s_pc s1 <> PFin1 -> s_pc s1 <> PFin2 ->
  In (LUpTimer (s_cur s1)) ls1 -> repeatable c -> (Z.of_nat (S (s_cur s1)) < c_max c)%Z -> ~ In LDwnTimer ls1 -> ~ In LDwnTimer ls2 ->
  exec c s1 ls2 = Some s2 -> s_cur s1 < s_cur s2 \/ (s_out s2 = [] /\ ~ finished s2).
Proof.
  intros c ls1 s1 ls2 s2 H1 U N1 N2 T Hr L D1 D2 H2. pose proof (exec_reach c ls1 s1 H1) as R.
  pose proof (reach_hist c ls1 s1 R) as Hh. pose proof (reach_counts c ls1 s1 R) as K.
  pose proof (g_timer _ _ _ _ (h_good _ _ _ Hh _ (le_n _)) T) as Hc.
  assert (Hd : s_dwn s1 = false) by (destruct (s_dwn s1) eqn:E; [now elim D1; apply (k_dwn _ _ _ K) | reflexivity]).
  assert (Hf : s_flag s1 = false) by (destruct (s_flag s1) eqn:E; [rewrite (k_flag _ _ _ K E) in Hd; discriminate | reflexivity]).
  assert (M : forall s, s_cur s = s_cur s1 -> may_retry c s = true).
  { intros s E. unfold may_retry. rewrite E. apply andb_true_iff. split; [now apply mem_str_In | now apply Z.ltb_lt]. }
  assert (A : again c (s_cur s1) s1).
  { right. pose proof (k_out _ _ _ K) as KO. unfold unjudged in U. repeat split; auto; destruct (s_pc s1); try contradiction; auto; congruence. }
  clear H1 U N1 N2 T L D1 R Hh K Hc Hd Hf.
  assert (G : forall ls s, ~ In LDwnTimer ls -> again c (s_cur s1) s -> exec c s ls = Some s2 -> again c (s_cur s1) s2).
  { induction ls as [|l ls IH]; intros s Hd As H; cbn [exec] in H; [now injection H as <-|].
    destruct (step c s l) as [s'|] eqn:E; [|discriminate]. apply (IH s'); [intros Hi; apply Hd; now right | | exact H].
    apply (again_step c _ s l s'); auto. intros ->. apply Hd. now left. }
  destruct (G ls2 s1 D2 A H2) as [B|(_ & _ & _ & _ & B1 & B2)]; [now left|]. right. split; [exact B1|].
  unfold finished. destruct (s_pc s2); try contradiction; intros [X|X]; discriminate X.
Qed.

(** * The whole run *)

Lemma out_from : forall c ls s r, exec c init ls = Some s -> s_out s = [r] ->
  exists ls1 s1 l s2 ls2, ls = (ls1 ++ l :: ls2)%list /\ exec c init ls1 = Some s1 /\ step c s1 l = Some s2 /\
    exec c s2 ls2 = Some s /\ s_out s1 = [] /\ s_out s2 = [r].
Proof.
  intros c ls. induction ls as [|l ls IH] using rev_ind; intros s r H Ho.
  - injection H as <-. discriminate Ho.
  - rewrite exec_app in H. destruct (exec c init ls) as [s1|] eqn:E; [|discriminate].
    cbn [exec] in H. destruct (step c s1 l) as [s2|] eqn:E2; [|discriminate]. injection H as <-.
    destruct (s_out s1) as [|r1 o1] eqn:Eo.
    + exists ls, s1, l, s2, []. repeat split; auto.
    + assert (X : s_out s1 = [r]).
      { pose proof (one_response c (ls ++ [l]) s2) as [L _]; [rewrite exec_app, E; cbn [exec]; now rewrite E2|].
        clear IH. destruct s1 as [m n dw fl p sent out]. simp. subst out. step_cases E2; simp; subst; simp; auto; try congruence;
          rewrite app_length in L; cbn in L; lia. }
      destruct (IH s1 r eq_refl X) as (l1 & sa & la & sb & l2 & -> & B1 & B2 & B3 & B4 & B5).
      exists l1, sa, la, sb, (l2 ++ [l])%list. rewrite <- app_assoc. repeat split; auto.
      rewrite exec_app, B3. cbn [exec]. now rewrite E2.
Qed.

(** After the response nothing more is sent. *)
Definition after_out (p : pc) : Prop := match p with PLog1 | PLog2 | PLog3 | PDone | PPanic => True | _ => False end.

Lemma after_out_exec : forall c ls s s', after_out (s_pc s) -> exec c s ls = Some s' -> s_sent s' = s_sent s /\ s_cur s' = s_cur s.
Proof.
  induction ls as [|l ls IH]; intros s s' A H; cbn [exec] in H; [now injection H as <-|].
  destruct (step c s l) as [s1|] eqn:E; [|discriminate].
  assert (X : after_out (s_pc s1) /\ s_sent s1 = s_sent s /\ s_cur s1 = s_cur s).
  { clear IH H. destruct s as [m n dw fl p sent out]. simp. step_cases E; simp; subst; simp; try contradiction; repeat split; auto. }
  destruct X as (X1 & X2 & X3). destruct (IH s1 s' X1 H) as [Y1 Y2]. split; congruence.
Qed.

Lemma in_prefix : forall (x : label) l1 l l2, In x l1 -> In x (l1 ++ l :: l2).
Proof. intros. apply in_or_app. now left. Qed.

Lemma failed_prefix : forall l1 l l2 i, failed_attempt l1 i -> failed_attempt (l1 ++ l :: l2) i.
Proof.
  intros l1 l l2 i [H|[[b H]|[rs [H1 H2]]]].
  - left. now apply in_prefix.
  - right. left. exists b. now apply in_prefix.
  - right. right. exists rs. split; [now apply in_prefix | exact H2].
Qed.

Lemma whole_run : forall c ls s r, exec c init ls = Some s -> on_time c init ls -> s_out s = [r] ->
  s_cur s = Nat.pred (length (s_sent s)) /\ in_order c ls (s_cur s) r.
Proof.
  intros c ls s r H Ht Ho. destruct (out_from c ls s r H Ho) as (l1 & s1 & l & s2 & l2 & -> & E1 & E2 & E3 & O1 & O2).
  assert (R2 : exec c init (l1 ++ [l]) = Some s2) by (rewrite exec_app, E1; cbn [exec]; now rewrite E2).
  pose proof (reach_counts c _ s2 (exec_reach c _ s2 R2)) as K2. pose proof (reach_counts c _ s1 (exec_reach c _ s1 E1)) as K1.
  apply on_time_app in Ht. destruct Ht as [Ht _].
  assert (P2 : s_pc s2 = PLog1 /\ s_cur s2 = s_cur s1 /\ s_sent s2 = s_sent s1).
  { clear - E2 O1 O2. destruct s1 as [m n dw fl p sent out]. simp. subst out. step_cases E2; simp; subst; simp; try discriminate; auto. }
  destruct P2 as (P2 & C2 & S2). destruct (after_out_exec c l2 s2 s) as [S3 C3]; [rewrite P2; exact I | exact E3|].
  pose proof (k_all _ _ _ K2 ltac:(rewrite P2; discriminate)) as L. rewrite P2 in L. cbn [pos Nat.eqb] in L.
  split; [rewrite S3, C3; lia|].
  destruct (exact_kinds c l1 s1 l s2 E1 Ht E2 O1) as [X|[r' [X1 X2]]]; [congruence|].
  assert (r' = r) by congruence. subst r'. rewrite C3, C2.
  assert (EX : exhausted c s1 -> repeatable c -> (c_max c <= Z.of_nat (S (s_cur s1)))%Z).
  { intros Hx Hr. specialize (Hx Hr). rewrite <- S2 in Hx. lia. }
  pose proof (t_old _ _ _ (treach_told c l1 s1 (exec_treach c l1 s1 E1 Ht))) as Old.
  destruct X2 as [(dice & Y1 & Y2)|X2]; [left; exists dice; split; [exact Y1 | now apply in_prefix]|].
  right. split.
  - intros i Hi. destruct (Old i Hi) as [Y|Y]; [left; now apply failed_prefix | right; now apply in_prefix].
  - destruct X2 as [(dice & Y1 & Y2 & Y3)|[(dice & Y1 & Y2 & Y3 & Y4)|(dice & rs & body & Y1 & Y2 & Y3 & Y4)]].
    + left. exists dice. repeat split; auto. now apply in_prefix.
    + right. left. exists dice. repeat split; auto. now apply failed_prefix.
    + right. right. exists dice, rs, body. repeat split; auto; now apply in_prefix.
Qed.

(** * Without timers *)

Lemma not_both : forall c ls s i rs body, exec c init ls = Some s -> answered ls i rs -> In (LRead i body true) ls ->
  (ur_status rs < 500)%Z -> ~ failed_attempt ls i.
Proof.
  intros c ls s i rs body H A R L [F|[[b F]|[rs' [F1 F2]]]].
  - pose proof (do_once c ls s i _ _ H A F). discriminate.
  - destruct (read_once c ls s i _ _ _ _ H R F). discriminate.
  - pose proof (do_once c ls s i _ _ H A F1) as E. injection E as <-. lia.
Qed.

Lemma all_fail : forall c ls s r, exec c init ls = Some s -> (forall i, ~ In (LUpTimer i) ls) -> ~ In LDwnTimer ls ->
  s_out s = [r] -> failed_attempt ls (Nat.pred (length (s_sent s))) ->
  (exists dice, r = gave_up_error c dice) /\ (repeatable c -> (c_max c <= Z.of_nat (length (s_sent s)))%Z) /\
  forall i, i < length (s_sent s) -> failed_attempt ls i.
Proof.
  intros c ls s r H Hu Hd Ho Hf. assert (Ht : on_time c init ls) by (apply (on_time_if c ls s H); now left).
  destruct (whole_run c ls s r H Ht Ho) as [En W]. rewrite <- En in Hf.
  assert (L : length (s_sent s) = S (s_cur s)).
  { pose proof (k_len _ _ _ (reach_counts c ls s (exec_reach c ls s H))) as K. 
    destruct (length (s_sent s)) as [|k] eqn:E; [|cbn in En; lia]. exfalso.
    destruct (out_from c ls s r H Ho) as (l1 & s1 & l & s2 & l2 & -> & E1 & E2 & E3 & O1 & O2).
    assert (P2 : s_pc s2 = PLog1).
    { clear - E2 O1 O2. destruct s1 as [m n dw fl p sent out]. simp. subst out. step_cases E2; simp; subst; simp; try discriminate; auto. }
    destruct (after_out_exec c l2 s2 s) as [S3 C3]; [rewrite P2; exact I | exact E3|].
    pose proof (k_all _ _ _ (reach_counts c _ s2 (exec_reach c (l1 ++ [l]) s2 ltac:(rewrite exec_app, E1; cbn [exec]; now rewrite E2)))) as L.
    rewrite P2 in L. specialize (L ltac:(discriminate)). cbn [pos Nat.eqb] in L. rewrite <- S3, E in L. discriminate L. }
  rewrite L. destruct W as [(dice & _ & W)|[W1 W2]]; [contradiction|].
  destruct W2 as [(dice & _ & W2 & _)|[(dice & Y1 & Y2 & Y3)|(dice & rs & body & Y1 & Y2 & Y3 & _)]].
  - now elim (Hu _ W2).
  - split; [now exists dice|]. split; [exact Y3|]. intros i Hi. destruct (Nat.eq_dec i (s_cur s)) as [->|Hne]; [exact Hf|].
    destruct (W1 i) as [W|W]; [lia | exact W | now elim (Hu _ W)].
  - now elim (not_both c ls s (s_cur s) rs body H Y1 Y2 Y3).
Qed.

Lemma first_success : forall c ls s r n rs body, exec c init ls = Some s -> (forall i, ~ In (LUpTimer i) ls) -> ~ In LDwnTimer ls ->
  s_out s = [r] -> answered ls n rs -> In (LRead n body true) ls -> (ur_status rs < 500)%Z ->
  n = Nat.pred (length (s_sent s)) /\ (exists dice, r = proxied (c_env c) dice (c_down c) rs body) /\
  forall i, i < n -> failed_attempt ls i.
Proof.
  intros c ls s r n rs body H Hu Hd Ho A R L. assert (Ht : on_time c init ls) by (apply (on_time_if c ls s H); now left).
  destruct (whole_run c ls s r H Ht Ho) as [En W]. pose proof (exec_reach c ls s H) as Rr.
  assert (Hn : n <= s_cur s).
  { destruct (seen_last c ls s Rr) as [S _]. pose proof (S n _ A) as E. destruct (Nat.le_gt_cases n (s_cur s)) as [|G]; [assumption|].
    destruct (h_new _ _ _ (reach_hist c ls s Rr) n G) as (E1 & _). rewrite E1 in E. discriminate E. }
  pose proof (not_both c ls s n rs body H A R L) as NF.
  destruct W as [(dice & _ & W)|[W1 W2]]; [contradiction|].
  assert (E : n = s_cur s).
  { destruct (Nat.eq_dec n (s_cur s)) as [|Hne]; [assumption|]. destruct (W1 n) as [W|W]; [lia | contradiction | now elim (Hu _ W)]. }
  subst n. rewrite <- En. split; [reflexivity|]. split.
  - destruct W2 as [(dice & _ & W2 & _)|[(dice & Y1 & Y2 & Y3)|(dice & rs' & body' & Y1 & Y2 & Y3 & Y4)]].
    + now elim (Hu _ W2).
    + contradiction.
    + exists dice. pose proof (do_once c ls s _ _ _ H A Y1) as E1. injection E1 as <-.
      destruct (read_once c ls s _ _ _ _ _ H R Y2) as [<- _]. exact Y4.
  - intros i Hi. destruct (W1 i Hi) as [W|W]; [exact W | now elim (Hu _ W)].
Qed.

(** * Statuses *)

Lemma proxied_status : forall E dice w rs body, rp_status (proxied E dice w rs body) = ur_status rs.
Proof. intros. unfold proxied. destruct (client_error (ur_status rs)); reflexivity. Qed.

Lemma status_any : forall c ls s r, exec c init ls = Some s -> s_out s = [r] ->
  rp_status r = 502%Z \/ rp_status r = 504%Z \/ exists i rs, answered ls i rs /\ rp_status r = ur_status rs.
Proof.
  intros c ls s r H Ho. destruct (out_from c ls s r H Ho) as (l1 & s1 & l & s2 & l2 & -> & E1 & E2 & E3 & O1 & O2).
  destruct (kinds c l1 s1 l s2 E1 E2 O1) as [X|[r' [X1 X2]]]; [congruence|]. assert (r' = r) by congruence. subst r'.
  destruct X2 as [(dice & -> & _)|[(dice & -> & _)|[(dice & -> & _)|(i & rs & Y1 & Y2)]]];
    [right; left; reflexivity | right; left; reflexivity | left; reflexivity|].
  right. right. exists i, rs. split; [now apply in_prefix | exact Y2].
Qed.

Lemma status_on_time : forall c ls s r, exec c init ls = Some s -> on_time c init ls -> s_out s = [r] ->
  rp_status r = 502%Z \/ rp_status r = 504%Z \/ exists i rs, answered ls i rs /\ rp_status r = ur_status rs /\ (ur_status rs < 500)%Z.
Proof.
  intros c ls s r H Ht Ho. destruct (whole_run c ls s r H Ht Ho) as [_ [(dice & -> & _)|[_ W]]]; [right; left; reflexivity|].
  destruct W as [(dice & -> & _)|[(dice & -> & _)|(dice & rs & body & Y1 & Y2 & Y3 & ->)]]; [right; left; reflexivity | left; reflexivity|].
  right. right. exists (s_cur s), rs. rewrite proxied_status. auto.
Qed.

Lemma one_attempt : forall c ls s r, exec c init ls = Some s -> on_time c init ls -> s_out s = [r] ->
  (exists dice, r = gave_up_downstream c dice \/ r = gave_up_upstream c dice \/ r = gave_up_error c dice) \/
  exists i dice rs body, answered ls i rs /\ In (LRead i body true) ls /\ r = proxied (c_env c) dice (c_down c) rs body.
Proof.
  intros c ls s r H Ht Ho. destruct (whole_run c ls s r H Ht Ho) as [_ [(dice & E & _)|[_ W]]]; [left; exists dice; left; exact E|].
  destruct W as [(dice & E & _)|[(dice & E & _)|(dice & rs & body & Y1 & Y2 & Y3 & E)]].
  - left. exists dice. right. left. exact E.
  - left. exists dice. right. right. exact E.
  - right. exists (s_cur s), dice, rs, body. repeat split; assumption.
Qed.

Lemma no_panic : forall c ls s, exec c init ls = Some s -> on_time c init ls -> c_ok c = true ->
  (forall i rs, answered ls i rs -> (100 <= ur_status rs <= 999)%Z) -> s_pc s <> PPanic.
Proof.
  intros c ls s H Ht Hok Hv E. destruct (panic_causes c ls s H Ht E) as [X|(i & rs & A & B & _)]; [congruence|].
  specialize (Hv i rs A). unfold valid_code in B. apply andb_false_iff in B. destruct B as [B|B]; apply Z.leb_gt in B; lia.
Qed.

Lemma exactly_one : forall c ls s, exec c init ls = Some s -> on_time c init ls -> c_ok c = true ->
  (forall i rs, answered ls i rs -> (100 <= ur_status rs <= 999)%Z) -> finished s -> length (s_out s) = 1.
Proof.
  intros c ls s H Ht Hok Hv [F|F]; [now apply (one_response c ls s H)|]. now elim (no_panic c ls s H Ht Hok Hv).
Qed.

Lemma dwn_timeout_run : forall c ls1 s1 ls2 s2, exec c init ls1 = Some s1 -> undecided s1 -> In LDwnTimer ls1 ->
  exec c s1 ls2 = Some s2 ->
  (s_out s2 = [] \/ exists dice, s_out s2 = [gave_up_downstream c dice]) /\
  (s_pc s2 = PDone -> exists dice, s_out s2 = [gave_up_downstream c dice]) /\
  length (s_sent s2) <= S (length (s_sent s1)) /\
  (s_pc s2 = PPanic -> s_out s2 = [] -> c_ok c = false).
Proof.
  intros c ls1 s1 ls2 s2 H1 U D H2. apply (dwn_timeout c ls1 s1 ls2 s2); auto.
  now apply (k_dwn _ _ _ (reach_counts c ls1 s1 (exec_reach c ls1 s1 H1))).
Qed.
