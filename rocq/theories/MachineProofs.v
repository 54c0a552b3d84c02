(** Proofs about runs. *)
From Coq Require Import String List Bool ZArith Lia.
From Verif Require Import GoStr Header Exchange Machine MachineSpec.
Import ListNotations.
Local Open Scope string_scope.

(** * Runs, one step at a time at the end *)

Inductive reach (c : conf) : list label -> state -> Prop :=
| reach_nil : reach c [] init
| reach_step : forall ls s l s', reach c ls s -> step c s l = Some s' -> reach c (ls ++ [l]) s'.

Lemma exec_app : forall c ls1 s ls2,
  exec c s (ls1 ++ ls2) = match exec c s ls1 with Some s' => exec c s' ls2 | None => None end.
Proof.
  induction ls1 as [|l ls1 IH]; intros s ls2; [reflexivity|]. cbn [app exec].
  destruct (step c s l) as [s'|]; [apply IH | reflexivity].
Qed.

Lemma exec_reach : forall c ls s, exec c init ls = Some s -> reach c ls s.
Proof.
  intros c ls. induction ls as [|l ls IH] using rev_ind; intros s H.
  - injection H as <-. constructor.
  - rewrite exec_app in H. destruct (exec c init ls) as [s1|] eqn:E; [|discriminate].
    cbn [exec] in H. destruct (step c s1 l) as [s2|] eqn:E2; [|discriminate]. injection H as <-.
    now apply reach_step with (s := s1); [apply IH|].
Qed.

Lemma main_count_app : forall l1 l2, main_count (l1 ++ l2) = main_count l1 + main_count l2.
Proof. induction l1 as [|l l1 IH]; intros l2; cbn [app main_count]; [reflexivity|]. rewrite IH. lia. Qed.

Ltac break H :=
  repeat match type of H with
  | context [match ?x with _ => _ end] => destruct x eqn:?
  end.

(** Splits a step into its cases. *)
Ltac step_cases H :=
  match type of H with step ?c ?s ?l = Some ?s' =>
    destruct l; cbn [step] in H; unfold main_step, sel_step, goroutine_step in H;
    break H; try discriminate H; injection H as <-
  end.

(** * Counting *)

Definition pos (p : pc) : nat :=
  match p with
  | PStart => 0 | PSelHdr => 1 | PRetHdr => 2 | PProc _ => 3 | PSelBody => 4 | PRetBody => 5
  | PCheck1 _ _ => 6 | PCheck2 _ _ => 7 | PCheck3 _ _ => 8 | PKind _ => 9 | PErr => 10
  | PBuild st _ _ =>
      match st with StHeader => 10 | StStatus => 11 | StBody => 12 | StLength => 13 | StEnc1 => 14
                  | StEnc2 => 15 | StEnc3 => 16 | StWrite => 17 end
  | PRetry => 17 | PFin1 => 18 | PFin2 => 19 | PLog1 => 20 | PLog2 => 21 | PLog3 => 22
  | PDone => 23 | PPanic => 23
  end.

Definition out_ok (p : pc) (out : list response) : Prop :=
  match p with
  | PLog1 | PLog2 | PLog3 | PDone => exists r, out = [r]
  | PPanic => length out <= 1
  | _ => out = []
  end.

Record counts (c : conf) (ls : list label) (s : state) : Prop := {
  k_max : (Z.of_nat (S (s_cur s)) <= Z.max 1 (c_max c))%Z;
  k_rep : mem_str (w_method (c_down c)) repeatable_methods = false -> s_cur s = 0;
  k_sent : Forall (eq (c_request c)) (s_sent s);
  k_len : length (s_sent s) + (if Nat.eqb (pos (s_pc s)) 0 then 1 else 0) <= S (s_cur s);
  k_all : s_pc s <> PPanic -> length (s_sent s) + (if Nat.eqb (pos (s_pc s)) 0 then 1 else 0) = S (s_cur s);
  k_out : out_ok (s_pc s) (s_out s);
  k_time : main_count ls <= 24 * s_cur s + pos (s_pc s);
  k_dwn : s_dwn s = true <-> In LDwnTimer ls;
  k_flag : s_flag s = true -> s_dwn s = true }.

Lemma counts_init : forall c, counts c [] init.
Proof.
  intros c. constructor; cbn; try reflexivity; try lia; try discriminate; auto.
Qed.

Lemma dwn_last : forall ls l (b : bool), l <> LDwnTimer -> (b = true <-> In LDwnTimer ls) -> (b = true <-> In LDwnTimer (ls ++ [l])).
Proof.
  intros ls l b Hl H. rewrite H. split; intros Hi; [apply in_or_app; now left|].
  apply in_app_or in Hi. destruct Hi as [Hi|[Hi|[]]]; [exact Hi | now elim Hl].
Qed.

Lemma retry_inv : forall c s b, may_retry c s && negb b = true ->
  mem_str (w_method (c_down c)) repeatable_methods = true /\ (Z.of_nat (S (s_cur s)) < c_max c)%Z /\ b = false.
Proof.
  intros c s b H. unfold may_retry in H. apply andb_true_iff in H. destruct H as [H Hb]. apply andb_true_iff in H.
  destruct H as [H1 H2]. apply Z.ltb_lt in H2. apply negb_true_iff in Hb. auto.
Qed.

Lemma counts_step : forall c ls s l s', counts c ls s -> step c s l = Some s' -> counts c (ls ++ [l]) s'.
Proof.
  intros c ls s l s' K H. destruct K as [K1 K2 K3 K4 K0 K5 K6 K7 K8].
  destruct s as [m n dw fl p sent out]. cbn [s_att s_cur s_dwn s_flag s_pc s_sent s_out] in *.
  assert (T : main_count (ls ++ [l]) = main_count ls + (if is_main l then 1 else 0)).
  { rewrite main_count_app. cbn [main_count]. lia. }
  step_cases H; cbn [s_att s_cur s_dwn s_flag s_pc s_sent s_out go with_atts with_s_flag at_cur write check_dwn check_up abort_all pos out_ok Nat.eqb is_main] in *; subst;
  cbn [pos out_ok Nat.eqb] in *.
  all: constructor; cbn [s_att s_cur s_dwn s_flag s_pc s_sent s_out go with_atts with_s_flag at_cur write check_dwn check_up abort_all pos out_ok Nat.eqb]; try assumption; try lia.
  all: try (apply dwn_last; [discriminate | assumption]).
  all: try (cbn [dwn_aborted s_dwn s_flag]; destruct dw, fl; cbn; intuition congruence).
  all: try (intros E0; specialize (K0 ltac:(discriminate)); rewrite ?app_length; cbn [length Nat.eqb]; (congruence || lia)).
  all: try (rewrite K5; cbn; (lia || (eexists; reflexivity))).
  - apply Forall_app. split; [assumption | now repeat constructor].
  - rewrite app_length. cbn. lia.
  - match goal with Hr : _ && negb _ = true |- _ => apply retry_inv in Hr; destruct Hr as (_ & Hx & _) end. cbn [s_cur] in Hx. lia.
  - match goal with Hr : _ && negb _ = true |- _ => apply retry_inv in Hr; destruct Hr as (Hx & _ & _) end. congruence.
  - destruct K5 as [r ->]. cbn. lia.
  - split; [intros _; apply in_or_app; right; now left | reflexivity].
Qed.

Lemma reach_counts : forall c ls s, reach c ls s -> counts c ls s.
Proof. intros c ls s R. induction R as [|ls s l s' R IH H]; [apply counts_init | now apply counts_step with (s := s)]. Qed.

(** * Attempts *)

Definition past_start (p : b_phase) : Prop := match p with BIdle | BStart _ => False | _ => True end.

(** What is known of attempt [i] after run [ls]; [fl] is the downstream flag. *)
Record good (ls : list label) (fl : bool) (i : nat) (a : att) : Prop := {
  g_h : forall o, h_seen (a_h a) = Some o -> In (LDo i o) ls;
  g_hdr : a_hdr a = true -> exists o, a_h a = HEnd o;
  g_bdy : a_bdy a = true -> exists b ok, a_b a = BEnd b ok;
  g_b : forall b ok, b_seen (a_b a) = Some (b, ok) -> In (LRead i b ok) ls;
  g_bh : a_b a <> BIdle -> exists rs, a_h a = HEnd (Some rs) /\ forall rs', a_b a = BStart rs' -> rs' = rs;
  g_ctx : a_ctx a = true -> In (LUpTimer i) ls \/ fl = true;
  g_timer : In (LUpTimer i) ls -> a_ctx a = true;
  g_flag : a_flag a = true -> a_ctx a = true }.

Lemma good_mono : forall ls fl i a l fl', l <> LUpTimer i -> (fl = true -> fl' = true) -> good ls fl i a -> good (ls ++ [l]) fl' i a.
Proof.
  intros ls fl i a l fl' Hl Hf [G1 G2 G3 G4 G5 G6 G7 G8]. constructor; auto.
  - intros o Ho. apply in_or_app. left. auto.
  - intros b ok Hb. apply in_or_app. left. auto.
  - intros Hc. destruct (G6 Hc) as [H|H]; [left; apply in_or_app; now left | right; auto].
  - intros Hi. apply in_app_or in Hi. destruct Hi as [Hi|[Hi|[]]]; [auto | now elim Hl].
Qed.

Definition done_att (a : att) : Prop :=
  a_ctx a = true \/ h_seen (a_h a) = Some None \/ b_seen (a_b a) <> None.

Definition at_pc (c : conf) (s : state) (p : pc) (a : att) : Prop :=
  match p with
  | PStart => a_h a = HIdle /\ a_b a = BIdle
  | PSelHdr => a_h a <> HIdle /\ a_b a = BIdle
  | PRetHdr => (a_ctx a = true \/ a_hdr a = true) /\ a_b a = BIdle
  | PProc o => (a_ctx a = true \/ (a_hdr a = true /\ o = h_seen (a_h a))) /\ a_b a = BIdle
  | PSelBody => a_b a <> BIdle
  | PRetBody => a_ctx a = true \/ a_bdy a = true
  | PCheck1 b ok | PCheck2 b ok => a_ctx a = true \/ a_b a = BEnd b ok
  | PCheck3 b ok => a_b a = BEnd b ok
  | PKind b | PBuild _ b _ => a_b a = BEnd b true
  | PErr => exists b, a_b a = BEnd b true
  | PRetry => done_att a
  | PFin1 => done_att a /\ (may_retry c s = false \/ dwn_aborted s = true)
  | PFin2 => done_att a /\ may_retry c s = false /\ s_flag s = false
  | PLog1 | PLog2 | PLog3 | PDone => done_att a
  | PPanic => True
  end.

Record hist (c : conf) (ls : list label) (s : state) : Prop := {
  h_good : forall i, i <= s_cur s -> good ls (s_flag s) i (s_att s i);
  h_new : forall i, s_cur s < i -> a_h (s_att s i) = HIdle /\ a_b (s_att s i) = BIdle /\ ~ In (LUpTimer i) ls;
  h_pc : at_pc c s (s_pc s) (cur s);
  h_old : forall i, i < s_cur s -> done_att (s_att s i) }.

Lemma hist_init : forall c, hist c [] init.
Proof.
  intros c. constructor; cbn; auto.
  - intros i Hi. constructor; cbn; try discriminate; intros H; now elim H.
  - intros i Hi. lia.
Qed.

Ltac simp := cbn [s_att s_cur s_dwn s_flag s_pc s_sent s_out go with_atts with_s_flag at_cur write check_dwn check_up abort_all cur
  a_resp a_status a_gz a_flag a_ctx a_hdr a_bdy a_h a_b with_resp with_status with_gz with_flag with_ctx with_hdr with_bdy with_h with_b
  h_seen b_seen dwn_aborted up_aborted new_att] in *.

(** Changes of an attempt that [good] does not see. *)
Lemma good_same : forall ls fl i a a', a_h a' = a_h a -> a_b a' = a_b a -> a_ctx a' = a_ctx a -> a_hdr a' = a_hdr a ->
  a_bdy a' = a_bdy a -> (a_flag a' = true -> a_ctx a = true) -> good ls fl i a -> good ls fl i a'.
Proof.
  intros ls fl i a a' H1 H2 H3 H4 H5 H6 [G1 G2 G3 G4 G5 G6 G7 G8].
  constructor; rewrite ?H1, ?H2, ?H3, ?H4, ?H5; auto.
Qed.

Lemma last_in : forall (l : label) ls, In l (ls ++ [l]).
Proof. intros. apply in_or_app. right. now left. Qed.

Lemma old_in : forall (x l : label) ls, In x ls -> In x (ls ++ [l]).
Proof. intros. apply in_or_app. now left. Qed.

Lemma good_up : forall ls fl i a, good ls fl i a -> good ls fl i (with_flag (a_ctx a || a_flag a) a).
Proof.
  intros ls fl i a G. apply good_same with (a := a); try reflexivity; [|exact G]. simp.
  intros H. apply orb_true_iff in H. destruct H as [H|H]; [exact H | exact (g_flag _ _ _ _ G H)].
Qed.

Lemma good_cancel : forall ls fl i a, good ls fl i a -> good ls true i (with_ctx true a).
Proof. intros ls fl i a [G1 G2 G3 G4 G5 G6 G7 G8]. constructor; simp; auto. Qed.

Lemma good_timer : forall ls fl i a, good ls fl i a -> good (ls ++ [LUpTimer i]) fl i (with_ctx true a).
Proof. intros ls fl i a [G1 G2 G3 G4 G5 G6 G7 G8]. constructor; simp; eauto using last_in, old_in. Qed.

Lemma good_h : forall ls l fl i a p, l <> LUpTimer i -> (forall o, h_seen p = Some o -> In (LDo i o) (ls ++ [l])) ->
  (forall o, a_h a <> HEnd o) -> good ls fl i a -> good (ls ++ [l]) fl i (with_h p a).
Proof.
  intros ls l fl i a p Hl Hp Hn G. assert (G' : good (ls ++ [l]) fl i a) by (apply good_mono with (fl := fl); auto).
  destruct G' as [G1 G2 G3 G4 G5 G6 G7 G8]. constructor; simp; auto.
  - intros H. destruct (G2 H) as [o Ho]. now elim (Hn o).
  - intros H. destruct (G5 H) as [rs [Hr _]]. now elim (Hn (Some rs)).
Qed.

Lemma good_b : forall ls l fl i a p, l <> LUpTimer i -> (forall b ok, b_seen p = Some (b, ok) -> In (LRead i b ok) (ls ++ [l])) ->
  (forall rs, p <> BStart rs) -> (forall b ok, a_b a <> BEnd b ok) -> a_b a <> BIdle -> good ls fl i a -> good (ls ++ [l]) fl i (with_b p a).
Proof.
  intros ls l fl i a p Hl Hp Hs Hn Hi G. assert (G' : good (ls ++ [l]) fl i a) by (apply good_mono with (fl := fl); auto).
  destruct G' as [G1 G2 G3 G4 G5 G6 G7 G8]. constructor; simp; auto.
  - intros H. destruct (G3 H) as [b [ok Ho]]. now elim (Hn b ok).
  - intros _. destruct (G5 Hi) as [rs [Hr _]]. exists rs. split; [exact Hr|]. intros rs' H. now elim (Hs rs').
Qed.

Ltac rewrite_b := match goal with H : a_b _ = _ |- _ => rewrite H; reflexivity end.

Lemma good_step : forall c ls s l s', hist c ls s -> step c s l = Some s' ->
  forall i, i <= s_cur s' -> good (ls ++ [l]) (s_flag s') i (s_att s' i).
Proof.
  intros c ls s l s' [Hg Hn Hp Ho] H. destruct s as [m n dw fl p sent out]. simp.
  assert (HM : forall l fl' k, l <> LUpTimer k -> (fl = true -> fl' = true) -> k <= n -> good (ls ++ [l]) fl' k (m k)).
  { intros l0 fl' k H1 H2 H3. apply good_mono with (fl := fl); auto. }
  step_cases H; simp; subst; simp; cbn [at_pc] in *; intros k Hk; unfold dwn_aborted, up_aborted in *; simp.
  (* nothing changes *)
  all: try (apply HM; [discriminate | intros ->; rewrite ?orb_true_r; reflexivity | lia]; fail).
  all: unfold upd; 
       match goal with |- good _ _ _ (if Nat.eqb ?k ?q then _ else _) => destruct (Nat.eqb_spec k q) as [->|Hne] | _ => idtac end.
  all: try (apply HM; [discriminate | intros ->; rewrite ?orb_true_r; reflexivity | lia]; fail).
  all: try (apply good_up, HM; [discriminate | auto | lia]; fail).
  all: try (apply good_cancel with (fl := fl), HM; [discriminate | auto | lia]; fail).
  all: try (apply good_timer, Hg; lia).
  all: try (apply HM; [congruence | auto | lia]; fail).
  - apply good_h; [discriminate | discriminate | intros o; rewrite (proj1 Hp); discriminate | apply Hg; lia].
  - apply orb_false_iff in Heqb. destruct Heqb as [Ec Ef]. destruct Hp as [[Hc|[Hh Ho']] Hb]; [congruence|].
    destruct (g_hdr _ _ _ _ (Hg n Hk) Hh) as [o2 E2]. rewrite E2 in Ho'. injection Ho' as <-.
    assert (G : good (ls ++ [LMain dice]) fl n (m n)) by (apply HM; [discriminate | auto | lia]).
    destruct G as [G1 G2 G3 G4 G5 G6 G7 G8]. constructor; simp; auto.
    + rewrite Hb in G3. intros H3. destruct (G3 H3) as [b0 [ok0 E0]]. discriminate.
    + discriminate.
    + intros _. exists u. split; [exact E2|]. now intros rs' [= ->].
    + rewrite Ec, Ef. discriminate.
  - constructor; simp; try discriminate.
    + intros E. now elim E.
    + intros Hi. apply in_app_or in Hi. destruct Hi as [Hi|[Hi|[]]]; [|discriminate]. now elim (Hn (S n) (Nat.lt_succ_diag_r n)).
  - apply good_same with (a := m n); try reflexivity; [now intros _ | apply HM; [discriminate | auto | lia]].
  - apply good_same with (a := m n); try reflexivity; [now intros _ | apply HM; [discriminate | auto | lia]].
  - apply good_h; [discriminate | simp; intros o0 [= <-]; apply last_in | congruence | apply Hg; lia].
  - apply good_same with (a := if Nat.eqb n i then with_h (HSet o) (m n) else m n); try reflexivity.
    + simp. destruct (Nat.eqb n i); simp; apply (g_flag ls fl n (m n)), Hg; lia.
    + destruct (Nat.eqb_spec n i) as [<-|Hne]; [|apply HM; [discriminate | auto | lia]].
      apply good_h; [discriminate | simp; intros o0 [= <-] | congruence | apply Hg; lia].
      apply old_in, (g_h ls fl n (m n)); [apply Hg; lia | now rewrite Heqh].
  - destruct (Nat.eqb_spec k i) as [<-|Hne']; [|apply HM; [discriminate | auto | lia]].
    apply good_h; [discriminate | simp; intros o0 [= <-] | congruence | apply Hg; lia].
    apply old_in, (g_h ls fl k (m k)); [apply Hg; lia | now rewrite Heqh].
  - assert (G : good (ls ++ [LCloseHdr i]) fl i (with_h (HEnd o) (m i))).
    { apply good_h; [discriminate | simp; intros o0 [= <-] | congruence | apply Hg; lia].
      apply old_in, (g_h ls fl i (m i)); [apply Hg; lia | now rewrite Heqh]. }
    destruct G as [G1 G2 G3 G4 G5 G6 G7 G8]. constructor; simp; auto. intros _. now exists o.
  - apply good_same with (a := if Nat.eqb n i then with_b BReading (m n) else m n); try reflexivity.
    + simp. destruct (Nat.eqb n i); simp; apply (g_flag ls fl n (m n)), Hg; lia.
    + destruct (Nat.eqb_spec n i) as [<-|Hne]; [|apply HM; [discriminate | auto | lia]].
      apply good_b; [discriminate | discriminate | discriminate | congruence | congruence | apply Hg; lia].
  - destruct (Nat.eqb_spec k i) as [<-|Hne']; [|apply HM; [discriminate | auto | lia]].
    apply good_b; [discriminate | discriminate | discriminate | congruence | congruence | apply Hg; lia].
  - apply good_b; [discriminate | simp; intros b0 ok0 [= <- <-]; apply last_in | discriminate | congruence | congruence | apply Hg; lia].
  - apply good_same with (a := if Nat.eqb n i then with_b (BFlag body ok) (m n) else m n); try reflexivity.
    + simp. destruct (Nat.eqb n i); simp; apply (g_flag ls fl n (m n)), Hg; lia.
    + destruct (Nat.eqb_spec n i) as [<-|Hne]; [|apply HM; [discriminate | auto | lia]].
      apply good_b; [discriminate | simp; intros b0 ok0 [= <- <-] | discriminate | congruence | congruence | apply Hg; lia].
      apply old_in, (g_b ls fl n (m n)); [apply Hg; lia | now rewrite Heqb].
  - destruct (Nat.eqb_spec k i) as [<-|Hne']; [|apply HM; [discriminate | auto | lia]].
    apply good_b; [discriminate | simp; intros b0 ok0 [= <- <-] | discriminate | congruence | congruence | apply Hg; lia].
    apply old_in, (g_b ls fl k (m k)); [apply Hg; lia | now rewrite Heqb].
  - apply good_b; [discriminate | simp; intros b0 ok0 [= <- <-] | discriminate | congruence | congruence | apply Hg; lia].
    apply old_in, (g_b ls fl i (m i)); [apply Hg; lia | now rewrite Heqb].
  - assert (G : good (ls ++ [LCloseBody i]) fl i (with_b (BEnd body ok) (m i))).
    { apply good_b; [discriminate | simp; intros b0 ok0 [= <- <-] | discriminate | congruence | congruence | apply Hg; lia].
      apply old_in, (g_b ls fl i (m i)); [apply Hg; lia | now rewrite Heqb]. }
    destruct G as [G1 G2 G3 G4 G5 G6 G7 G8]. constructor; simp; auto. intros _. now exists body, ok.
Qed.

(** Attempts only ever move on. *)
Record le_att (a a' : att) : Prop := {
  l_ctx : a_ctx a = true -> a_ctx a' = true;
  l_flag : a_flag a = true -> a_flag a' = true;
  l_hdr : a_hdr a = true -> a_hdr a' = true;
  l_bdy : a_bdy a = true -> a_bdy a' = true;
  l_h : forall o, h_seen (a_h a) = Some o -> h_seen (a_h a') = Some o;
  l_hend : forall o, a_h a = HEnd o -> a_h a' = HEnd o;
  l_set : forall o, a_h a = HSet o -> a_h a' = HSet o \/ a_h a' = HEnd o;
  l_hidle : a_h a <> HIdle -> a_h a' <> HIdle;
  l_b : forall x, b_seen (a_b a) = Some x -> b_seen (a_b a') = Some x;
  l_bend : forall b ok, a_b a = BEnd b ok -> a_b a' = BEnd b ok;
  l_bidle : a_b a <> BIdle -> a_b a' <> BIdle;
  l_past : past_start (a_b a) -> past_start (a_b a') }.

Lemma le_refl : forall a, le_att a a.
Proof. intros a. constructor; auto. Qed.

Ltac solve_le :=
  constructor; simp;
  repeat match goal with H : a_h _ = _ |- _ => rewrite H in *; clear H | H : a_b _ = _ |- _ => rewrite H in *; clear H end;
  simp; cbn [past_start] in *; intros;
  repeat match goal with H : (_ || _)%bool = true |- _ => apply orb_true_iff in H; destruct H end;
  try congruence; try discriminate; auto;
  try (apply orb_true_iff; auto; fail);
  try (left; congruence); try (right; congruence).

Lemma le_step : forall c ls s l s', hist c ls s -> step c s l = Some s' ->
  forall i, i <= s_cur s -> le_att (s_att s i) (s_att s' i).
Proof.
  intros c ls s l s' [Hg Hn Hp Ho] H. destruct s as [m n dw fl p sent out]. simp.
  step_cases H; simp; subst; simp; cbn [at_pc] in *; intros k Hk; unfold dwn_aborted, up_aborted in *; simp.
  all: try apply le_refl.
  all: unfold upd; repeat match goal with |- context [Nat.eqb ?k ?q] => destruct (Nat.eqb_spec k q) as [->|?]; simp end.
  all: try apply le_refl; try lia.
  all: try (destruct Hp as [Hp1 Hp2]).
  all: try (solve_le; fail).
Qed.

Lemma done_mono : forall a a', le_att a a' -> done_att a -> done_att a'.
Proof.
  intros a a' L [H|[H|H]]; [left; now apply (l_ctx _ _ L) | right; left; now apply (l_h _ _ L) | right; right].
  destruct (b_seen (a_b a)) as [x|] eqn:E; [|now elim H]. now rewrite (l_b _ _ L x E).
Qed.

Lemma cur_mono : forall c s l s', step c s l = Some s' -> s_cur s <= s_cur s'.
Proof.
  intros c s l s' H. destruct s as [m n dw fl p sent out]. step_cases H; simp; subst; simp; lia.
Qed.

Lemma new_step : forall c ls s l s', hist c ls s -> step c s l = Some s' ->
  forall i, s_cur s' < i -> a_h (s_att s' i) = HIdle /\ a_b (s_att s' i) = BIdle /\ ~ In (LUpTimer i) (ls ++ [l]).
Proof.
  intros c ls s l s' [Hg Hn Hp Ho] H. destruct s as [m n dw fl p sent out]. simp.
  assert (HN : forall l k, l <> LUpTimer k -> n < k -> a_h (m k) = HIdle /\ a_b (m k) = BIdle /\ ~ In (LUpTimer k) (ls ++ [l])).
  { intros l0 k H1 H2. destruct (Hn k H2) as (N1 & N2 & N3). repeat split; auto. intros Hi.
    apply in_app_or in Hi. destruct Hi as [Hi|[Hi|[]]]; auto. }
  step_cases H; simp; subst; simp; cbn [at_pc] in *; intros k Hk; unfold dwn_aborted, up_aborted in *; simp.
  all: try (apply HN; [discriminate | lia]; fail).
  all: unfold upd; repeat match goal with |- context [Nat.eqb ?k ?q] => destruct (Nat.eqb_spec k q) as [->|?]; simp end.
  all: try (apply HN; [discriminate | lia]; fail); try lia.
  all: try (match goal with Hn : forall i, _ < i -> _, Hk : _ < ?k |- _ => destruct (Hn k Hk) as (N1 & N2 & N3) end; congruence).
  all: apply HN; [congruence | lia].
Qed.

Lemma pc_main : forall c ls s dice s', hist c ls s -> main_step c dice s = Some s' -> at_pc c s' (s_pc s') (cur s').
Proof.
  intros c ls s dice s' [Hg Hn Hp Ho] H. destruct s as [m n dw fl p sent out]. simp.
  specialize (Hg n (le_n n)). 
  assert (UA : a_ctx (m n) || a_flag (m n) = true -> a_ctx (m n) = true).
  { intros U. apply orb_true_iff in U. destruct U as [U|U]; [exact U | exact (g_flag _ _ _ _ Hg U)]. }
  change (step c (St m n dw fl p sent out) (LMain dice) = Some s') in H.
  cbn [step] in H. unfold main_step in H; break H; try discriminate H; injection H as <-;
  simp; subst; simp; cbn [at_pc] in *; unfold dwn_aborted, up_aborted in *; simp; unfold cur, upd in *; simp;
  rewrite ?Nat.eqb_refl; simp; auto.
  - split; [discriminate | now apply Hp].
  - destruct Hp as [[Hp|Hp] Hb]; auto.
  - left. simp. now apply UA.
  - discriminate.
  - destruct Hp as [[Hc|[Hh E]] Hb]; [now left | right; left; congruence].
  - destruct Hp as [[Hc|[Hh E]] Hb]; [now left|]. destruct (g_hdr _ _ _ _ Hg Hh) as [o' E']. now rewrite E' in E.
  - destruct Hp as [Hp|Hp]; [now left | right]. destruct (g_bdy _ _ _ _ Hg Hp) as [b' [ok' E]]. rewrite E in Heqp1 |- *. cbn [b_seen] in Heqp1. now injection Heqp1 as <- <-.
  - destruct Hp as [Hp|Hp]; [now left | right; right; rewrite Hp; discriminate].
  - left. simp. now apply UA.
  - destruct Hp as [Hp|Hp]; [|exact Hp]. rewrite Hp in Heqb. discriminate.
  - right; right. rewrite Hp. discriminate.
  - destruct ok; [exact Hp | discriminate].
  - right; right. rewrite Hp. discriminate.
  - now exists body.
  - destruct Hp as [b Hp]. right; right. rewrite Hp. discriminate.
  - right; right. rewrite Hp. discriminate.
  - split; [exact Hp|]. apply andb_false_iff in Heqb. destruct Heqb as [E|E]; [now left | right].
    apply negb_false_iff in E. apply orb_true_iff. right. exact E.
  - now apply Hp.
  - destruct Hp as [Hp [Hr|Hr]]; [repeat split; auto | congruence].
  - destruct Hp as [Hp _]. apply done_mono with (a := m n); [|exact Hp]. constructor; simp; auto with bool.
  - destruct Hp as [Hp _]. apply done_mono with (a := m n); [|exact Hp]. constructor; simp; auto with bool.
Qed.

Lemma pc_sel : forall c ls s b s', hist c ls s -> sel_step s b = Some s' -> at_pc c s' (s_pc s') (cur s').
Proof.
  intros c ls s b s' [Hg Hn Hp Ho] H. destruct s as [m n dw fl p sent out]. simp.
  unfold sel_step in H; break H; try discriminate H; injection H as <-;
  simp; subst; simp; cbn [at_pc] in *; unfold cur, upd in *; simp; rewrite ?Nat.eqb_refl; simp; auto; destruct Hp; auto.
Qed.

Lemma pc_other : forall c ls s l s', hist c ls s -> goroutine_step s l = Some s' ->
  s_pc s' = s_pc s /\ s_cur s' = s_cur s /\ s_flag s' = s_flag s /\ s_sent s' = s_sent s /\ s_out s' = s_out s /\
  (s_dwn s = true -> s_dwn s' = true) /\
  (forall i, a_h (s_att s i) = HIdle -> a_h (s_att s' i) = HIdle) /\
  (forall i, a_b (s_att s i) = BIdle -> a_b (s_att s' i) = BIdle).
Proof.
  intros c ls s l s' _ H. destruct s as [m n dw fl p sent out].
  unfold goroutine_step in H; break H; try discriminate H; injection H as <-; simp; subst; simp; repeat split; auto;
  intros k Hk; unfold upd; repeat match goal with |- context [Nat.eqb ?k ?q] => destruct (Nat.eqb_spec k q) as [->|?]; simp end; congruence.
Qed.

Lemma pc_goroutine : forall c ls s l s', hist c ls s -> is_main l = false -> step c s l = Some s' -> at_pc c s' (s_pc s') (cur s').
Proof.
  intros c ls s l s' Hh Hl H. assert (HG : goroutine_step s l = Some s') by (destruct l; try discriminate Hl; exact H).
  pose proof (le_step c ls s l s' Hh H (s_cur s) (le_n _)) as L.
  destruct (pc_other c ls s l s' Hh HG) as (E1 & E2 & E3 & E4 & E5 & E6 & E7 & E8).
  destruct Hh as [Hg Hn Hp Ho]. specialize (Hg _ (le_n _)). unfold cur in *. rewrite E1, E2.
  specialize (E7 (s_cur s)). specialize (E8 (s_cur s)).
  destruct (s_pc s); cbn [at_pc] in *.
  - destruct Hp; auto.
  - destruct Hp. split; [now apply (l_hidle _ _ L) | auto].
  - destruct Hp as [[Hp|Hp] Hb]; split; auto; [left; now apply (l_ctx _ _ L) | right; now apply (l_hdr _ _ L)].
  - destruct Hp as [[Hp|[Hp Hq]] Hb]; split; auto; [left; now apply (l_ctx _ _ L) | right; split; [now apply (l_hdr _ _ L)|]].
    destruct (g_hdr _ _ _ _ Hg Hp) as [o' Eo]. now rewrite (l_hend _ _ L _ Eo), Hq, Eo.
  - now apply (l_bidle _ _ L).
  - destruct Hp; [left; now apply (l_ctx _ _ L) | right; now apply (l_bdy _ _ L)].
  - destruct Hp; [left; now apply (l_ctx _ _ L) | right; now apply (l_bend _ _ L)].
  - destruct Hp; [left; now apply (l_ctx _ _ L) | right; now apply (l_bend _ _ L)].
  - now apply (l_bend _ _ L).
  - now apply (l_bend _ _ L).
  - destruct Hp as [b Hp]. exists b. now apply (l_bend _ _ L).
  - now apply (l_bend _ _ L).
  - now apply (done_mono _ _ L).
  - destruct Hp as [Hp Hr]. split; [now apply (done_mono _ _ L)|]. unfold may_retry, dwn_aborted in *. rewrite E2, E3.
    destruct Hr as [Hr|Hr]; [now left | right]. apply orb_true_iff in Hr. apply orb_true_iff. destruct Hr; auto.
  - destruct Hp as [Hp [Hr Hf]]. split; [now apply (done_mono _ _ L)|]. unfold may_retry in *. now rewrite E2, E3.
  - now apply (done_mono _ _ L).
  - now apply (done_mono _ _ L).
  - now apply (done_mono _ _ L).
  - now apply (done_mono _ _ L).
  - exact I.
Qed.

Lemma old_step : forall c ls s l s', hist c ls s -> step c s l = Some s' ->
  forall i, i < s_cur s' -> done_att (s_att s' i).
Proof.
  intros c ls s l s' Hh H i Hi.
  assert (D : i <= s_cur s /\ done_att (s_att s i)).
  { destruct (Nat.lt_ge_cases i (s_cur s)) as [Hlt|Hge]; [split; [lia | now apply (h_old _ _ _ Hh)]|].
    destruct Hh as [Hg Hn Hp Ho]. destruct s as [m n dw fl p sent out]. simp.
    step_cases H; simp; subst; simp; try lia. cbn [at_pc] in Hp. assert (i = n) by lia. subst i. split; [lia | exact Hp]. }
  destruct D as [D1 D2]. exact (done_mono _ _ (le_step c ls s l s' Hh H i D1) D2).
Qed.

Lemma hist_step : forall c ls s l s', hist c ls s -> step c s l = Some s' -> hist c (ls ++ [l]) s'.
Proof.
  intros c ls s l s' Hh H. constructor.
  - exact (good_step c ls s l s' Hh H).
  - exact (new_step c ls s l s' Hh H).
  - destruct (is_main l) eqn:E.
    + destruct l; try discriminate E; [now apply (pc_main c ls s dice) | now apply (pc_sel c ls s b)].
    + now apply (pc_goroutine c ls s l).
  - exact (old_step c ls s l s' Hh H).
Qed.

Lemma reach_hist : forall c ls s, reach c ls s -> hist c ls s.
Proof. intros c ls s R. induction R as [|ls s l s' R IH H]; [apply hist_init | now apply hist_step with (s := s)]. Qed.

(** * Attempts and responses are bounded *)

Lemma attempts_bound : forall c ls s, exec c init ls = Some s ->
  (Z.of_nat (length (s_sent s)) <= Z.max 1 (c_max c))%Z.
Proof.
  intros c ls s H. destruct (reach_counts c ls s (exec_reach c ls s H)) as [K1 K2 K3 K4 K0 K5 K6 K7 K8]. lia.
Qed.

Lemma repeatable_mem : forall c, ~ repeatable c -> mem_str (w_method (c_down c)) repeatable_methods = false.
Proof.
  intros c H. destruct (mem_str (w_method (c_down c)) repeatable_methods) eqn:E; [|reflexivity].
  exfalso. apply H. now apply mem_str_In in E.
Qed.

Lemma attempts_once : forall c ls s, ~ repeatable c -> exec c init ls = Some s -> length (s_sent s) <= 1.
Proof.
  intros c ls s Hr H. destruct (reach_counts c ls s (exec_reach c ls s H)) as [K1 K2 K3 K4 K0 K5 K6 K7 K8].
  pose proof (K2 (repeatable_mem c Hr)). lia.
Qed.

Lemma attempts_same : forall c ls s, exec c init ls = Some s -> forall r, In r (s_sent s) -> r = c_request c.
Proof.
  intros c ls s H r Hr. destruct (reach_counts c ls s (exec_reach c ls s H)) as [K1 K2 K3 K4 K0 K5 K6 K7 K8].
  rewrite Forall_forall in K3. symmetry. now apply K3.
Qed.

Lemma one_response : forall c ls s, exec c init ls = Some s ->
  length (s_out s) <= 1 /\ (s_pc s = PDone -> length (s_out s) = 1).
Proof.
  intros c ls s H. destruct (reach_counts c ls s (exec_reach c ls s H)) as [K1 K2 K3 K4 K0 K5 K6 K7 K8]. split.
  - destruct (s_pc s); cbn [out_ok] in K5; try (rewrite K5; cbn; lia); try (destruct K5 as [r ->]; cbn; lia); exact K5.
  - intros E. rewrite E in K5. destruct K5 as [r ->]. reflexivity.
Qed.

Lemma handler_bound : forall c ls s, exec c init ls = Some s ->
  (Z.of_nat (main_count ls) < 24 * Z.max 1 (c_max c))%Z.
Proof.
  intros c ls s H. destruct (reach_counts c ls s (exec_reach c ls s H)) as [K1 K2 K3 K4 K0 K5 K6 K7 K8].
  assert (pos (s_pc s) <= 23) by (destruct (s_pc s) as [| | | | | | | | | | | [] | | | | | | | |]; cbn; lia). lia.
Qed.

(** * Progress *)

Lemma main_enabled : forall c s dice, s_pc s <> PSelHdr -> s_pc s <> PSelBody -> s_pc s <> PDone -> s_pc s <> PPanic ->
  exists s', step c s (LMain dice) = Some s'.
Proof.
  intros c s dice H1 H2 H3 H4. cbn [step]. unfold main_step.
  destruct (s_pc s) as [| | |o| | |b ok|b ok|b ok|b| |st b d| | | | | | | |]; try congruence; try (eexists; reflexivity).
  - destruct (c_ok c); eexists; reflexivity.
  - destruct o as [[rs|]|]; [destruct (up_aborted s)| |]; eexists; reflexivity.
  - destruct (b_seen (a_b (cur s))) as [[b ok]|]; eexists; reflexivity.
  - destruct (negb ok); [|destruct (a_resp (cur s))]; eexists; reflexivity.
  - destruct (valid_code (a_status (cur s))); eexists; reflexivity.
  - destruct st; try (eexists; reflexivity).
    + destruct (a_resp (cur s)); eexists; reflexivity.
    + destruct (a_resp (cur s)); [|destruct (looks_at_length (c_env c) (c_down c) d)]; eexists; reflexivity.
    + destruct (_ || _); [|destruct (a_resp (cur s))]; eexists; reflexivity.
    + destruct (a_resp (cur s)); eexists; reflexivity.
    + destruct (valid_code (df_status d)); eexists; reflexivity.
  - destruct (_ && _); eexists; reflexivity.
  - destruct (dwn_aborted s); eexists; reflexivity.
  - destruct (up_aborted s); eexists; reflexivity.
  - destruct (w_send_gzip (c_down c)); [|destruct (a_resp (cur s))]; eexists; reflexivity.
  - destruct (a_resp (cur s)); eexists; reflexivity.
Qed.

Lemma progress : forall c ls s, exec c init ls = Some s -> finished s \/
  (exists s', step c s (LMain 0) = Some s') \/
  (exists s', step c s (LSel CUp) = Some s') \/
  (exists s1 s', step c s (LUpTimer (s_cur s)) = Some s1 /\ step c s1 (LSel CUp) = Some s').
Proof.
  intros c ls s H. destruct (reach_hist c ls s (exec_reach c ls s H)) as [Hg Hn Hp Ho].
  assert (N : (s_pc s = PSelHdr \/ s_pc s = PSelBody) -> a_h (cur s) <> HIdle ->
    (exists s', step c s (LSel CUp) = Some s') \/
    (exists s1 s', step c s (LUpTimer (s_cur s)) = Some s1 /\ step c s1 (LSel CUp) = Some s')).
  { intros Hs Hi. destruct (a_ctx (cur s)) eqn:E.
    - left. cbn [step]. unfold sel_step. destruct Hs as [-> | ->]; rewrite E; eexists; reflexivity.
    - right. assert (T : step c s (LUpTimer (s_cur s)) = Some (with_atts (upd (s_cur s) (with_ctx true) (s_att s)) s)).
      { cbn [step goroutine_step]. unfold cur in *. rewrite E. destruct (a_h (s_att s (s_cur s))); congruence. }
      eexists. 
      assert (X : exists s', step c (with_atts (upd (s_cur s) (with_ctx true) (s_att s)) s) (LSel CUp) = Some s').
      { cbn [step]. unfold sel_step, cur, with_atts, upd. simp. rewrite Nat.eqb_refl. simp. destruct Hs as [-> | ->]; eexists; reflexivity. }
      destruct X as [s' X]. exists s'. split; [exact T | exact X]. }
  destruct (s_pc s) eqn:E; cbn [at_pc] in Hp;
    try (right; left; apply main_enabled; rewrite E; discriminate);
    try (left; unfold finished; rewrite E; auto; fail).
  - right. right. apply N; [now left | now apply Hp].
  - right. right. apply N; [now right|]. destruct (g_bh _ _ _ _ (Hg _ (le_n _)) Hp) as [rs [Hr _]]. unfold cur. rewrite Hr. discriminate.
Qed.

(** What the steps still to come can amount to. *)
Lemma can_finish : forall c n ls s, exec c init ls = Some s ->
  (24 * Z.max 1 (c_max c) - Z.of_nat (main_count ls) <= Z.of_nat n)%Z ->
  exists ls' s', forallb own_step ls' = true /\ exec c s ls' = Some s' /\ finished s'.
Proof.
  induction n as [|n IH]; intros ls s H Hn.
  - pose proof (handler_bound c ls s H). lia.
  - assert (G : forall l1 s1, exec c s l1 = Some s1 -> forallb own_step l1 = true -> 1 <= main_count l1 ->
       exists ls' s', forallb own_step ls' = true /\ exec c s ls' = Some s' /\ finished s').
    { intros l1 s1 H1 Hf Hc. destruct (IH (ls ++ l1)%list s1) as (l2 & s2 & F2 & E2 & D2).
      - now rewrite exec_app, H.
      - rewrite main_count_app. lia.
      - exists (l1 ++ l2)%list, s2. rewrite forallb_app, Hf, F2. repeat split; auto. now rewrite exec_app, H1. }
    destruct (progress c ls s H) as [F|[[s1 E1]|[[s1 E1]|[s1 [s2 [E1 E2]]]]]].
    + exists [], s. now repeat split.
    + apply (G [LMain 0] s1); [cbn [exec]; now rewrite E1 | reflexivity | cbn; lia].
    + apply (G [LSel CUp] s1); [cbn [exec]; now rewrite E1 | reflexivity | cbn; lia].
    + apply (G [LUpTimer (s_cur s); LSel CUp] s2); [cbn [exec]; now rewrite E1, E2 | reflexivity | cbn; lia].
Qed.

Lemma always_finishes : forall c ls s, exec c init ls = Some s ->
  exists ls' s', forallb own_step ls' = true /\ exec c s ls' = Some s' /\ finished s'.
Proof.
  intros c ls s H. apply (can_finish c (Z.to_nat (24 * Z.max 1 (c_max c)))) with (ls := ls); [exact H | lia].
Qed.

(** * Nothing is left running *)

Lemma none_running : forall c ls s, exec c init ls = Some s -> s_out s <> [] -> s_pc s <> PPanic -> forall i, i <= s_cur s ->
  a_ctx (s_att s i) = true \/ In (LDo i None) ls \/ exists b ok, In (LRead i b ok) ls.
Proof.
  intros c ls s H Hout Hpn i Hi. pose proof (exec_reach c ls s H) as R.
  destruct (reach_hist c ls s R) as [Hg Hn Hp Ho].
  assert (D : done_att (s_att s i)).
  { destruct (Nat.lt_ge_cases i (s_cur s)) as [Hlt|Hge]; [now apply Ho|]. assert (i = s_cur s) by lia. subst i.
    pose proof (k_out _ _ _ (reach_counts c ls s R)) as K. destruct (s_pc s); cbn [out_ok at_pc] in *; try congruence; exact Hp. }
  destruct D as [D|[D|D]]; [now left | right; left | right; right].
  - exact (g_h _ _ _ _ (Hg i Hi) None D).
  - destruct (b_seen (a_b (s_att s i))) as [[b ok]|] eqn:E; [|now elim D]. exists b, ok. exact (g_b _ _ _ _ (Hg i Hi) b ok E).
Qed.

(** * The downstream timer *)

Definition after_dwn (c : conf) (sent : nat) (s : state) : Prop :=
  s_dwn s = true /\ 
  (s_pc s = PPanic -> s_out s = [] -> c_ok c = false) /\
  match s_pc s with
  | PStart => s_out s = [] /\ length (s_sent s) <= sent
  | PSelHdr | PRetHdr | PProc _ | PSelBody | PRetBody | PCheck1 _ _ | PRetry | PFin1 =>
      s_out s = [] /\ length (s_sent s) <= S sent
  | PLog1 | PLog2 | PLog3 | PDone => (exists dice, s_out s = [gave_up_downstream c dice]) /\ length (s_sent s) <= S sent
  | PPanic => (s_out s = [] \/ exists dice, s_out s = [gave_up_downstream c dice]) /\ length (s_sent s) <= S sent
  | _ => False
  end.

Lemma after_dwn_step : forall c k s l s', after_dwn c k s -> step c s l = Some s' -> after_dwn c k s'.
Proof.
  intros c k s l s' A H. unfold after_dwn in *. destruct s as [m n dw fl p sent out]. simp. destruct A as (A1 & A2 & A3).
  step_cases H; simp; subst; simp; try contradiction; cbn [dwn_aborted s_dwn orb negb] in *; rewrite ?andb_false_r in *; try discriminate;
  repeat match goal with A : _ /\ _ |- _ => destruct A end; subst; repeat split; auto; try congruence; try lia.
  all: try (rewrite app_length; cbn; lia).
  all: try (eexists; reflexivity).
  all: try (intros _ E0; match goal with A : exists _, _ |- _ => destruct A; congruence end).
Qed.

Lemma after_dwn_exec : forall c k ls s s', after_dwn c k s -> exec c s ls = Some s' -> after_dwn c k s'.
Proof.
  induction ls as [|l ls IH]; intros s s' A H; cbn [exec] in H; [now injection H as <-|].
  destruct (step c s l) as [s1|] eqn:E; [|discriminate]. exact (IH s1 s' (after_dwn_step c k s l s1 A E) H).
Qed.

Lemma dwn_timeout : forall c ls1 s1 ls2 s2, exec c init ls1 = Some s1 -> undecided s1 -> s_dwn s1 = true ->
  exec c s1 ls2 = Some s2 ->
  (s_out s2 = [] \/ exists dice, s_out s2 = [gave_up_downstream c dice]) /\
  (s_pc s2 = PDone -> exists dice, s_out s2 = [gave_up_downstream c dice]) /\
  length (s_sent s2) <= S (length (s_sent s1)) /\
  (s_pc s2 = PPanic -> s_out s2 = [] -> c_ok c = false).
Proof.
  intros c ls1 s1 ls2 s2 H1 U D H2.
  assert (A : after_dwn c (length (s_sent s1)) s1).
  { pose proof (k_out _ _ _ (reach_counts c ls1 s1 (exec_reach c ls1 s1 H1))) as K. unfold after_dwn, undecided in *.
    destruct (s_pc s1); cbn [out_ok] in *; try contradiction; repeat split; auto; congruence. }
  pose proof (after_dwn_exec c _ ls2 s1 s2 A H2) as (A1 & A2 & A3).
  destruct (s_pc s2) eqn:E; try contradiction; destruct A3 as [A3 A4]; repeat split; auto; try congruence; try lia.
Qed.

(** * Where a status comes from *)

Definition after_status (st : stage) : Prop := match st with StHeader | StStatus => False | _ => True end.

Definition some_status (ls : list label) (z : Z) : Prop := exists i rs, answered ls i rs /\ z = ur_status rs.

Lemma some_status_app : forall ls l z, some_status ls z -> some_status (ls ++ [l]) z.
Proof. intros ls l z (i & rs & H1 & H2). exists i, rs. split; [now apply old_in | exact H2]. Qed.

Record stat (ls : list label) (s : state) : Prop := {
  x_cur : past_start (a_b (cur s)) -> some_status ls (a_status (cur s));
  x_draft : match s_pc s with PBuild st _ d => after_status st -> some_status ls (df_status d) | _ => True end }.

Lemma stat_step : forall c ls s l s', hist c ls s -> stat ls s -> step c s l = Some s' -> stat (ls ++ [l]) s'.
Proof.
  intros c ls s l s' Hh [X1 X2] H. destruct Hh as [Hg Hn Hp Ho]. destruct s as [m n dw fl p sent out]. simp. unfold cur in *. simp.
  assert (ST : forall i rs, a_b (m i) = BStart rs -> some_status ls (ur_status rs)).
  { intros i rs E. destruct (Nat.le_gt_cases i n) as [Hi|Hi].
    - destruct (g_bh _ _ _ _ (Hg i Hi)) as [rs' [E1 E2]]; [congruence|]. rewrite (E2 rs E). exists i, rs'.
      split; [|reflexivity]. apply (g_h _ _ _ _ (Hg i Hi)). now rewrite E1.
    - destruct (Hn i Hi) as (_ & E1 & _). congruence. }
  assert (AP : forall i, past_start (a_b (m i)) -> a_b (m i) <> BIdle) by (intros i Hi E; now rewrite E in Hi).
  step_cases H; simp; subst; simp; cbn [at_pc] in *; constructor; unfold cur, upd in *; simp; auto using some_status_app.
  all: try (now intros HH; apply some_status_app; auto).
  all: unfold upd in *; rewrite ?Nat.eqb_refl; simp; auto using some_status_app.
  all: try (now intros HH; apply some_status_app; auto).
  all: repeat match goal with |- context [Nat.eqb ?k ?q] => destruct (Nat.eqb_spec k q) as [->|?]; simp end; auto using some_status_app.
  all: try (now intros HH; apply some_status_app; auto).
  all: cbn [after_status past_start].
  all: try (intros []; fail).
  all: try (intros _; apply some_status_app, X1; rewrite Hp; exact I).
  all: try (intros _; apply some_status_app, X2; exact I).
  all: try (intros _; apply some_status_app, X1;
            match goal with E : a_b _ = _ |- past_start (a_b _) => rewrite E; exact I end).
  all: try (intros _; apply some_status_app; eapply ST; eassumption).
  all: try (destruct Hp as [_ Hp]; rewrite Hp; intros []; fail).
  all: destruct p; auto; intros HH; apply some_status_app, X2, HH.
Qed.

Lemma reach_stat : forall c ls s, reach c ls s -> stat ls s.
Proof.
  intros c ls s H. induction H as [|ls s l s' H IH Hs].
  - constructor; cbn; [intros [] | exact I].
  - apply (stat_step c ls s l s'); auto. now apply reach_hist.
Qed.

(** * What is answered *)

Lemma not_retry : forall c s, may_retry c s = false -> repeatable c -> (c_max c <= Z.of_nat (S (s_cur s)))%Z.
Proof.
  intros c s H Hr. unfold may_retry in H.
  assert (M : mem_str (w_method (c_down c)) repeatable_methods = true) by (apply mem_str_In; exact Hr).
  rewrite M in H. cbn [andb] in H. apply Z.ltb_ge in H. lia.
Qed.

Lemma kinds : forall c ls s l s', exec c init ls = Some s -> step c s l = Some s' -> s_out s = [] ->
  s_out s' = [] \/ exists r, s_out s' = [r] /\ kind c ls s r.
Proof.
  intros c ls s l s' H Hs Ho. pose proof (exec_reach c ls s H) as R.
  pose proof (reach_counts c ls s R) as K. pose proof (reach_hist c ls s R) as Hh. pose proof (reach_stat c ls s R) as Hx.
  destruct K as [K1 K2 K3 K4 K0 K5 K6 K7 K8]. destruct Hh as [Hg Hn Hp Hol]. destruct Hx as [X1 X2].
  pose proof (Hg _ (le_n _)) as G. fold (cur s) in G.
  assert (EX : s_pc s = PFin2 -> may_retry c s = false -> exhausted c s).
  { intros Ep Hm Hr.
    pose proof (not_retry c s Hm Hr). rewrite Ep in K0. cbn [pos Nat.eqb] in K0. specialize (K0 ltac:(discriminate)). lia. }
  destruct s as [m n dw fl p sent out]. simp. subst out. unfold cur in *. simp.
  step_cases Hs; simp; subst; simp; try (now left); right; cbn [at_pc app] in *; eexists; (split; [reflexivity|]).
  - right. right. right. destruct Hp as [b Hp]. destruct X1 as (k & rs & A & E); [rewrite Hp; exact I|].
    exists k, rs. split; [exact A|exact E].
  - right. right. right. destruct X2 as (k & rs & A & E); [exact I|]. exists k, rs. split; [exact A|exact E].
  - left. exists dice. split; [reflexivity|]. apply K7. destruct dw; [reflexivity|]. cbn in *. auto.
  - right. left. destruct Hp as (_ & Hm & Hf). cbn [s_flag] in Hf. exists dice. repeat split; [|now apply EX].
    unfold up_aborted, cur in *. simp. apply orb_true_iff in Heqb.
    destruct (g_ctx _ _ _ _ G) as [T|T]; [destruct Heqb; [assumption|now apply (g_flag _ _ _ _ G)] | exact T | congruence].
  - right. right. left. destruct Hp as (_ & Hm & Hf). cbn [s_flag] in Hf. exists dice. repeat split; [|now apply EX].
    intros T. apply (g_timer _ _ _ _ G) in T. unfold up_aborted, cur in *. simp. now rewrite T in Heqb.
Qed.
