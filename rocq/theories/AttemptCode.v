(** Proofs for Thm_AttemptCode: the status in lines about attempts that failed. *)
From Coq Require Import String Ascii List Bool ZArith NArith Lia.
From Verif Require Import GoStr Header Exchange ExchangeProofs Machine MachineSpec MachineProofs MachineTimely AttemptLog AttemptLogSpec AttemptLogProofs.
Import ListNotations.
Local Open Scope string_scope.

Lemma line_step : forall c ls s e, In e (run_lines c s ls) ->
  exists ls1 l ls2 s1 s2, ls = (ls1 ++ l :: ls2)%list /\ exec c s ls1 = Some s1 /\ step c s1 l = Some s2 /\ In e (step_lines c s1 l s2).
Proof.
  intros c. induction ls as [|l ls IH]; intros s e H; cbn [run_lines] in H; [destruct H|]. destruct (step c s l) as [s'|] eqn:E; [|destruct H].
  apply in_app_iff in H. destruct H as [H|H].
  - exists [], l, ls, s, s'. now repeat split.
  - destruct (IH s' e H) as (ls1 & l' & ls2 & s1 & s2 & -> & H1 & H2 & H3). exists (l :: ls1)%list, l', ls2, s1, s2. cbn [exec app]. rewrite E. now repeat split.
Qed.

Lemma proc_seen : forall c ls s, reach c ls s -> forall o, s_pc s = PProc (Some o) -> h_seen (a_h (cur s)) = Some o.
Proof.
  intros c ls s R. induction R as [|ls s l s' R IH H]; [discriminate|]. intros o P. pose proof (reach_hist c ls s R) as Hh. pose proof (le_step c ls s l s' Hh H (s_cur s) (le_n _)) as Le.
  assert (Q : (s_pc s = PProc (Some o) /\ s_cur s' = s_cur s) \/ (h_seen (a_h (cur s)) = Some o /\ s_cur s' = s_cur s)).
  { clear IH Hh Le R. destruct s as [m n dw fl p sent out]. step_cases H; simp; subst; simp; try discriminate P; try (left; split; [exact P|reflexivity]).
    all: try (right; split; [injection P as P; exact P|reflexivity]). all: try (left; now split). }
  unfold cur. destruct Q as [[Q ->]|[Q ->]]; apply (l_h _ _ Le); [exact (IH o Q)|exact Q].
Qed.

Lemma no_prior : forall o n m, m <> Unsuccessful o -> ~ In (Unsuccessful o) (repeat PriorAborted n ++ [m]).
Proof. intros o n m N H. apply in_app_iff in H. destruct H as [H|[H|[]]]; [apply repeat_spec in H; discriminate H|congruence]. Qed.

(** The status in a line is what the handler sees then, or saw before. *)
Lemma messages_code : forall c ls s l o, reach c ls s -> In (Unsuccessful o) (messages c s l) ->
  (o = None \/ o = code_of (h_seen (a_h (cur s)))) /\
  (a_ctx (cur s) = true \/ o = code_of (h_seen (a_h (cur s))) /\ exists p, a_h (cur s) = HEnd p).
Proof.
  intros c ls s l o R H. pose proof (reach_hist c ls s R) as Hh. pose proof (h_pc _ _ _ Hh) as Hp. pose proof (h_good _ _ _ Hh (s_cur s) (le_n _)) as G. fold (cur s) in G.
  pose proof (proc_seen c ls s R) as Ps.
  assert (B : forall b ok, a_b (cur s) = BEnd b ok -> exists p, a_h (cur s) = HEnd p).
  { intros b ok E. destruct (g_bh _ _ _ _ G) as (rs & X & _); [rewrite E; discriminate|]. now exists (Some rs). }
  unfold messages in H. destruct (s_pc s) as [| | |p| | |b ok|b ok|b ok|b| |st b d| | | | | | | |] eqn:P; try (destruct H; fail); try (destruct l; destruct H; fail).
  - destruct l as [dice|[]|? ?|?|?|?|? ? ?|?|?|?|]; try (destruct H; fail); try (destruct H as [H|[]]; discriminate H). elim (no_prior o (S (s_cur s)) HeaderAborted ltac:(discriminate) H).
  - destruct l; try (destruct H; fail). cbn [at_pc] in Hp. destruct Hp as [Hp _].
    assert (E : o = code_of p).
    { destruct p as [[rs|]|]; [destruct (up_aborted s); [|destruct H]| |]; destruct H as [H|[]]; injection H as <-; reflexivity. }
    split.
    + destruct p as [q|]; [right; rewrite E, (Ps q eq_refl); reflexivity|left; exact E].
    + destruct Hp as [Hp|[Hp Eq]]; [now left|]. right. split; [now rewrite E, Eq|]. destruct (g_hdr _ _ _ _ G Hp) as [q Q]. now exists q.
  - destruct l as [dice|[]|? ?|?|?|?|? ? ?|?|?|?|]; try (destruct H; fail); try (destruct H as [H|[]]; discriminate H). elim (no_prior o (S (s_cur s)) BodyAborted ltac:(discriminate) H).
  - destruct l; try (destruct H; fail). destruct (dwn_aborted s); [|destruct H]. destruct H as [H|[]]. injection H as <-. cbn [at_pc] in Hp. split; [now right|].
    destruct Hp as [Hp|Hp]; [now left|right]. split; [reflexivity|exact (B _ _ Hp)].
  - destruct l; try (destruct H; fail). destruct (up_aborted s); [|destruct H]. destruct H as [H|[]]. injection H as <-. cbn [at_pc] in Hp. split; [now right|].
    destruct Hp as [Hp|Hp]; [now left|right]. split; [reflexivity|exact (B _ _ Hp)].
  - destruct l; try (destruct H; fail). cbn [at_pc] in Hp.
    assert (E : o = code_of (h_seen (a_h (cur s)))).
    { destruct (a_resp (cur s)) as [rs|]; [destruct (ok && Z.ltb (ur_status rs) 500); [destruct (h_seen (a_h (cur s))) as [[up|]|]; (destruct H; fail) || (destruct H as [H|[]]; discriminate H)|]|destruct ok; [destruct H|]];
        destruct H as [H|[]]; injection H as <-; reflexivity. }
    split; [now right|]. right. split; [exact E|exact (B _ _ Hp)].
  - exfalso. destruct st, l; try (destruct H; fail). repeat match type of H with In _ (if ?x then _ else _) => destruct x end; destruct H as [H|[]]; discriminate H.
  - exfalso. destruct l; try (destruct H; fail). destruct (_ && _); [destruct H|destruct H as [H|[]]; discriminate H].
Qed.

Lemma failure_code : forall c ls s, exec c init ls = Some s -> forall e o, In e (attempt_lines c ls) -> al_message e = Unsuccessful o ->
  exists n, of_attempt c (S n) e /\
    (forall z, o = Some z -> (0 < z)%Z /\ exists rs, answered ls n rs /\ ur_status rs = z) /\
    (~ In (LUpTimer n) ls -> ~ In LDwnTimer ls -> forall rs, answered ls n rs -> (0 < ur_status rs)%Z -> o = Some (ur_status rs)).
Proof.
  intros c ls s E e o He Hm. unfold attempt_lines in He. destruct He as [<-|He]; [discriminate Hm|].
  destruct (line_step c ls init e He) as (ls1 & l & ls2 & s1 & s2 & -> & E1 & E2 & H). unfold step_lines in H. apply in_app_iff in H.
  destruct H as [H|H]; [|destruct (Nat.ltb _ _); [destruct H as [<-|[]]; discriminate Hm|destruct H]].
  apply in_map_iff in H. destruct H as (m & <- & H). cbn [attempt_line al_message] in Hm. subst m. exists (s_cur s1). split; [reflexivity|].
  pose proof (exec_reach c ls1 s1 E1) as R. pose proof (reach_hist c ls1 s1 R) as Hh. pose proof (h_good _ _ _ Hh (s_cur s1) (le_n _)) as G. fold (cur s1) in G.
  destruct (messages_code c ls1 s1 l o R H) as [M1 M2]. split.
  - intros z ->. destruct M1 as [M1|M1]; [discriminate M1|]. destruct (h_seen (a_h (cur s1))) as [[rs|]|] eqn:Sn; cbn [code_of] in M1; try discriminate M1.
    destruct (Z.gtb_spec (ur_status rs) 0) as [L|L]; [|discriminate M1]. injection M1 as ->. split; [lia|]. exists rs. split; [|reflexivity].
    apply in_app_iff. left. exact (g_h _ _ _ _ G _ Sn).
  - intros T1 T2 rs A L. destruct M2 as [M2|[M2 [p Ep]]].
    + exfalso. destruct (g_ctx _ _ _ _ G M2) as [X|X]; [apply T1; apply in_app_iff; now left|]. apply T2. apply in_app_iff. left.
      pose proof (reach_counts c ls1 s1 R) as K. now apply (k_dwn _ _ _ K), (k_flag _ _ _ K).
    + assert (Sn : h_seen (a_h (cur s1)) = Some p) by now rewrite Ep.
      assert (Q : In (LDo (s_cur s1) p) (ls1 ++ l :: ls2)) by (apply in_app_iff; left; exact (g_h _ _ _ _ G _ Sn)).
      rewrite (do_once c _ s _ _ _ E Q A) in Sn. rewrite M2, Sn. cbn [code_of]. destruct (Z.gtb_spec (ur_status rs) 0); [reflexivity|lia].
Qed.
