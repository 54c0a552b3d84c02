(** Proofs about the bodies closed and the lines logged along runs. *)
From Coq Require Import String Ascii List Bool ZArith NArith Lia.
From Verif Require Import GoStr Header Exchange Machine MachineSpec MachineProofs MachineTimely JsonProofs JsonSpec Json Startup AttemptLog AttemptLogSpec.
Import ListNotations.
Local Open Scope string_scope.

(** * Runs, one step at a time at the end *)

Lemma closed_app : forall c ls1 s ls2, closed_bodies c s (ls1 ++ ls2) =
  (closed_bodies c s ls1 ++ match exec c s ls1 with Some s' => closed_bodies c s' ls2 | None => [] end)%list.
Proof.
  induction ls1 as [|l ls1 IH]; intros s ls2; [reflexivity|]. cbn [app closed_bodies exec].
  destruct (step c s l) as [s'|]; [|reflexivity]. now rewrite IH, app_assoc.
Qed.

Lemma lines_app : forall c ls1 s ls2, run_lines c s (ls1 ++ ls2) =
  (run_lines c s ls1 ++ match exec c s ls1 with Some s' => run_lines c s' ls2 | None => [] end)%list.
Proof.
  induction ls1 as [|l ls1 IH]; intros s ls2; [reflexivity|]. cbn [app run_lines exec].
  destruct (step c s l) as [s'|]; [|reflexivity]. now rewrite IH, app_assoc.
Qed.

Lemma reach_exec : forall c ls s, reach c ls s -> exec c init ls = Some s.
Proof.
  intros c ls s H. induction H as [|ls s l s' H IH Hs]; [reflexivity|]. rewrite exec_app, IH. cbn [exec]. now rewrite Hs.
Qed.

Lemma closed_snoc : forall c ls s l s', reach c ls s -> step c s l = Some s' ->
  closed_bodies c init (ls ++ [l]) = (closed_bodies c init ls ++ deferred s l)%list.
Proof.
  intros c ls s l s' H Hs. rewrite closed_app, (reach_exec c ls s H). cbn [closed_bodies]. now rewrite Hs, app_nil_r.
Qed.

Lemma lines_snoc : forall c ls s l s', reach c ls s -> step c s l = Some s' ->
  attempt_lines c (ls ++ [l]) = (attempt_lines c ls ++ step_lines c s l s')%list.
Proof.
  intros c ls s l s' H Hs. unfold attempt_lines. rewrite lines_app, (reach_exec c ls s H). cbn [run_lines]. now rewrite Hs, app_nil_r.
Qed.

(** * Bodies *)

(** The handler has looked for the response of the current attempt. *)
Definition looked (p : pc) : bool := match p with PStart | PSelHdr | PRetHdr => false | _ => true end.

Definition cared (C : list nat) (i : nat) (a : att) : Prop :=
  In i C \/ a_ctx a = true \/ h_seen (a_h a) = Some None \/ a_h a = HIdle.

Record owed (c : conf) (ls : list label) (s : state) : Prop := {
  w_do : forall i o, In (LDo i o) ls -> i <= s_cur s /\ h_seen (a_h (s_att s i)) = Some o;
  w_care : forall i, i < s_cur s \/ (i = s_cur s /\ looked (s_pc s) = true) -> cared (closed_bodies c init ls) i (s_att s i);
  w_old : forall i, In i (closed_bodies c init ls) -> i < s_cur s \/ (i = s_cur s /\ looked (s_pc s) = true);
  w_got : forall i, In i (closed_bodies c init ls) -> exists rs, In (LDo i (Some rs)) ls;
  w_once : NoDup (closed_bodies c init ls) }.

Lemma nodup_snoc : forall (A : Type) (l : list A) x, NoDup l -> ~ In x l -> NoDup (l ++ [x]).
Proof.
  intros A l x. induction l as [|y l IH]; intros H N; cbn.
  - constructor; [intros []|constructor].
  - inversion H as [|? ? H1 H2]; subst. constructor.
    + rewrite in_app_iff. intros [X|[X|[]]]; [contradiction|subst]. apply N. now left.
    + apply IH; [assumption|]. intro X. apply N. now right.
Qed.

(** Steps leave the attempts before the current one, and the current one once it was looked at, as they are
    apart from moving on. *)
Lemma idle_kept : forall c s l s' i, step c s l = Some s' ->
  i < s_cur s \/ (i = s_cur s /\ looked (s_pc s) = true) -> a_h (s_att s i) = HIdle -> a_h (s_att s' i) = HIdle.
Proof.
  intros c s l s' i H Hi Hh. destruct s as [m n dw fl p sent out]. simp.
  step_cases H; simp; subst; simp; cbn [looked] in *; unfold upd;
    repeat match goal with |- context [Nat.eqb ?k ?q] => destruct (Nat.eqb_spec k q) as [->|?]; simp end;
    try assumption; try congruence; destruct Hi as [Hi|[Hi Hj]]; try lia; try discriminate.
Qed.

Lemma looked_on : forall c s l s', step c s l = Some s' -> s_cur s' = s_cur s -> looked (s_pc s) = true -> looked (s_pc s') = true.
Proof.
  intros c s l s' H Hc Hl. destruct s as [m n dw fl p sent out]. simp.
  step_cases H; simp; subst; simp; cbn [looked] in *; try reflexivity; try assumption; try discriminate; try lia;
    repeat match goal with |- context [if ?b then _ else _] => destruct b end; reflexivity.
Qed.

(** When the handler looks, either the headers are there or the attempt is cancelled. *)
Lemma first_look : forall c ls s l s', hist c ls s -> step c s l = Some s' -> looked (s_pc s) = false -> looked (s_pc s') = true ->
  s_cur s' = s_cur s /\ (cared (deferred s l) (s_cur s) (s_att s' (s_cur s))).
Proof.
  intros c ls s l s' Hh H Hl Hl'. pose proof (h_pc _ _ _ Hh) as Hp. pose proof (h_good _ _ _ Hh (s_cur s) (le_n _)) as G.
  destruct s as [m n dw fl p sent out]. unfold cared, deferred, cur in *. simp.
  step_cases H; simp; subst; simp; cbn [looked at_pc] in *; try discriminate; try congruence; (split; [reflexivity|]).
  - right. right. right. now destruct Hp.
  - destruct Hp as [[Hp|Hp] _]; [right; now left|]. destruct (g_hdr _ _ _ _ G Hp) as [o Ho]. rewrite Ho. cbn [h_seen].
    destruct o as [rs|]; [left; now left|right; right; now left].
Qed.

Lemma deferred_looks : forall s l i, In i (deferred s l) -> i = s_cur s /\ s_pc s = PRetHdr /\ (exists d, l = LMain d) /\
  exists rs, h_seen (a_h (cur s)) = Some (Some rs).
Proof.
  intros s l i H. unfold deferred in H. destruct (s_pc s); try destruct H. destruct l; try destruct H.
  destruct (h_seen _) as [[rs|]|]; [destruct H as [<-|[]]; eauto 8|elim H|elim H].
Qed.

Lemma owed_step : forall c ls s l s', reach c ls s -> owed c ls s -> step c s l = Some s' -> owed c (ls ++ [l]) s'.
Proof.
  intros c ls s l s' R [D C O G N] H. pose proof (reach_hist c ls s R) as Hh.
  pose proof (cur_mono c s l s' H) as Hm.
  assert (Hc : s_cur s' = s_cur s \/ (s_cur s' = S (s_cur s) /\ looked (s_pc s) = true /\ looked (s_pc s') = false)).
  { clear - H. destruct s as [m n dw fl p sent out]. step_cases H; simp; subst; simp; cbn [looked]; tauto. }
  constructor.
  - intros i o Hi. apply in_app_or in Hi. destruct Hi as [Hi|[->|[]]].
    + destruct (D i o Hi) as [D1 D2]. split; [lia|]. exact (l_h _ _ (le_step c ls s l s' Hh H i D1) o D2).
    + cbn [step goroutine_step] in H. destruct (a_h (s_att s i)) eqn:E; try discriminate H. injection H as <-. simp. unfold upd. rewrite Nat.eqb_refl.
      simp. split; [|reflexivity]. destruct (Nat.le_gt_cases i (s_cur s)) as [L|L]; [exact L|].
      destruct (h_new _ _ _ Hh i L) as [X _]. congruence.
  - rewrite (closed_snoc c ls s l s' R H). intros i Hi.
    assert (Old : i < s_cur s \/ (i = s_cur s /\ looked (s_pc s) = true) -> cared (closed_bodies c init ls ++ deferred s l) i (s_att s' i)).
    { intros Hj. assert (L : i <= s_cur s) by lia. pose proof (le_step c ls s l s' Hh H i L) as Le.
      destruct (C i Hj) as [X|[X|[X|X]]].
      - left. apply in_or_app. now left.
      - right. left. now apply (l_ctx _ _ Le).
      - right. right. left. now apply (l_h _ _ Le).
      - right. right. right. exact (idle_kept c s l s' i H Hj X). }
    destruct Hc as [Hc|(Hc & L1 & L2)].
    + rewrite Hc in Hi. destruct Hi as [Hi|[-> Hi]]; [apply Old; now left|].
      destruct (looked (s_pc s)) eqn:E; [apply Old; now right|].
      destruct (first_look c ls s l s' Hh H E Hi) as [_ [X|X]]; [left; apply in_or_app; now right|right; exact X].
    + rewrite Hc, L2 in Hi. destruct Hi as [Hi|[_ Hi]]; [|discriminate]. apply Old. assert (E : i < s_cur s \/ i = s_cur s) by lia. tauto.
  - rewrite (closed_snoc c ls s l s' R H). intros i Hi. apply in_app_or in Hi. destruct Hi as [Hi|Hi].
    + destruct (O i Hi) as [X|[X Y]]; [left; lia|]. destruct Hc as [Hc|(Hc & L1 & L2)]; [|left; lia].
      right. split; [congruence|]. exact (looked_on c s l s' H Hc Y).
    + destruct (deferred_looks s l i Hi) as (E & P & (d & ->) & _). right.
      cbn [step] in H. unfold main_step in H. rewrite P in H. injection H as <-. now split.
  - rewrite (closed_snoc c ls s l s' R H). intros i Hi. apply in_app_or in Hi. destruct Hi as [Hi|Hi].
    + destruct (G i Hi) as [rs X]. exists rs. apply in_or_app. now left.
    + destruct (deferred_looks s l i Hi) as (E & P & _ & rs & Hr). subst i. exists rs. apply in_or_app. left.
      exact (g_h _ _ _ _ (h_good _ _ _ Hh (s_cur s) (le_n _)) _ Hr).
  - rewrite (closed_snoc c ls s l s' R H). unfold deferred. destruct (s_pc s) eqn:P; try (rewrite app_nil_r; exact N).
    destruct l; try (rewrite app_nil_r; exact N). destruct (h_seen _) as [[rs|]|]; try (rewrite app_nil_r; exact N).
    apply nodup_snoc; [exact N|]. intro X. destruct (O _ X) as [Y|[_ Y]]; [lia|discriminate Y].
Qed.

Lemma reach_owed : forall c ls s, reach c ls s -> owed c ls s.
Proof.
  intros c ls s H. induction H as [|ls s l s' H IH Hs]; [|exact (owed_step c ls s l s' H IH Hs)].
  constructor; cbn; try (intros; contradiction); [|constructor]. intros i [X|[_ X]]; [lia|discriminate].
Qed.

(** C98 *)
Lemma bodies_closed : forall c ls s, exec c init ls = Some s -> finished s ->
  forall i rs, In (LDo i (Some rs)) ls -> In i (closed_bodies c init ls) \/ a_ctx (s_att s i) = true.
Proof.
  intros c ls s H Hf i rs Hi. pose proof (reach_owed c ls s (exec_reach c ls s H)) as [D C _ _ _].
  destruct (D i _ Hi) as [L E]. destruct (C i) as [X|[X|[X|X]]]; auto.
  - destruct (Nat.eq_dec i (s_cur s)) as [->|]; [right; split; [reflexivity|]; destruct Hf as [->| ->]; reflexivity|left; lia].
  - congruence.
  - rewrite X in E. discriminate E.
Qed.

Lemma ctx_reason : forall c ls s i, exec c init ls = Some s -> a_ctx (s_att s i) = true -> i <= s_cur s -> In (LUpTimer i) ls \/ In LDwnTimer ls.
Proof.
  intros c ls s i H X Hi. pose proof (exec_reach c ls s H) as R. pose proof (reach_counts c ls s R) as K.
  destruct (g_ctx _ _ _ _ (h_good _ _ _ (reach_hist c ls s R) i Hi) X) as [Y|Y]; [now left|]. right. apply (k_dwn _ _ _ K), (k_flag _ _ _ K), Y.
Qed.

Lemma released : forall c ls s, exec c init ls = Some s -> finished s ->
  forall i rs, answered ls i rs -> In i (closed_bodies c init ls) \/ (a_ctx (s_att s i) = true /\ (In (LUpTimer i) ls \/ In LDwnTimer ls)).
Proof.
  intros c ls s H Hf i rs Hi. destruct (bodies_closed c ls s H Hf i rs Hi) as [X|X]; [now left|]. right. split; [exact X|].
  apply (ctx_reason c ls s i H X). exact (proj1 (w_do _ _ _ (reach_owed c ls s (exec_reach c ls s H)) i _ Hi)).
Qed.

Lemma closed_once : forall c ls s, exec c init ls = Some s ->
  NoDup (closed_bodies c init ls) /\ forall i, In i (closed_bodies c init ls) -> exists rs, In (LDo i (Some rs)) ls.
Proof. intros c ls s H. pose proof (reach_owed c ls s (exec_reach c ls s H)) as [_ _ _ G N]. now split. Qed.

(** * Lines *)

Definition is_begin (m : message) : bool := match m with Initialized => true | _ => false end.
Definition is_success (m : message) : bool := match m with Successful _ => true | _ => false end.
Definition is_outcome (m : message) : bool := match m with Successful _ | Unsuccessful _ => true | _ => false end.
Definition is_stop (m : message) : bool := match m with RetriesStopped => true | _ => false end.

Definition pick (f : message -> bool) (L : list aline) : list aline := filter (fun e => f (al_message e)) L.

Lemma pick_app : forall f a b, pick f (a ++ b) = (pick f a ++ pick f b)%list.
Proof. intros. apply filter_app. Qed.

Lemma pick_lines : forall f c n ms, pick f (map (attempt_line c n) ms) = map (attempt_line c n) (filter f ms).
Proof.
  intros f c n ms. induction ms as [|m ms IH]; [reflexivity|]. cbn [map pick filter attempt_line al_message] in *.
  destruct (f m); cbn [map]; now rewrite <- IH.
Qed.

Lemma filter_repeat : forall (f : message -> bool) m n, f m = false -> filter f (repeat m n) = [].
Proof. intros f m n H. induction n as [|n IH]; [reflexivity|]. cbn. now rewrite H. Qed.

(** Where the handler is, as far as lines are concerned *)
Inductive situation := Open | Won | Lost | Given | Ended | Burst.
Definition sit (p : pc) : situation :=
  match p with
  | PStart | PSelHdr | PRetHdr | PProc _ | PSelBody | PRetBody | PCheck1 _ _ | PCheck2 _ _ | PCheck3 _ _ => Open
  | PKind _ | PErr | PBuild _ _ _ => Won
  | PRetry => Lost
  | PFin1 | PFin2 => Given
  | PLog1 | PLog2 | PLog3 | PDone => Ended
  | PPanic => Burst
  end.

Definition gave_up (c : conf) (r : response) : Prop :=
  exists dice, r = gave_up_downstream c dice \/ r = gave_up_upstream c dice \/ r = gave_up_error c dice.

Definition flow (c : conf) (s s' : state) (ms : list message) : Prop :=
  filter is_begin ms = [] /\
  match sit (s_pc s), sit (s_pc s') with
  | Open, Open => s_cur s' = s_cur s /\ filter is_outcome ms = [] /\ filter is_stop ms = []
  | Open, Won => s_cur s' = s_cur s /\ filter is_stop ms = [] /\
      exists rs, h_seen (a_h (cur s)) = Some (Some rs) /\ filter is_outcome ms = [Successful (ur_status rs)]
  | Open, Lost => s_cur s' = s_cur s /\ filter is_stop ms = [] /\ exists o, filter is_outcome ms = [Unsuccessful o]
  | Won, Won => s_cur s' = s_cur s /\ filter is_outcome ms = [] /\ filter is_stop ms = []
  | Won, Ended => s_cur s' = s_cur s /\ ms = []
  | Lost, Open => s_cur s' = S (s_cur s) /\ ms = []
  | Lost, Given => s_cur s' = s_cur s /\ ms = [RetriesStopped]
  | Lost, Lost => s_cur s' = s_cur s /\ ms = []
  | Given, Given => s_cur s' = s_cur s /\ ms = []
  | Given, Ended => s_cur s' = s_cur s /\ ms = [] /\ exists r, gave_up c r /\ s_out s' = (s_out s ++ [r])%list
  | Ended, Ended => s_cur s' = s_cur s /\ ms = [] /\ s_out s' = s_out s
  | Burst, Burst => s_cur s' = s_cur s
  | Open, Burst | Won, Burst | Ended, Burst => s_cur s' = s_cur s
  | _, _ => False
  end.

Lemma flows : forall c ls s l s', hist c ls s -> step c s l = Some s' -> flow c s s' (messages c s l).
Proof.
  intros c ls s l s' Hh H. pose proof (h_pc _ _ _ Hh) as Hp. pose proof (h_good _ _ _ Hh (s_cur s) (le_n _)) as G.
  destruct s as [m n dw fl p sent out]. unfold flow, messages, cur in *. simp.
  step_cases H; simp; subst; simp; cbn [sit at_pc] in *;
    repeat match goal with E : ?x = _ |- context [?x] => rewrite E; cbn [filter is_begin is_outcome is_stop sit andb] end.
  all: try (split; [reflexivity|]; repeat split; reflexivity).
  all: repeat match goal with E : negb ?b = _ |- _ => destruct b; cbn in E; try discriminate E; clear E end; cbn [andb].
  all: try (destruct (a_resp (m n)); (split; [reflexivity|]); repeat split; eexists; reflexivity).
  all: try (split; [reflexivity|]; repeat split; eexists; reflexivity).
  all: rewrite ?filter_app, ?filter_repeat by reflexivity.
  all: try (split; [reflexivity|]; repeat split; reflexivity).
  all: try (destruct p; try match goal with x : stage |- _ => destruct x end; (split; [reflexivity|]); cbn [sit]; repeat split; reflexivity).
  - destruct (g_bh _ _ _ _ G) as (rs & Hr & _); [congruence|]. rewrite Hr. cbn [h_seen]. split; [reflexivity|]. split; [reflexivity|].
    split; [reflexivity|]. exists rs. split; reflexivity.
  - destruct (String.eqb body ""); [repeat split; reflexivity|].
    destruct (w_send_gzip (c_down c)), (a_gz (m n)); repeat split; reflexivity.
  - split; [reflexivity|]. split; [reflexivity|]. split; [reflexivity|]. eexists. split; [|reflexivity]. exists dice. now left.
  - split; [reflexivity|]. split; [reflexivity|]. split; [reflexivity|]. eexists. split; [|reflexivity]. exists dice. right. now left.
  - split; [reflexivity|]. split; [reflexivity|]. split; [reflexivity|]. eexists. split; [|reflexivity]. exists dice. right. now right.
Qed.

Definition decided (p : pc) : bool := match sit p with Open => false | _ => true end.

Definition phase (c : conf) (s : state) (won stopped : list aline) : Prop :=
  let success := exists rs, h_seen (a_h (cur s)) = Some (Some rs) /\ won = [attempt_line c (s_cur s) (Successful (ur_status rs))] in
  match sit (s_pc s) with
  | Open | Lost => won = [] /\ stopped = []
  | Won => success /\ stopped = []
  | Given => won = [] /\ stopped = [attempt_line c (s_cur s) RetriesStopped]
  | Ended => (success /\ stopped = []) \/
             (won = [] /\ stopped = [attempt_line c (s_cur s) RetriesStopped] /\ exists r, gave_up c r /\ s_out s = [r])
  | Burst => True
  end.

Inductive sorted : list nat -> Prop :=
| sorted_nil : sorted []
| sorted_snoc : forall l k, sorted l -> (forall n, In n l -> n <= k) -> sorted (l ++ [k]).

Record book (c : conf) (ls : list label) (s : state) (L : list aline) : Prop := {
  b_begin : map al_attempt (pick is_begin L) = map (numbered c) (seq 1 (S (s_cur s)));
  b_outcome : s_pc s <> PPanic ->
    map al_attempt (pick is_outcome L) = map (numbered c) (seq 1 (if decided (s_pc s) then S (s_cur s) else s_cur s));
  b_phase : phase c s (pick is_success L) (pick is_stop L);
  b_id : forall e, In e L -> al_id e = w_id (c_down c);
  b_order : exists ns, map al_attempt L = map (numbered c) ns /\ sorted ns /\ forall n, In n ns -> 1 <= n <= S (s_cur s) }.

Lemma success_of : forall ms, filter is_success ms = filter is_success (filter is_outcome ms).
Proof. induction ms as [|m ms IH]; [reflexivity|]. destruct m; cbn; now rewrite IH. Qed.

Lemma seq_snoc : forall n, seq 1 (S n) = (seq 1 n ++ [S n])%list.
Proof. intro n. now rewrite seq_S. Qed.

Lemma sorted_many : forall l k j, sorted l -> (forall n, In n l -> n <= k) -> sorted (l ++ repeat k j) /\ forall n, In n (l ++ repeat k j) -> n <= k.
Proof.
  intros l k j Hs Hl. induction j as [|j [IH1 IH2]]; cbn [repeat].
  - rewrite app_nil_r. now split.
  - rewrite repeat_cons, app_assoc. split; [now constructor|]. intros n Hn. apply in_app_or in Hn. destruct Hn as [Hn|[<-|[]]]; auto.
Qed.

Lemma attempts_repeat : forall c n ms, map al_attempt (map (attempt_line c n) ms) = map (numbered c) (repeat (S n) (length ms)).
Proof. intros c n ms. induction ms as [|m ms IH]; [reflexivity|]. cbn. now rewrite IH. Qed.

Lemma flow_cur : forall c s s' ms, flow c s s' ms ->
  s_cur s' = s_cur s \/ (s_cur s' = S (s_cur s) /\ sit (s_pc s) = Lost /\ sit (s_pc s') = Open /\ ms = []).
Proof.
  intros c s s' ms [_ F]. destruct (sit (s_pc s)), (sit (s_pc s')); intuition auto.
Qed.

Lemma lines_same : forall c s l s', s_cur s' = s_cur s -> step_lines c s l s' = map (attempt_line c (s_cur s)) (messages c s l).
Proof. intros c s l s' E. unfold step_lines. rewrite E, Nat.ltb_irrefl. apply app_nil_r. Qed.

Lemma lines_next : forall c s l s', s_cur s' = S (s_cur s) -> messages c s l = [] -> step_lines c s l s' = [attempt_line c (S (s_cur s)) Initialized].
Proof.
  intros c s l s' E M. unfold step_lines. rewrite E, M. replace (Nat.ltb _ _) with true; [reflexivity|]. symmetry. apply Nat.ltb_lt. lia.
Qed.

Lemma sit_burst : forall p, sit p = Burst <-> p = PPanic.
Proof. intros p. split; [destruct p; intro H; try discriminate H; reflexivity|now intros ->]. Qed.

Lemma book_step : forall c ls s l s' L, reach c ls s -> book c ls s L -> step c s l = Some s' ->
  book c (ls ++ [l]) s' (L ++ step_lines c s l s').
Proof.
  intros c ls s l s' L R [Bb Bo Bp Bi (ns & N1 & N2 & N3)] H. pose proof (reach_hist c ls s R) as Hh.
  pose proof (flows c ls s l s' Hh H) as F. destruct (flow_cur c s s' _ F) as [E|(E & S1 & S2 & M)].
  - rewrite (lines_same c s l s' E). destruct F as [F0 F]. set (ms := messages c s l) in *. clearbody ms.
    assert (Same : forall rs, h_seen (a_h (cur s)) = Some (Some rs) -> h_seen (a_h (cur s')) = Some (Some rs)).
    { intros rs Hr. unfold cur in *. rewrite E. exact (l_h _ _ (le_step c ls s l s' Hh H (s_cur s) (le_n _)) _ Hr). }
    constructor.
    + rewrite pick_app, map_app, pick_lines, F0, app_nil_r, E. exact Bb.
    + intro Np. rewrite pick_app, map_app, pick_lines.
      assert (Np' : s_pc s <> PPanic) by (intro X; rewrite X in F; cbn [sit] in F; destruct (sit (s_pc s')) eqn:Y; try contradiction; apply sit_burst in Y; contradiction).
      rewrite (Bo Np'). unfold decided. rewrite E. clear - F E Np Np'.
      destruct (sit (s_pc s)) eqn:Y, (sit (s_pc s')) eqn:Y'; try contradiction; try (now apply sit_burst in Y'); try (now apply sit_burst in Y).
      * destruct F as (_ & -> & _). apply app_nil_r.
      * destruct F as (_ & _ & rs & _ & ->). now rewrite seq_snoc, map_app.
      * destruct F as (_ & _ & o & ->). now rewrite seq_snoc, map_app.
      * destruct F as (_ & -> & _). apply app_nil_r.
      * destruct F as (_ & ->). apply app_nil_r.
      * destruct F as (F & _). rewrite E in F. exfalso. lia.
      * destruct F as (_ & ->). apply app_nil_r.
      * destruct F as (_ & ->). apply app_nil_r.
      * destruct F as (_ & ->). apply app_nil_r.
      * destruct F as (_ & -> & _). apply app_nil_r.
      * destruct F as (_ & -> & _). apply app_nil_r.
    + rewrite !pick_app, !pick_lines, (success_of ms). pose proof (k_out _ _ _ (reach_counts c ls s R)) as Ko.
      unfold phase in *. destruct (sit (s_pc s)) eqn:Y, (sit (s_pc s')) eqn:Y'; try contradiction; try exact I.
      * destruct F as (_ & -> & ->), Bp as [-> ->]. now split.
      * destruct F as (_ & -> & rs & Hr & ->), Bp as [-> ->]. split; [|reflexivity]. exists rs. rewrite E. split; [now apply Same|reflexivity].
      * destruct F as (_ & -> & o & ->), Bp as [-> ->]. now split.
      * destruct F as (_ & -> & ->), Bp as [(rs & Hr & ->) ->]. split; [|reflexivity]. exists rs. rewrite E. split; [now apply Same|reflexivity].
      * destruct F as (_ & ->), Bp as [(rs & Hr & ->) ->]. left. split; [|reflexivity]. exists rs. rewrite E. split; [now apply Same|reflexivity].
      * destruct F as (F & _). rewrite E in F. exfalso. lia.
      * destruct F as (_ & ->), Bp as [-> ->]. now split.
      * destruct F as (_ & ->), Bp as [-> ->]. rewrite E. now split.
      * destruct F as (_ & ->), Bp as [-> ->]. rewrite E. now split.
      * destruct F as (_ & -> & r & Hr & Ho), Bp as [-> ->]. right. rewrite E. split; [reflexivity|]. split; [reflexivity|]. exists r. split; [exact Hr|].
        rewrite Ho. destruct (s_pc s); try discriminate Y; cbn [out_ok] in Ko; now rewrite Ko.
      * destruct F as (_ & -> & Ho). cbn [filter map]. rewrite !app_nil_r, E, Ho. destruct Bp as [[(rs & Hr & W) T]|Bp]; [left|right; exact Bp].
        split; [|exact T]. exists rs. split; [now apply Same|exact W].
    + intros e He. apply in_app_or in He. destruct He as [He|He]; [auto|]. apply in_map_iff in He. destruct He as (m & <- & _). reflexivity.
    + exists (ns ++ repeat (S (s_cur s)) (length ms))%list. rewrite !map_app, N1, attempts_repeat. split; [reflexivity|].
      destruct (sorted_many ns (S (s_cur s)) (length ms) N2) as [Q1 Q2]; [intros n Hn; now apply N3|]. split; [exact Q1|].
      intros n Hn. rewrite E. split; [|now apply Q2]. apply in_app_or in Hn. destruct Hn as [Hn|Hn]; [now apply N3|]. apply repeat_spec in Hn. lia.
  - rewrite (lines_next c s l s' E M). constructor.
    + rewrite pick_app, map_app, Bb, E, (seq_snoc (S (s_cur s))), map_app. reflexivity.
    + intros _. rewrite pick_app. cbn [pick filter attempt_line al_message is_outcome]. rewrite app_nil_r, Bo, E.
      * unfold decided. now rewrite S1, S2.
      * intro X. rewrite X in S1. discriminate S1.
    + rewrite !pick_app. cbn [pick filter attempt_line al_message is_success is_stop]. rewrite !app_nil_r. unfold phase in *. now rewrite S1 in Bp; rewrite S2.
    + intros e He. apply in_app_or in He. destruct He as [He|[<-|[]]]; [auto|reflexivity].
    + exists (ns ++ [S (S (s_cur s))])%list. rewrite !map_app, N1. split; [reflexivity|]. split.
      * constructor; [exact N2|]. intros n Hn. apply N3 in Hn. lia.
      * intros n Hn. apply in_app_or in Hn. rewrite E. destruct Hn as [Hn|[<-|[]]]; [apply N3 in Hn; lia|lia].
Qed.

Lemma reach_book : forall c ls s, reach c ls s -> book c ls s (attempt_lines c ls).
Proof.
  intros c ls s H. induction H as [|ls s l s' H IH Hs].
  - constructor.
    + reflexivity.
    + reflexivity.
    + split; reflexivity.
    + intros e [<-|[]]. reflexivity.
    + exists [1]. split; [reflexivity|]. split; [exact (sorted_snoc [] 1 sorted_nil (fun n (X : In n []) => match X with end))|]. intros n [<-|[]]. cbn. lia.
  - rewrite (lines_snoc c ls s l s' H Hs). exact (book_step c ls s l s' _ H IH Hs).
Qed.

(** * From the book to the statements *)

Lemma numbered_inj : forall c n m, numbered c n = numbered c m -> n = m.
Proof.
  intros c n m H. unfold numbered in H.
  assert (D : forall r, starts_digit ("/" ++ r) = false) by reflexivity.
  pose proof (read_value_int (Z.of_nat n) _ (D (itoa_Z (c_max c)))) as A.
  pose proof (read_value_int (Z.of_nat m) _ (D (itoa_Z (c_max c)))) as B.
  rewrite H, B in A. injection A as A. lia.
Qed.

Lemma one_of : forall (p : aline -> bool) c n L k, map al_attempt (filter p L) = map (numbered c) (seq 1 k) -> 1 <= n <= k ->
  exactly_one (fun e => of_attempt c n e /\ p e = true) L.
Proof.
  intros p c n L k H Hn.
  assert (G : forall L l1 l2, map al_attempt (filter p L) = map (numbered c) (l1 ++ n :: l2) -> ~ In n l1 -> ~ In n l2 ->
    exactly_one (fun e => of_attempt c n e /\ p e = true) L).
  { clear. induction L as [|e L IH]; intros l1 l2 H N1 N2; [destruct l1; discriminate H|].
    cbn [filter] in H. destruct (p e) eqn:E.
    - destruct l1 as [|n1 l1]; cbn [app map] in H; injection H as H1 H2.
      + exists [], e, L. split; [reflexivity|]. split; [now split|]. split; [intros x []|]. intros x Hx [X1 X2]. apply N2.
        assert (I : In (al_attempt x) (map (numbered c) l2)) by (rewrite <- H2; apply in_map, filter_In; now split).
        apply in_map_iff in I. destruct I as (m & M1 & M2). unfold of_attempt in X1. rewrite X1 in M1. apply numbered_inj in M1. now subst.
      + destruct (IH l1 l2 H2) as (a & x & b & Q1 & Q2 & Q3 & Q4); [intro X; apply N1; now right|exact N2|].
        exists (e :: a), x, b. split; [now rewrite Q1|]. split; [exact Q2|]. split; [|exact Q4].
        intros y [<-|Hy]; [|now apply Q3]. intros [Y _]. unfold of_attempt in Y. apply N1. left. apply (numbered_inj c). congruence.
    - destruct (IH l1 l2 H N1 N2) as (a & x & b & Q1 & Q2 & Q3 & Q4). exists (e :: a), x, b. split; [now rewrite Q1|].
      split; [exact Q2|]. split; [|exact Q4]. intros y [<-|Hy]; [|now apply Q3]. intros [_ Y]. congruence. }
  apply (G L (seq 1 (n - 1)) (seq (S n) (k - n))).
  - rewrite H. f_equal. replace k with ((n - 1) + S (k - n)) at 1 by lia. rewrite seq_app. f_equal. replace (1 + (n - 1)) with n by lia. reflexivity.
  - rewrite in_seq. lia.
  - rewrite in_seq. lia.
Qed.

Lemma exactly_one_ext : forall (P Q : aline -> Prop) L, (forall e, P e <-> Q e) -> exactly_one P L -> exactly_one Q L.
Proof.
  intros P Q L H (a & e & b & H1 & H2 & H3 & H4). exists a, e, b. split; [exact H1|]. split; [now apply H|].
  split; intros x Hx X; apply H in X; [exact (H3 x Hx X)|exact (H4 x Hx X)].
Qed.

Lemma single_filter : forall (p : aline -> bool) L e, filter p L = [e] -> p e = true /\ In e L /\ exactly_one (fun x => p x = true) L.
Proof.
  intros p L e H. assert (I : In e (filter p L)) by (rewrite H; now left). apply filter_In in I. destruct I as [I1 I2].
  split; [exact I2|]. split; [exact I1|]. clear I1 I2. induction L as [|x L IH]; [discriminate H|]. cbn [filter] in H. destruct (p x) eqn:E.
  - injection H as -> H. exists [], e, L. split; [reflexivity|]. split; [exact E|]. split; [intros x []|]. intros y Hy Y.
    assert (I : In y (filter p L)) by (apply filter_In; now split). rewrite H in I. destruct I.
  - destruct (IH H) as (a & y & b & Q1 & Q2 & Q3 & Q4). exists (x :: a), y, b. split; [now rewrite Q1|]. split; [exact Q2|]. split; [|exact Q4].
    intros z [<-|Hz]; [congruence|now apply Q3].
Qed.

Lemma no_filter : forall (p : aline -> bool) L, filter p L = [] -> forall e, In e L -> p e <> true.
Proof. intros p L H e He X. assert (I : In e (filter p L)) by (apply filter_In; now split). rewrite H in I. destruct I. Qed.

Lemma begins_iff : forall e, is_begin (al_message e) = true <-> begins e.
Proof. intros [i a m]. unfold begins. cbn. destruct m; split; intro H; try discriminate H; reflexivity. Qed.
Lemma succeeds_iff : forall e, is_success (al_message e) = true <-> succeeds e.
Proof. intros [i a m]. unfold succeeds. cbn. destruct m; split; intro H; try discriminate H; try reflexivity; try now eexists. all: destruct H as [X H]; discriminate H. Qed.
Lemma stops_iff : forall e, is_stop (al_message e) = true <-> stops e.
Proof. intros [i a m]. unfold stops. cbn. destruct m; split; intro H; try discriminate H; reflexivity. Qed.
Lemma outcome_iff : forall e, is_outcome (al_message e) = true <-> succeeds e \/ fails e.
Proof.
  intros [i a m]. unfold succeeds, fails. cbn. destruct m; split; intro H; try discriminate H; try (destruct H as [[? H]|[? H]]; discriminate H); try reflexivity.
  - left. now eexists.
  - right. now eexists.
Qed.

Lemma sorted_order : forall l, sorted l -> forall a n b m d, l = (a ++ n :: b ++ m :: d)%list -> n <= m.
Proof.
  intros l H. induction H as [|l k H IH Hk]; intros a n b m d E; [destruct a; discriminate E|].
  destruct d as [|x d] using rev_ind.
  - change (a ++ n :: b ++ [m])%list with (a ++ ((n :: b) ++ [m]))%list in E. rewrite app_assoc in E. apply app_inj_tail in E.
    destruct E as [-> ->]. apply Hk. apply in_or_app. right. now left.
  - replace (a ++ n :: b ++ m :: d ++ [x])%list with ((a ++ n :: b ++ m :: d) ++ [x])%list in E
      by (rewrite <- app_assoc; cbn [app]; now rewrite <- app_assoc).
    apply app_inj_tail in E. destruct E as [-> _]. exact (IH a n b m d eq_refl).
Qed.

Lemma map_split : forall (A B C : Type) (f : A -> C) (g : B -> C) L1 e L2 ns, map f (L1 ++ e :: L2) = map g ns ->
  exists n1 n n2, ns = (n1 ++ n :: n2)%list /\ map f L1 = map g n1 /\ f e = g n /\ map f L2 = map g n2.
Proof.
  induction L1 as [|x L1 IH]; intros e L2 ns H; destruct ns as [|n ns]; try discriminate H; cbn [app map] in H; injection H as H1 H2.
  - exists [], n, ns. now split.
  - destruct (IH e L2 ns H2) as (n1 & k & n2 & -> & Q1 & Q2 & Q3). exists (n :: n1), k, n2. split; [reflexivity|]. split; [|now split].
    cbn. now rewrite H1, Q1.
Qed.

Lemma attempts_of : forall c ls s, exec c init ls = Some s -> s_pc s = PDone -> length (s_sent s) = S (s_cur s).
Proof.
  intros c ls s E P. pose proof (k_all _ _ _ (reach_counts c ls s (exec_reach c ls s E))) as K. rewrite P in K.
  specialize (K ltac:(discriminate)). cbn in K. lia.
Qed.

(** ** C99 *)

Lemma each_line : forall c ls s, exec c init ls = Some s -> s_pc s = PDone -> forall e, In e (attempt_lines c ls) ->
  al_id e = w_id (c_down c) /\ exists n, 1 <= n <= length (s_sent s) /\ of_attempt c n e.
Proof.
  intros c ls s E P e He. rewrite (attempts_of c ls s E P). destruct (reach_book c ls s (exec_reach c ls s E)) as [_ _ _ Bi (ns & N1 & _ & N3)].
  split; [now apply Bi|]. assert (I : In (al_attempt e) (map (numbered c) ns)) by (rewrite <- N1; now apply in_map).
  apply in_map_iff in I. destruct I as (n & H1 & H2). exists n. split; [now apply N3|]. now symmetry.
Qed.

Lemma each_attempt : forall c ls s, exec c init ls = Some s -> s_pc s = PDone -> forall n, 1 <= n <= length (s_sent s) ->
  exactly_one (fun e => of_attempt c n e /\ begins e) (attempt_lines c ls) /\
  exactly_one (fun e => of_attempt c n e /\ (succeeds e \/ fails e)) (attempt_lines c ls).
Proof.
  intros c ls s E P n Hn. rewrite (attempts_of c ls s E P) in Hn. destruct (reach_book c ls s (exec_reach c ls s E)) as [Bb Bo _ _ _].
  rewrite P in Bo. specialize (Bo ltac:(discriminate)). cbn [decided sit] in Bo. split.
  - apply (exactly_one_ext (fun e => of_attempt c n e /\ is_begin (al_message e) = true)).
    + intro e. now rewrite begins_iff.
    + exact (one_of (fun e => is_begin (al_message e)) c n _ _ Bb Hn).
  - apply (exactly_one_ext (fun e => of_attempt c n e /\ is_outcome (al_message e) = true)).
    + intro e. now rewrite outcome_iff.
    + exact (one_of (fun e => is_outcome (al_message e)) c n _ _ Bo Hn).
Qed.

Lemma in_turn : forall c ls s, exec c init ls = Some s -> forall a e1 b e2 d n1 n2, attempt_lines c ls = (a ++ e1 :: b ++ e2 :: d)%list ->
  of_attempt c n1 e1 -> of_attempt c n2 e2 -> n1 <= n2.
Proof.
  intros c ls s E a e1 b e2 d n1 n2 H H1 H2. destruct (reach_book c ls s (exec_reach c ls s E)) as [_ _ _ _ (ns & N1 & N2 & _)].
  rewrite H in N1. destruct (map_split _ _ _ _ _ _ _ _ _ N1) as (m1 & k1 & r1 & -> & _ & K1 & R1).
  destruct (map_split _ _ _ _ _ _ _ _ _ R1) as (m2 & k2 & r2 & -> & _ & K2 & _).
  unfold of_attempt in H1, H2. rewrite H1 in K1. rewrite H2 in K2. apply numbered_inj in K1, K2. subst k1 k2. exact (sorted_order _ N2 m1 n1 m2 n2 r2 eq_refl).
Qed.

Lemma ends_well_or_not : forall c ls s, exec c init ls = Some s -> s_pc s = PDone ->
  let L := attempt_lines c ls in
  (exactly_one succeeds L /\ (forall e, In e L -> ~ stops e) /\
   exists e rs, In e L /\ of_attempt c (length (s_sent s)) e /\ al_message e = Successful (ur_status rs) /\ answered ls (s_cur s) rs) \/
  (exactly_one stops L /\ (forall e, In e L -> ~ succeeds e) /\
   exists r dice, s_out s = [r] /\ (r = gave_up_downstream c dice \/ r = gave_up_upstream c dice \/ r = gave_up_error c dice)).
Proof.
  intros c ls s E P L. pose proof (exec_reach c ls s E) as R. destruct (reach_book c ls s R) as [_ _ Bp _ _].
  fold L in Bp. unfold phase in Bp. rewrite P in Bp. cbn [sit] in Bp. destruct Bp as [[(rs & Hr & W) T]|(W & T & r & (dice & G) & O)].
  - left. destruct (single_filter _ _ _ W) as (_ & I & X). split; [exact (exactly_one_ext _ _ _ succeeds_iff X)|]. split.
    + intros e He Y. apply stops_iff in Y. exact (no_filter _ _ T e He Y).
    + exists (attempt_line c (s_cur s) (Successful (ur_status rs))), rs. split; [exact I|]. rewrite (attempts_of c ls s E P).
      split; [reflexivity|]. split; [reflexivity|]. exact (g_h _ _ _ _ (h_good _ _ _ (reach_hist c ls s R) (s_cur s) (le_n _)) _ Hr).
  - right. destruct (single_filter _ _ _ T) as (_ & _ & X). split; [exact (exactly_one_ext _ _ _ stops_iff X)|]. split.
    + intros e He Y. apply succeeds_iff in Y. exact (no_filter _ _ W e He Y).
    + exists r, dice. now split.
Qed.

(** On time, the code logged is the one sent. *)
Lemma won_ended : forall c ls s l s', treach c ls s -> step c s l = Some s' -> sit (s_pc s) = Won -> sit (s_pc s') = Ended ->
  exists r rs, s_out s' = [r] /\ h_seen (a_h (cur s')) = Some (Some rs) /\ rp_status r = ur_status rs.
Proof.
  intros c ls s l s' R H W N. pose proof (treach_reach c ls s R) as R0.
  pose proof (k_out _ _ _ (reach_counts c ls s R0)) as K. pose proof (reach_hist c ls s R0) as Hh.
  pose proof (h_pc _ _ _ Hh) as Hp. pose proof (treach_own c ls s R) as O. pose proof (t_pc _ _ _ (treach_told c ls s R)) as Tp.
  destruct (is_main l) eqn:El.
  - destruct l as [dice|b| | | | | | | | |]; try discriminate El; cbn [step] in H.
    + destruct s as [m n dw fl p sent out]. unfold at_pc_t, cur in *. simp.
      unfold main_step in H. unfold cur in *. simp.
      destruct p; try discriminate W; break H; try discriminate H; injection H as <-; simp; cbn [sit] in N; try discriminate N; cbn [out_ok at_pc] in *; try (subst out).
      * destruct Tp as (rs & Er & Hc). destruct Hp as [b Hp].
        pose proof (o_status _ O ltac:(rewrite Hp; exact I) rs Er) as Es. eexists _, rs. split; [reflexivity|]. rewrite Er. split; [reflexivity|]. exact Es.
      * destruct Tp as (rs & Er & Hlt & Hc & D). cbn [draft_ok] in D. destruct D as [D1 D2].
        eexists _, rs. split; [reflexivity|]. rewrite Er. split; [reflexivity|]. rewrite D2. reflexivity.
    + destruct s as [m n dw fl p sent out]. unfold sel_step in H. simp. destruct p; try discriminate W; break H; discriminate H.
  - exfalso. assert (S : s_pc s' = s_pc s) by (destruct s as [m n dw fl p sent out]; destruct l; try discriminate El; cbn [step goroutine_step] in H; simp; break H;
      try discriminate H; injection H as <-; reflexivity). rewrite S in N. congruence.
Qed.

Definition same_code (s : state) (L : list aline) : Prop :=
  sit (s_pc s) = Ended -> pick is_success L <> [] ->
  exists r rs, s_out s = [r] /\ h_seen (a_h (cur s)) = Some (Some rs) /\ rp_status r = ur_status rs.

Lemma treach_code : forall c ls s, treach c ls s -> same_code s (attempt_lines c ls).
Proof.
  intros c ls s H. induction H as [|ls s l s' H IH Ht Hs]; [intro X; discriminate X|]. pose proof (treach_reach c ls s H) as R.
  pose proof (reach_hist c ls s R) as Hh. pose proof (flows c ls s l s' Hh Hs) as F. pose proof (b_phase _ _ _ _ (reach_book c ls s R)) as B.
  rewrite (lines_snoc c ls s l s' R Hs). intros X Y. destruct F as [F0 F]. rewrite X in F. unfold phase in B. destruct (sit (s_pc s)) eqn:Z; try contradiction.
  - exact (won_ended c ls s l s' H Hs Z X).
  - destruct F as (F1 & F2 & _). rewrite pick_app, (lines_same c s l s' F1), F2, (proj1 B) in Y. now elim Y.
  - destruct F as (F1 & F2 & F3). rewrite pick_app, (lines_same c s l s' F1), F2, app_nil_r in Y. destruct (IH Z Y) as (r & rs & Q1 & Q2 & Q3).
    exists r, rs. rewrite F3. split; [exact Q1|]. split; [|exact Q3]. unfold cur in *. rewrite F1. exact (l_h _ _ (le_step c ls s l s' Hh Hs (s_cur s) (le_n _)) _ Q2).
Qed.

Lemma code_sent : forall c ls s, exec c init ls = Some s -> on_time c init ls -> s_pc s = PDone ->
  forall e code, In e (attempt_lines c ls) -> al_message e = Successful code -> exists r, s_out s = [r] /\ rp_status r = code.
Proof.
  intros c ls s E Ht P e code He Hm. pose proof (exec_treach c ls s E Ht) as T. pose proof (b_phase _ _ _ _ (reach_book c ls s (exec_reach c ls s E))) as B.
  assert (I : In e (pick is_success (attempt_lines c ls))) by (apply filter_In; split; [exact He|now rewrite Hm]).
  destruct (treach_code c ls s T) as (r & rs & Q1 & Q2 & Q3); [now rewrite P|intro X; rewrite X in I; destruct I|].
  exists r. split; [exact Q1|]. unfold phase in B. rewrite P in B. cbn [sit] in B. destruct B as [[(rs' & B1 & B2) _]|[B1 _]].
  - rewrite B2 in I. destruct I as [<-|[]]. rewrite Q2 in B1. injection B1 as <-. cbn in Hm. injection Hm as <-. exact Q3.
  - rewrite B1 in I. destruct I.
Qed.

(** ** Level *)

Lemma lower_t : forall x, lower x = "t"%char -> x = "t"%char \/ x = "T"%char.
Proof. intros [[] [] [] [] [] [] [] []] H; try discriminate H; auto. Qed.
Lemma lower_r : forall x, lower x = "r"%char -> x = "r"%char \/ x = "R"%char.
Proof. intros [[] [] [] [] [] [] [] []] H; try discriminate H; auto. Qed.
Lemma lower_u : forall x, lower x = "u"%char -> x = "u"%char \/ x = "U"%char.
Proof. intros [[] [] [] [] [] [] [] []] H; try discriminate H; auto. Qed.
Lemma lower_e : forall x, lower x = "e"%char -> x = "e"%char \/ x = "E"%char.
Proof. intros [[] [] [] [] [] [] [] []] H; try discriminate H; auto. Qed.

Lemma asked : forall q, parse_debug q = true <-> asks q.
Proof.
  intro q. unfold parse_debug, asks, get. change (canon "X-REQUEST-DEBUG") with "X-Request-Debug".
  destruct (values "X-Request-Debug" (q_header q)) as [|v vs]; [split; [discriminate|intros (? & ? & H & _); discriminate H]|]. split.
  - intro H. apply andb_prop in H. destruct H as [_ H]. apply String.eqb_eq in H. exists v, vs. split; [reflexivity|].
    destruct v as [|a [|b [|c [|d [|e v]]]]]; try discriminate H. cbn [to_lower] in H. injection H as Ha Hb Hc Hd.
    split; [reflexivity|]. intros i x Hx. apply lower_t in Ha. apply lower_r in Hb. apply lower_u in Hc. apply lower_e in Hd.
    repeat split; intros ->; cbn in Hx; injection Hx as <-; assumption.
  - intros (v' & vs' & E & L & H). injection E as <- <-.
    destruct v as [|a [|b [|c [|d [|e v]]]]]; try discriminate L.
    destruct (H 0 a eq_refl) as [Ha _], (H 1 b eq_refl) as [_ [Hb _]], (H 2 c eq_refl) as [_ [_ [Hc _]]], (H 3 d eq_refl) as [_ [_ [_ Hd]]].
    destruct (Ha eq_refl) as [-> | ->], (Hb eq_refl) as [-> | ->], (Hc eq_refl) as [-> | ->], (Hd eq_refl) as [-> | ->]; reflexivity.
Qed.

Lemma lines_written : forall h q c ls,
  let l := to_upper (h_env h "LOGLEVEL") in
  (l = "TRACE" \/ (l = "DEBUG" /\ asks q) -> written_lines h q c ls = attempt_lines c ls) /\
  (~ (l = "TRACE" \/ (l = "DEBUG" /\ asks q)) -> written_lines h q c ls = []).
Proof.
  intros h q c ls l. pose proof (asked q) as A. unfold written_lines, attempt_level, log_level. fold l.
  destruct (String.eqb_spec l "TRACE") as [->|T]; [split; [intros _; now destruct (parse_debug q)|intro H; elim H; now left]|].
  destruct (String.eqb_spec l "DEBUG") as [->|D].
  - destruct (parse_debug q); split; intro H; try reflexivity.
    + elim H. right. split; [reflexivity|now apply A].
    + exfalso. destruct H as [H|[_ H]]; [discriminate H|]. apply A in H. discriminate H.
  - split; [intros [H|[H _]]; contradiction|intros _]. destruct (String.eqb l "INFO"), (String.eqb l "WARN"), (parse_debug q); reflexivity.
Qed.
