(** Proofs about the lines logged for responses. *)
From Coq Require Import String Ascii List Bool ZArith NArith Lia.
From Verif Require Import GoStr Header HeaderSpec HeaderProofs Regex Iprex IprexSpec IprexProofs Policy Config Routing Json JsonSpec JsonProofs Exchange ExchangeSpec ExchangeProofs
  Jwt Machine MachineSpec MachineProofs MachineTimely Handler HandlerSpec HandlerProofs SystemSpec SystemProofs AccessLog AccessLogSpec.
Import ListNotations.
Local Open Scope string_scope.

(** * The decision of the handler *)

Lemma decided : forall E L nr cfg ch q,
  proxy_handler E L nr cfg ch q =
  match decide E L nr cfg ch q with
  | Refuse st m => Answered (send_status E (ch_dice ch) (parse_incoming E (ch_fresh ch) q) st m)
  | Attempt c _ => Upstream c
  | Burst => Panicked
  end.
Proof.
  intros. unfold proxy_handler, decide. destruct (negb _); [destruct (w_too_large _); reflexivity|].
  destruct (select_route _ _) as [r|]; [|reflexivity]. destruct (if has_jwt r then _ else _); try reflexivity.
  destruct (map_url _ _ r); reflexivity.
Qed.

Lemma refusals : forall E L nr cfg ch q st m, decide E L nr cfg ch q = Refuse st m -> own_error E st m.
Proof.
  intros E L nr cfg ch q st m. unfold decide. destruct (negb _).
  - destruct (w_too_large _); intros H; injection H as <- <-; [now left|right; now left].
  - destruct (select_route _ _) as [r|]; [|intros H; injection H as <- <-; right; do 2 right; now left].
    destruct (if has_jwt r then _ else _); [|intros H; injection H as <- <-; right; do 1 right; now left|discriminate].
    destruct (map_url _ _ r); [discriminate|intros H; injection H as <- <-; right; do 3 right; now left|discriminate].
Qed.

(** * Runs with lines are runs *)

Lemma lstep_step : forall c lab x q ls l ls', lstep c lab x q ls l = Some ls' -> step c (ls_state ls) l = Some (ls_state ls').
Proof.
  intros c lab x q ls l ls' H. unfold lstep in H. destruct (step c (ls_state ls) l) as [s'|]; [|discriminate H]. injection H as <-.
  destruct l; reflexivity.
Qed.

Lemma lexec_exec : forall c lab x q run ls ls', lexec c lab x q ls run = Some ls' -> exec c (ls_state ls) run = Some (ls_state ls').
Proof.
  induction run as [|l run IH]; intros ls ls' H; cbn [lexec exec] in *; [now injection H as <-|].
  destruct (lstep c lab x q ls l) as [l1|] eqn:E; [|discriminate H]. rewrite (lstep_step _ _ _ _ _ _ _ E). exact (IH l1 ls' H).
Qed.

Lemma exec_lexec : forall c lab x q run ls s', exec c (ls_state ls) run = Some s' ->
  exists ls', lexec c lab x q ls run = Some ls' /\ ls_state ls' = s'.
Proof.
  induction run as [|l run IH]; intros ls s' H; cbn [lexec exec] in *; [exists ls; now injection H as <-|].
  unfold lstep at 1. destruct (step c (ls_state ls) l) as [s1|]; [|discriminate H]. apply IH.
  destruct l; exact H.
Qed.

Lemma lexec_snoc : forall c lab x q run l ls ls', lexec c lab x q ls (run ++ [l]) = Some ls' ->
  exists l1, lexec c lab x q ls run = Some l1 /\ lstep c lab x q l1 l = Some ls'.
Proof.
  induction run as [|k run IH]; intros l ls ls' H; cbn [lexec app] in *.
  - destruct (lstep c lab x q ls l) as [l1|] eqn:E; [|discriminate H]. injection H as <-. exists ls. now split.
  - destruct (lstep c lab x q ls k) as [l1|] eqn:E; [|discriminate H]. exact (IH l l1 ls' H).
Qed.

(** * One line, for the response sent *)

Definition known_message (E : env) (m : string) : Prop := m = "none" \/ exists st, own_error E st m.

(** Response [r] and the message that goes with it *)
Definition said (c : conf) (r : response) (m : string) : Prop :=
  (exists dice m0, r = send_status (c_env c) dice (c_down c) (rp_status r) m0 /\ m = status_message (rp_status r) m0 /\ known_message (c_env c) m0) \/
  (exists d body, r = assemble (c_env c) (c_down c) d body /\ m = "none").

(** The line was logged in state [s1], after part [pre] of the run. *)
Definition logged_at (c : conf) (lab : string) (x : wire) (q : request) (run : list label) (r : response) (e : entry) : Prop :=
  exists pre post s1 m enc, run = (pre ++ post)%list /\ exec c init pre = Some s1 /\ s_out s1 = [r] /\ said c r m /\
    encoding_of c s1 = Some enc /\ e = line c lab x q s1 m enc.

Definition so_far (c : conf) (lab : string) (x : wire) (q : request) (run : list label) (ls : lstate) : Prop :=
  match s_pc (ls_state ls) with
  | PLog1 | PLog2 | PLog3 => ls_lines ls = [] /\ exists r, s_out (ls_state ls) = [r] /\ said c r (ls_message ls)
  | PDone => exists r e, s_out (ls_state ls) = [r] /\ ls_lines ls = [e] /\ logged_at c lab x q run r e
  | _ => ls_lines ls = []
  end.

Lemma later : forall c lab x q run l r e, logged_at c lab x q run r e -> logged_at c lab x q (run ++ [l]) r e.
Proof.
  intros c lab x q run l r e (pre & post & s1 & m & enc & -> & H). exists pre, (post ++ [l])%list, s1, m, enc.
  split; [now rewrite <- app_assoc|exact H].
Qed.

Lemma so_far_step : forall c lab x q run ls l ls', exec c init run = Some (ls_state ls) -> so_far c lab x q run ls ->
  lstep c lab x q ls l = Some ls' -> so_far c lab x q (run ++ [l]) ls'.
Proof.
  intros c lab x q run ls l ls' R J H.
  pose proof (k_out _ _ _ (reach_counts c run _ (exec_reach c run _ R))) as K.
  destruct ls as [s msg es]. unfold so_far, lstep in *. cbn [ls_state ls_message ls_lines] in *.
  destruct (step c s l) as [s'|] eqn:E; [|discriminate H]. injection H as <-.
  destruct (is_main l) eqn:El.
  - destruct l as [dice|b| | | | | | | | |]; try discriminate El; cbn [ls_state ls_message ls_lines].
    + destruct s as [m n dw fl p sent out]. cbn [step] in E. unfold message_of, encoding_of. simp.
      assert (R' : exec c init run = Some (St m n dw fl p sent out)) by exact R. clear R.
      unfold main_step in E. unfold cur in *. simp.
      destruct p; cbn [s_pc] in *; break E; try discriminate E; injection E as <-; simp; cbn [out_ok] in K; try (subst out); try exact J.
      all: try (split; [exact J|]; eexists; split; [reflexivity|]; left; do 2 eexists; split; [reflexivity|]; split; [reflexivity|];
                first [left; reflexivity | right; eexists; right; do 4 right; left; reflexivity
                      | right; eexists; right; do 5 right; left; reflexivity | right; eexists; right; do 6 right; left; reflexivity]).
      all: try (split; [exact J|]; eexists; split; [reflexivity|]; right; do 2 eexists; split; reflexivity).
      all: destruct J as (J1 & r & J2 & J3); subst out; subst es; cbn [app]; try reflexivity; try (split; [reflexivity|]; exists r; split; [reflexivity|exact J3]).
      all: try (exists r; eexists; split; [reflexivity|]; split; [reflexivity|]; exists run, [LMain dice]; do 3 eexists;
                split; [reflexivity|]; split; [exact R'|]; split; [reflexivity|]; split; [exact J3|]; split; [|reflexivity];
                unfold encoding_of, cur; simp; repeat match goal with H : _ = _ |- _ => rewrite H end; reflexivity).
    + destruct s as [m n dw fl p sent out]. cbn [step] in E. unfold sel_step in E. simp.
      break E; try discriminate E; injection E as <-; simp; exact J.
  - assert (S : s_pc s' = s_pc s /\ s_out s' = s_out s).
    { destruct l; try discriminate El; cbn [step goroutine_step] in E; break E; try discriminate E; injection E as <-; split; reflexivity. }
    destruct S as [S1 S2].
    destruct l; try discriminate El; cbn [ls_state ls_message ls_lines]; rewrite S1, S2;
      (destruct (s_pc s); try exact J; destruct J as (r & e & J1 & J2 & J3); exists r, e; split; [exact J1|]; split; [exact J2|]; now apply later).
Qed.

Lemma so_far_run : forall c lab x q run ls, lexec c lab x q linit run = Some ls -> so_far c lab x q run ls.
Proof.
  intros c lab x q run. induction run as [|l run IH] using rev_ind; intros ls H.
  - injection H as <-. reflexivity.
  - destruct (lexec_snoc _ _ _ _ _ _ _ _ H) as (l1 & H1 & H2).
    exact (so_far_step c lab x q run l1 l ls (lexec_exec _ _ _ _ _ _ _ H1) (IH l1 H1) H2).
Qed.

(** * What the current attempt looks like when the line is logged, on time *)

(** The attempt whose answer was passed on *)
Definition passed_on (c : conf) (r : response) (a : att) : Prop :=
  exists dice rs body, r = proxied (c_env c) dice (c_down c) rs body /\ a_h a = HEnd (Some rs) /\ a_b a = BEnd body true /\
    a_flag a = false /\ (ur_status rs < 500)%Z.

Definition settled_at (c : conf) (s : state) : Prop :=
  match s_pc s with
  | PCheck3 _ _ | PKind _ | PErr | PBuild _ _ _ => a_flag (cur s) = false
  | PLog1 => exists r, s_out s = [r] /\ (In (rp_status r) [502; 504]%Z \/ passed_on c r (cur s))
  | PLog2 => w_send_gzip (c_down c) = false /\ exists r, s_out s = [r] /\ (In (rp_status r) [502; 504]%Z \/ passed_on c r (cur s))
  | PLog3 => w_send_gzip (c_down c) = false /\
      exists r, s_out s = [r] /\ (In (rp_status r) [502; 504]%Z \/ (passed_on c r (cur s) /\ a_gz (cur s) = false))
  | PPanic => s_out s = []
  | _ => True
  end.

Lemma settled_step : forall c ls s l s', treach c ls s -> settled_at c s -> timely s l -> step c s l = Some s' -> settled_at c s'.
Proof.
  intros c ls s l s' R T Ht H. pose proof (treach_reach c ls s R) as R0.
  pose proof (k_out _ _ _ (reach_counts c ls s R0)) as K. pose proof (reach_hist c ls s R0) as Hh.
  pose proof (h_pc _ _ _ Hh) as Hp. pose proof (treach_own c ls s R) as O. pose proof (t_pc _ _ _ (treach_told c ls s R)) as Tp.
  destruct (is_main l) eqn:El.
  - destruct l as [dice|b| | | | | | | | |]; try discriminate El; cbn [step] in H.
    + destruct s as [m n dw fl p sent out]. unfold settled_at, at_pc_t, cur in *. simp.
      unfold main_step in H. unfold cur in *. simp.
      destruct p; break H; try discriminate H; injection H as <-; simp; cbn [out_ok at_pc] in *; try (subst out);
        unfold check_up, check_dwn, up_aborted, dwn_aborted, cur, upd in *; simp; unfold upd in *; rewrite ?Nat.eqb_refl in *; simp; auto.
      * destruct Tp as (rs & Er & Hc). destruct Hp as [b Hp].
        pose proof (o_status _ O ltac:(rewrite Hp; exact I) rs Er) as Es. eexists. split; [reflexivity|]. right.
        exists dice, rs, b. unfold proxied. rewrite Hc, Es. split; [reflexivity|]. split; [exact Er|]. split; [exact Hp|]. split; [exact T|].
        apply client_error_range in Hc. lia.
      * destruct Tp as (rs & Er & Hlt & Hc & D). cbn [draft_ok] in D. destruct D as [D1 D2].
        eexists. split; [reflexivity|]. right. exists dice, rs, body. unfold proxied. rewrite Hc, D2.
        split; [reflexivity|]. split; [exact Er|]. split; [exact Hp|]. split; [exact T|exact Hlt].
      * eexists. split; [reflexivity|]. left. cbn. tauto.
      * eexists. split; [reflexivity|]. left. cbn. tauto.
      * eexists. split; [reflexivity|]. left. cbn. tauto.
      * destruct T as (Tg & r & T1 & [T2|T2]); (split; [exact Tg|]); exists r; (split; [exact T1|]); [now left|]. right. split; [exact T2|assumption].
      * now elim Tp.
    + destruct s as [m n dw fl p sent out]. unfold settled_at in *. unfold sel_step in H. simp.
      break H; try discriminate H; injection H as <-; simp; exact I.
  - assert (S : s_pc s' = s_pc s /\ s_out s' = s_out s /\ s_cur s' = s_cur s /\ a_flag (s_att s' (s_cur s)) = a_flag (s_att s (s_cur s))).
    { destruct s as [m n dw fl p sent out]. destruct l; try discriminate El; cbn [step goroutine_step] in H; simp; break H; try discriminate H; injection H as <-;
        simp; unfold upd; simp; repeat split; repeat match goal with |- context [Nat.eqb ?a ?b] => destruct (Nat.eqb a b) end; reflexivity. }
    destruct S as (S1 & S2 & S3 & S4). pose proof (le_step c ls s l s' Hh H (s_cur s) (le_n _)) as Le.
    unfold settled_at in *. rewrite S1, S2. unfold cur in *. rewrite S3.
    assert (P : forall r, passed_on c r (s_att s (s_cur s)) -> passed_on c r (s_att s' (s_cur s))).
    { intros r (d & rs & b & P1 & P2 & P3 & P4 & P5). exists d, rs, b. split; [exact P1|]. split; [exact (l_hend _ _ Le _ P2)|].
      split; [exact (l_bend _ _ Le _ _ P3)|]. split; [now rewrite S4|exact P5]. }
    destruct (s_pc s); auto; try (rewrite S4; exact T).
    + destruct T as (r & T1 & [T2|T2]); exists r; (split; [exact T1|]); [now left|]. right. now apply P.
    + destruct T as (Tg & r & T1 & [T2|T2]); (split; [exact Tg|]); exists r; (split; [exact T1|]); [now left|]. right. now apply P.
    + destruct T as (Tg & r & T1 & [T2|[T2 T3]]); (split; [exact Tg|]); exists r; (split; [exact T1|]); [now left|]. right. split; [now apply P|].
      destruct (P r T2) as (d & rs & b & _ & _ & P3' & _). destruct T2 as (_ & _ & b' & _ & _ & P3 & _).
      pose proof (l_bend _ _ Le _ _ P3) as P3''. pose proof (o_gz _ (treach_own c _ s' (treach_step c ls s l s' R Ht H))) as O'.
      unfold cur in O'. rewrite S3, P3'' in O'. pose proof (o_gz _ O) as O0. unfold cur in O0. rewrite P3 in O0. cbn [flagged] in *. congruence.
Qed.

Lemma treach_settled : forall c ls s, treach c ls s -> settled_at c s.
Proof.
  intros c ls s H. induction H as [|ls s l s' H IH Ht Hs]; [exact I|]. exact (settled_step c ls s l s' H IH Ht Hs).
Qed.

(** * Whole requests *)

Lemma entry_tells : forall t x r st m enc up, rp_status r = st ->
  tells t x r (log_entry (t_env t) x (t_req t) (parsed t) st m enc up).
Proof.
  intros t x r st m enc up <-. unfold log_entry, parsed. constructor; cbn [l_status l_id l_method l_path l_http l_agent l_tls l_warn l_error w_method parse_incoming].
  - reflexivity.
  - apply choice_id.
  - reflexivity.
  - reflexivity.
  - reflexivity.
  - intros v vs H Hn. unfold user_agent. change (get "User-Agent" (q_header (t_req t))) with (match values "User-Agent" (q_header (t_req t)) with v :: _ => v | [] => "" end).
    rewrite H. destruct (String.eqb_spec v "") as [E|E]; [contradiction|reflexivity].
  - unfold tls_version. split; [intros -> ->; reflexivity|]. split; [intros -> ->; reflexivity|]. now intros ->.
  - destruct (Z.gtb_spec (rp_status r) 399) as [H|H]; (split; split; intros; (lia || reflexivity || congruence || discriminate)).
Qed.

(** The three ways lines come about *)
Lemma logs_cases : forall t x es, logs t x es ->
  (exists r, t_serve t = About r /\ rp_status r = 200%Z /\ es = [log_entry (t_env t) x (t_req t) (parsed t) 200 "ok" "identity" None]) \/
  (exists dice st m, t_serve t = Answered (send_status (t_env t) dice (parsed t) st m) /\ own_error (t_env t) st m /\
     es = [log_entry (t_env t) x (t_req t) (parsed t) st (status_message st m) (no_attempt_encoding (w_send_gzip (parsed t))) None]) \/
  (exists c lab ls, t_serve t = Upstream c /\ lexec c lab x (t_req t) linit (t_run t) = Some ls /\ es = ls_lines ls) \/
  (es = [] /\ forall r, ~ replies t r).
Proof.
  intros t x es H. unfold logs in H. unfold replies, ran, t_serve, serve.
  destruct (mux_serve _ (t_in t)) as [| | |pa|].
  - left. eexists. split; [reflexivity|]. split; [|exact H]. unfold about_page.
    destruct (match values "Accept-Encoding" (q_header (i_req (t_in t))) with [] => _ | _ => _ end). reflexivity.
  - rewrite decided. fold (t_req t). fold (parsed t) in *. destruct (decide _ _ _ _ _ _) as [st m|c lab|] eqn:D.
    + right. left. exists (ch_dice (t_chance t)), st, m. split; [reflexivity|]. split; [exact (refusals _ _ _ _ _ _ _ _ D)|exact H].
    + right. right. left. destruct H as (ls & H1 & H2). exists c, lab, ls. repeat split; assumption.
    + right. right. right. split; [exact H|]. intros r [X|[X|(c & s & [X _] & _)]]; discriminate X.
  - right. right. right. split; [exact H|]. intros r [X|[X|(c & s & [X _] & _)]]; discriminate X.
  - right. right. right. split; [exact H|]. intros r [X|[X|(c & s & [X _] & _)]]; discriminate X.
  - right. right. right. split; [exact H|]. intros r [X|[X|(c & s & [X _] & _)]]; discriminate X.
Qed.

Lemma line_at : forall t x c lab r e, sized (t_req t) -> forall s, ran t c s -> logged_at c lab x (t_req t) (t_run t) r e ->
  exists pre post s1 m enc, t_run t = (pre ++ post)%list /\ exec c init pre = Some s1 /\ s_out s1 = [r] /\ said c r m /\
    encoding_of c s1 = Some enc /\ e = log_entry (t_env t) x (t_req t) (parsed t) (rp_status r) m enc (attempt_entry c lab s1).
Proof.
  intros t x c lab r e Hq s Hr (pre & post & s1 & m & enc & A & B & C & D & F & G).
  destruct (ran_conf t c s Hr Hq) as (Ee & Ed & _). exists pre, post, s1, m, enc. rewrite G. unfold line. rewrite C, Ee, Ed.
  repeat split; assumption.
Qed.

(** C71 *)
Lemma lines : forall t x es, logs t x es -> sized (t_req t) ->
  length es <= 1 /\ (forall e, In e es -> exists r, replies t r) /\ (forall e r, In e es -> replies t r -> tells t x r e).
Proof.
  intros t x es H Hq. destruct (logs_cases t x es H) as [(r & S & St & ->)|[(dice & st & m & S & _ & ->)|[(c & lab & ls & S & L & ->)|[-> N]]]].
  - split; [cbn; lia|]. split; [intros e _; exists r; now left|]. intros e r' [<-|[]] [R|[R|(c & s & [R _] & _)]]; try congruence.
    apply entry_tells. congruence.
  - split; [cbn; lia|]. split; [intros e _; eexists; right; left; exact S|].
    intros e r' [<-|[]] [R|[R|(c & s & [R _] & _)]]; try congruence. rewrite S in R. injection R as <-. now apply entry_tells.
  - pose proof (lexec_exec _ _ _ _ _ _ _ L) as E. cbn [ls_state linit] in E. pose proof (so_far_run _ _ _ _ _ _ L) as J.
    assert (Hr : ran t c (ls_state ls)) by (split; assumption). unfold so_far in J.
    destruct (s_pc (ls_state ls)) eqn:Ep; try (rewrite J; split; [cbn; lia|]; split; [intros e []|intros e r []]; fail);
      try (destruct J as [J _]; rewrite J; split; [cbn; lia|]; split; [intros e []|intros e r []]; fail).
    destruct J as (r & e & J1 & -> & J3). split; [cbn; lia|]. split.
    + intros e' _. exists r. right. right. exists c, (ls_state ls). split; [exact Hr|]. rewrite J1. now left.
    + intros e' r' [<-|[]] [R|[R|(c' & s' & [R1 R2] & Hin)]]; try congruence. assert (c' = c) by congruence. subst c'.
      assert (s' = ls_state ls) by congruence. subst s'. rewrite J1 in Hin. destruct Hin as [<-|[]].
      destruct (line_at t x c lab r e Hq _ Hr J3) as (pre & post & s1 & m & enc & _ & _ & _ & _ & _ & ->). now apply entry_tells.
  - split; [cbn; lia|]. split; [intros e []|intros e r []].
Qed.

Lemma line_for_each : forall t x es r, logs t x es -> replies t r -> sized (t_req t) -> timely_run t -> over t -> exists e, es = [e].
Proof.
  intros t x es r H R Hq Ht Ho. destruct (logs_cases t x es H) as [(r' & S & _ & ->)|[(dice & st & m & S & _ & ->)|[(c & lab & ls & S & L & ->)|[-> N]]]];
    [eauto|eauto| |now elim (N r)].
  destruct R as [R|[R|(c' & s & [R1 R2] & Hin)]]; try congruence. assert (c' = c) by congruence. subst c'.
  pose proof (lexec_exec _ _ _ _ _ _ _ L) as E. cbn [ls_state linit] in E. assert (s = ls_state ls) by congruence. subst s.
  assert (Hr : ran t c (ls_state ls)) by (split; assumption).
  pose proof (so_far_run _ _ _ _ _ _ L) as J. unfold so_far in J. destruct (Ho c _ Hr) as [F|F].
  - rewrite F in J. destruct J as (r1 & e & _ & J2 & _). now exists e.
  - pose proof (treach_settled c _ _ (exec_treach c _ _ E (Ht c _ Hr))) as T. unfold settled_at in T. rewrite F in T. rewrite T in Hin. destruct Hin.
Qed.

(** The line of a response that was passed on, on time *)
Lemma relayed_line : forall t x e r rs body, logs t x [e] -> relayed t r rs body -> sized (t_req t) -> timely_run t ->
  exists c s m enc lab, ran t c s /\ said c r m /\ (ur_status rs < 500)%Z /\
    enc = content_encoding (parsed t) (is_gzip body) rs /\
    e = log_entry (t_env t) x (t_req t) (parsed t) (ur_status rs) m enc
          (Some (UpEntry (uq_uri (c_request c)) lab (ur_status rs) false
                         (itoa_Z (Z.of_nat (length (s_sent s))) ++ "/" ++ itoa_Z (c_max c)))).
Proof.
  intros t x e r rs body H Hrel Hq Ht. destruct (relayed_proxied t r rs body Hrel Hq Ht) as (dice & Er & Hlt).
  pose proof Hrel as (c & s & Hr & Ho & Hn & A & B). pose proof Hr as [R1 R2].
  destruct (logs_cases t x [e] H) as [(r' & Sv & _)|[(dice' & st & m & Sv & _)|[(c' & lab & ls & Sv & L & El)|[X _]]]]; try congruence.
  assert (c' = c) by congruence. subst c'. pose proof (lexec_exec _ _ _ _ _ _ _ L) as E. cbn [ls_state linit] in E.
  assert (s = ls_state ls) by congruence. subst s. pose proof (so_far_run _ _ _ _ _ _ L) as J. unfold so_far in J.
  destruct (s_pc (ls_state ls)) eqn:Ep; try (rewrite J in El; discriminate El); try (destruct J as [J _]; rewrite J in El; discriminate El).
  destruct J as (r1 & e1 & J1 & J2 & J3). rewrite J2 in El. injection El as <-. rewrite Ho in J1. injection J1 as <-.
  destruct (line_at t x c lab r e Hq _ Hr J3) as (pre & post & s1 & m & enc & P1 & P2 & P3 & P4 & P5 & P6).
  destruct (ran_conf t c _ Hr Hq) as (Ee & Ed & _).
  assert (Tt : treach c pre s1).
  { apply exec_treach; [exact P2|]. pose proof (Ht c _ Hr) as T0. rewrite P1 in T0. now destruct (on_time_app c pre init post T0). }
  assert (Pc : s_pc s1 = PLog1 \/ s_pc s1 = PLog2 \/ s_pc s1 = PLog3).
  { unfold encoding_of in P5. destruct (s_pc s1); try discriminate P5; tauto. }
  pose proof (treach_settled c pre s1 Tt) as T1.
  assert (T2 : exists r, s_out s1 = [r] /\ (In (rp_status r) [502; 504]%Z \/ passed_on c r (cur s1))).
  { unfold settled_at in T1. destruct Pc as [Pc|[Pc|Pc]]; rewrite Pc in T1; [exact T1|exact (proj2 T1)|].
    destruct T1 as (_ & r2 & Q1 & [Q2|[Q2 _]]); exists r2; (split; [exact Q1|]); [now left|now right]. }
  destruct T2 as (r2 & Q1 & Q2). rewrite P3 in Q1. injection Q1 as <-. destruct Q2 as [Q2|(d2 & rs2 & b2 & Q3 & Q4 & Q5 & Q6 & Q7)]; [contradiction|].
  rewrite P1, exec_app, P2 in R2.
  assert (After : after_out (s_pc s1)) by (destruct Pc as [Pc|[Pc|Pc]]; rewrite Pc; exact I).
  destruct (after_out_exec c post s1 _ After R2) as [S3 C3].
  pose proof (reach_counts c pre s1 (treach_reach c pre s1 Tt)) as K.
  assert (Ls : length (s_sent (ls_state ls)) = S (s_cur s1)).
  { rewrite S3. pose proof (k_all _ _ _ K) as Ka. destruct Pc as [Pc|[Pc|Pc]]; rewrite Pc in Ka; cbn [pos Nat.eqb] in Ka; (rewrite <- Ka by discriminate; lia). }
  pose proof (h_good _ _ _ (reach_hist c pre s1 (treach_reach c pre s1 Tt)) (s_cur s1) (le_n _)) as G.
  assert (rs2 = rs).
  { assert (In (LDo (s_cur s1) (Some rs2)) (t_run t)).
    { rewrite P1. apply in_or_app. left. apply (g_h _ _ _ _ G). change (s_att s1 (s_cur s1)) with (cur s1). now rewrite Q4. }
    rewrite Ls in A. cbn [Nat.pred] in A. pose proof (do_once c (t_run t) _ _ _ _ E A H0) as X. now injection X. }
  subst rs2.
  assert (b2 = body).
  { assert (In (LRead (s_cur s1) b2 true) (t_run t)).
    { rewrite P1. apply in_or_app. left. apply (g_b _ _ _ _ G). change (s_att s1 (s_cur s1)) with (cur s1). now rewrite Q5. }
    rewrite Ls in B. cbn [Nat.pred] in B. now destruct (read_once c (t_run t) _ _ _ _ _ _ E H0 B). }
  subst b2.
  pose proof (treach_own c pre s1 Tt) as O. pose proof (o_resp _ O) as O1. pose proof (o_gz _ O) as O2.
  pose proof (o_status _ O ltac:(rewrite Q5; exact I) rs Q4) as O3. rewrite Q4 in O1. rewrite Q5 in O2. cbn [stored flagged] in O1, O2.
  exists c, (ls_state ls), m, enc, lab. split; [exact Hr|]. split; [exact P4|]. split; [exact Hlt|]. split.
  - unfold encoding_of in P5. unfold content_encoding. rewrite O1, O2 in P5. rewrite <- Ed.
    unfold settled_at in T1. destruct Pc as [Pc|[Pc|Pc]]; rewrite Pc in P5, T1.
    + destruct (w_send_gzip (c_down c)); [injection P5 as <-; reflexivity|discriminate P5].
    + destruct T1 as [-> _]. destruct (is_gzip body); [injection P5 as <-; reflexivity|discriminate P5].
    + destruct T1 as (-> & r2 & Q1 & [Q2|[_ Q2]]); [rewrite P3 in Q1; injection Q1 as <-; contradiction|].
      rewrite O2 in Q2. rewrite Q2. injection P5 as <-. reflexivity.
  - rewrite P6. rewrite Er at 1. rewrite proxied_status. unfold attempt_entry. rewrite O1, O3, Q6, Ls. reflexivity.
Qed.

(** C72 *)
Lemma known_text : forall E st m, known_message E m -> utf8 (status_message st m).
Proof.
  intros E st m [->|[st' O]]; [apply message_ascii|]. destruct (own_error_text _ _ _ O) as (U & H1 & H2).
  unfold status_message. now rewrite (proj2 (String.eqb_neq _ _) H1), (proj2 (String.eqb_neq _ _) H2).
Qed.

Lemma not_assembled : forall E w dice st m d body, send_status E dice w st m = assemble E w d body ->
  values "Content-Length" (w_header w) <> [].
Proof.
  intros E w dice st m d body H. pose proof (length_header E w d body) as L. rewrite <- H in L.
  rewrite send_status_values, standard_values in L. cbn -[values] in L. rewrite L. discriminate.
Qed.

Lemma document_line : forall t dice st m, utf8 (e_id (t_env t)) -> utf8 (e_version (t_env t)) -> no_gzip_client (t_req t) ->
  known_message (t_env t) m ->
  read_object (rp_body (send_status (t_env t) dice (parsed t) st m)) =
    Some [("j8a", JStr (random_huttese dice)); ("ServerID", JStr (e_id (t_env t)));
      ("Version", JStr (e_version (t_env t))); ("Code", JInt st); ("Message", JStr (status_message st m))].
Proof.
  intros t dice st m H1 H2 Hg Hm. unfold parsed. cbn [send_status rp_body]. rewrite (no_gzip_flag _ _ _ Hg).
  apply status_faithful; auto using huttese_utf8. now apply known_text with (E := t_env t).
Qed.

Lemma line_message : forall t x e r, logs t x [e] -> replies t r -> sized (t_req t) -> timely_run t ->
  utf8 (e_id (t_env t)) -> utf8 (e_version (t_env t)) -> no_gzip_client (t_req t) -> (400 <= rp_status r)%Z ->
  exists dice m, l_error e = Some m /\
    read_object (rp_body r) = Some [("j8a", JStr (random_huttese dice)); ("ServerID", JStr (e_id (t_env t)));
      ("Version", JStr (e_version (t_env t))); ("Code", JInt (rp_status r)); ("Message", JStr m)].
Proof.
  intros t x e r H R Hq Ht H1 H2 Hg Hs.
  assert (X : forall st m enc up, (400 <= st)%Z -> l_error (log_entry (t_env t) x (t_req t) (parsed t) st m enc up) = Some m).
  { intros st m enc up L. unfold log_entry. cbn [l_error]. destruct (Z.gtb_spec st 399); [reflexivity|lia]. }
  destruct (logs_cases t x [e] H) as [(r' & Sv & St & _)|[(dice & st & m & Sv & O & El)|[(c & lab & ls & Sv & L & El)|[F _]]]]; [| | |discriminate F].
  - destruct R as [R|[R|(c & s & [R _] & _)]]; try congruence. assert (r = r') by congruence. subst r'. lia.
  - destruct R as [R|[R|(c & s & [R _] & _)]]; try congruence. rewrite Sv in R. injection R as <-. injection El as ->. cbn [send_status rp_status] in *.
    exists dice, (status_message st m). split; [now apply X|]. apply document_line; auto. right. now exists st.
  - destruct R as [R|[R|(c' & s & Hr & Hin)]]; try congruence. pose proof Hr as [R1 R2]. assert (c' = c) by congruence. subst c'.
    pose proof (lexec_exec _ _ _ _ _ _ _ L) as E. cbn [ls_state linit] in E. assert (s = ls_state ls) by congruence. subst s.
    pose proof (so_far_run _ _ _ _ _ _ L) as J. unfold so_far in J.
    destruct (s_pc (ls_state ls)) eqn:Ep; try (rewrite J in El; discriminate El); try (destruct J as [J _]; rewrite J in El; discriminate El).
    destruct J as (r1 & e1 & J1 & J2 & J3). rewrite J2 in El. injection El as <-. rewrite J1 in Hin. destruct Hin as [->|[]].
    destruct (line_at t x c lab r e Hq _ Hr J3) as (pre & post & s1 & m & enc & _ & _ & _ & P4 & _ & P6).
    destruct (ran_conf t c _ Hr Hq) as (Ee & Ed & _). rewrite P6. rewrite X by exact Hs. unfold said in P4. rewrite Ee, Ed in P4.
    destruct P4 as [(dice & m0 & Q1 & Q2 & Q3)|(d & body & Q1 & _)].
    + exists dice, m. split; [reflexivity|]. rewrite Q1 at 1. rewrite document_line by assumption. now rewrite Q2.
    + exfalso. assert (Y : exists dice st m, r = send_status (t_env t) dice (parsed t) st m).
      { destruct (run_kind t c _ r Hr Hq Ht) as [(dice & st & m1 & _ & _ & Er)|(dice & rs & b & _ & Hlt & Er)]; [rewrite J1; now left|eauto|].
        rewrite Er in Hs. rewrite proxied_status in Hs. unfold proxied in Er. rewrite (proj2 (client_error_range (ur_status rs))) in Er by lia.
        eauto. }
      destruct Y as (dice & st & m1 & Y). rewrite Y in Q1. apply not_assembled in Q1. apply Q1. unfold parsed. now apply w_header_values.
Qed.

(** C73 *)
Lemma relayed_encoding : forall t x e r rs body, logs t x [e] -> relayed t r rs body -> sized (t_req t) -> timely_run t ->
  canonical_keys (ur_header rs) -> ~ (400 <= ur_status rs < 500)%Z -> rp_body r <> "" ->
  values "Content-Encoding" (rp_header r) = [l_encoding e].
Proof.
  intros t x e r rs body H Hr Hq Ht Hc Hn Hb.
  destruct (relayed_line t x e r rs body H Hr Hq Ht) as (c & s & m & enc & lab & _ & _ & _ & -> & ->). cbn [log_entry l_encoding].
  destruct (relayed_proxied t r rs body Hr Hq Ht) as (dice & -> & _). unfold proxied in *. rewrite not_client_error in * by exact Hn.
  unfold parsed in *. rewrite encoding_header by exact Hc. cbn [df_gz_header df_encoding].
  destruct (String.eqb_spec (rp_body (assemble (t_env t) (parse_incoming (t_env t) (ch_fresh (t_chance t)) (t_req t))
    (Draft rs (ur_status rs) (is_gzip body) rs (is_gzip body) rs) body)) "") as [E|E]; [contradiction|reflexivity].
Qed.

(** C74 *)
Lemma relayed_attempt : forall t x e r rs body, logs t x [e] -> relayed t r rs body -> sized (t_req t) -> timely_run t ->
  exists u, l_up e = Some u /\ ue_status u = ur_status rs /\ ue_abort u = false.
Proof.
  intros t x e r rs body H Hr Hq Ht.
  destruct (relayed_line t x e r rs body H Hr Hq Ht) as (c & s & m & enc & lab & _ & _ & _ & _ & ->). eexists. repeat split; reflexivity.
Qed.

Lemma attempt_line : forall t x e u, logs t x [e] -> l_up e = Some u -> sized (t_req t) ->
  exists ys, sends t ys /\ ys <> [] /\ (forall y, In y ys -> uq_uri y = ue_uri u) /\
    ue_count u = itoa_Z (Z.of_nat (length ys)) ++ "/" ++ itoa_Z (up_max_attempts (c_up (t_cfg t))).
Proof.
  intros t x e u H Hu Hq.
  destruct (logs_cases t x [e] H) as [(r' & Sv & St & El)|[(dice & st & m & Sv & O & El)|[(c & lab & ls & Sv & L & El)|[F _]]]]; [| | |discriminate F].
  - injection El as ->. discriminate Hu.
  - injection El as ->. discriminate Hu.
  - pose proof (lexec_exec _ _ _ _ _ _ _ L) as E. cbn [ls_state linit] in E. assert (Hr : ran t c (ls_state ls)) by (split; assumption).
    pose proof (so_far_run _ _ _ _ _ _ L) as J. unfold so_far in J.
    destruct (s_pc (ls_state ls)) eqn:Ep; try (rewrite J in El; discriminate El); try (destruct J as [J _]; rewrite J in El; discriminate El).
    destruct J as (r1 & e1 & J1 & J2 & J3). rewrite J2 in El. injection El as <-.
    destruct (line_at t x c lab r1 e Hq _ Hr J3) as (pre & post & s1 & m & enc & P1 & P2 & P3 & P4 & P5 & P6). rewrite P6 in Hu. cbn [log_entry l_up] in Hu.
    exists (s_sent (ls_state ls)).
    assert (After : after_out (s_pc s1)) by (unfold encoding_of in P5; destruct (s_pc s1); try discriminate P5; exact I).
    assert (R2 : exec c s1 post = Some (ls_state ls)) by (rewrite P1, exec_app, P2 in E; exact E).
    destruct (after_out_exec c post s1 _ After R2) as [S3 C3].
    pose proof (reach_counts c pre s1 (exec_reach c pre s1 P2)) as K.
    assert (Ls : length (s_sent (ls_state ls)) = S (s_cur s1)).
    { rewrite S3. pose proof (k_all _ _ _ K) as Ka. unfold encoding_of in P5. destruct (s_pc s1); try discriminate P5;
        cbn [pos Nat.eqb] in Ka; rewrite <- Ka by discriminate; lia. }
    split; [exists c, (ls_state ls); split; [exact Hr|reflexivity]|]. split; [intros Z; rewrite Z in Ls; discriminate Ls|].
    unfold attempt_entry in Hu. destruct (a_resp (cur s1)); [|discriminate Hu]. injection Hu as <-. cbn [ue_uri ue_count]. split.
    + intros y Hy. now rewrite (attempts_same c _ _ E y Hy).
    + rewrite Ls. destruct (ran_inv t c _ Hr Hq) as (_ & _ & ro & ur & la & _ & _ & Ec). cbv zeta in Ec. rewrite Ec. reflexivity.
Qed.

(** The client's address *)
Lemma line_address : forall t x e a b c d port, logs t x [e] -> sized (t_req t) -> is_octet a -> is_octet b -> is_octet c -> is_octet d ->
  x_addr x = dotted a b c d ++ ":" ++ itoa port -> l_addr e = dotted a b c d.
Proof.
  intros t x e a b c d port H Hq Ha Hb Hc Hd Hx.
  assert (X : l_addr e = extract_addr (x_addr x)).
  { destruct (logs_cases t x [e] H) as [(r' & _ & _ & El)|[(dice & st & m & _ & _ & El)|[(c0 & lab & ls & Sv & L & El)|[F _]]]];
      [now injection El as ->|now injection El as ->| |discriminate F].
    pose proof (so_far_run _ _ _ _ _ _ L) as J. unfold so_far in J.
    destruct (s_pc (ls_state ls)) eqn:Ep; try (rewrite J in El; discriminate El); try (destruct J as [J _]; rewrite J in El; discriminate El).
    destruct J as (r1 & e1 & J1 & J2 & (pre & post & s1 & m & enc & _ & _ & _ & _ & _ & Q)). rewrite J2 in El. injection El as <-. now rewrite Q. }
  rewrite X, Hx. now apply extract_host_port.
Qed.
