(** Proofs for C114: every run on time is one of the sequential proxy, and the other way round. *)
From Coq Require Import String Ascii List Bool ZArith NArith Lia.
From Verif Require Import GoStr Header Exchange ExchangeProofs Machine MachineSpec MachineProofs MachineTimely MachineRaces SequentialSpec.
Import ListNotations.
Local Open Scope string_scope.

(** * From runs to sequences *)

Lemma whole_run_old : forall c ls s r, exec c init ls = Some s -> on_time c init ls -> s_out s = [r] ->
  forall i, i < s_cur s -> failed_attempt ls i \/ In (LUpTimer i) ls.
Proof. intros c ls s r H Ht _. exact (t_old _ _ _ (treach_told c ls s (exec_treach c ls s H Ht))). Qed.

Lemma choose_fates : forall ls n, (forall i, i < n -> failed_attempt ls i \/ In (LUpTimer i) ls) ->
  exists fs, length fs = n /\ (forall f, In f fs -> f = Fails \/ f = TimesOut) /\ happened ls fs.
Proof.
  intros ls n. induction n as [|n IH]; intros H.
  - exists []. split; [reflexivity|]. split; [intros f []|]. intros i f E. destruct i; discriminate E.
  - destruct IH as (fs & L & A & Hp); [intros i Hi; apply H; lia|].
    assert (X : exists f, (f = Fails \/ f = TimesOut) /\ match f with Fails => failed_attempt ls n | TimesOut => In (LUpTimer n) ls | _ => False end).
    { destruct (H n ltac:(lia)) as [F|F]; [exists Fails|exists TimesOut]; auto. }
    destruct X as (f & F1 & F2). exists (fs ++ [f])%list. split; [rewrite app_length; cbn; lia|]. split.
    + intros g G. apply in_app_or in G. destruct G as [G|[<-|[]]]; auto.
    + intros i g G. destruct (Nat.lt_ge_cases i (length fs)) as [Li|Li].
      * rewrite nth_error_app1 in G by exact Li. exact (Hp i g G).
      * rewrite nth_error_app2 in G by exact Li. assert (i = n).
        { destruct (i - length fs) as [|d] eqn:E; [lia|]. destruct d; discriminate G. }
        subst i. rewrite L, Nat.sub_diag in G. injection G as <-. destruct F1 as [->| ->]; exact F2.
Qed.

Lemma sequential_app : forall c fs k r g, (forall f, In f fs -> f = Fails \/ f = TimesOut) -> sequential c k [g] r ->
  sequential c (length fs + k) (fs ++ [g]) r.
Proof.
  intros c fs. induction fs as [|f fs IH]; intros k r g A H; [exact H|]. cbn [length app plus]. apply sq_again; [apply A; now left|].
  apply IH; [|exact H]. intros f' F. apply A. now right.
Qed.

Lemma happened_snoc : forall ls fs g, happened ls fs ->
  match g with
  | Good rs body => answered ls (length fs) rs /\ In (LRead (length fs) body true) ls
  | Fails => failed_attempt ls (length fs) | TimesOut => In (LUpTimer (length fs)) ls | Over => In LDwnTimer ls
  end -> happened ls (fs ++ [g]).
Proof.
  intros ls fs g Hp G i f E. destruct (Nat.lt_ge_cases i (length fs)) as [Li|Li].
  - rewrite nth_error_app1 in E by exact Li. exact (Hp i f E).
  - rewrite nth_error_app2 in E by exact Li. destruct (i - length fs) as [|d] eqn:D; [|destruct d; discriminate E].
    assert (i = length fs) by lia. subst i. injection E as <-. exact G.
Qed.

Lemma further_room : forall c k ls s, further c k -> exec c init ls = Some s -> length (s_sent s) <= S k.
Proof.
  intros c k ls s [F1 F2] H. destruct (in_dec string_dec (w_method (c_down c)) ["GET"; "HEAD"; "OPTIONS"; "TRACE"; "PUT"; "DELETE"]) as [R|R].
  - specialize (F1 R). pose proof (attempts_bound c ls s H). lia.
  - specialize (F2 R). pose proof (attempts_once c ls s R H). lia.
Qed.

Lemma sent_repeat : forall c ls s, exec c init ls = Some s -> s_sent s = repeat (c_request c) (length (s_sent s)).
Proof.
  intros c ls s H. pose proof (attempts_same c ls s H) as A. induction (s_sent s) as [|x l IH]; [reflexivity|]. cbn [length repeat].
  rewrite (A x (or_introl eq_refl)). f_equal. apply IH. intros y Y. apply A. now right.
Qed.

Lemma last_one : forall c k n, further c k -> n <= k -> (repeatable c -> (c_max c <= Z.of_nat (S n))%Z) -> n = k.
Proof.
  intros c k n [F1 F2] L H. destruct (in_dec string_dec (w_method (c_down c)) ["GET"; "HEAD"; "OPTIONS"; "TRACE"; "PUT"; "DELETE"]) as [R|R].
  - specialize (F1 R). specialize (H R). lia.
  - specialize (F2 R). lia.
Qed.

Lemma sent_some : forall c ls s r, exec c init ls = Some s -> s_out s = [r] -> length (s_sent s) <> 0.
Proof.
  intros c ls s r H Ho. destruct (out_from c ls s r H Ho) as (l1 & s1 & l & s2 & l2 & -> & E1 & E2 & E3 & O1 & O2).
  assert (R2 : exec c init (l1 ++ [l]) = Some s2) by (rewrite exec_app, E1; cbn [exec]; now rewrite E2).
  pose proof (reach_counts c _ s2 (exec_reach c _ s2 R2)) as K2.
  assert (P2 : s_pc s2 = PLog1).
  { clear - E2 O1 O2. destruct s1 as [m n dw fl p sent out]. simp. subst out. step_cases E2; simp; subst; simp; try discriminate; auto. }
  destruct (after_out_exec c l2 s2 s) as [S3 C3]; [rewrite P2; exact I | exact E3|].
  pose proof (k_all _ _ _ K2 ltac:(rewrite P2; discriminate)) as L. rewrite P2 in L. cbn [pos Nat.eqb] in L. rewrite S3. lia.
Qed.

Lemma run_sequential : forall c k ls s r, exec c init ls = Some s -> on_time c init ls -> s_out s = [r] -> further c k ->
  exists fs, sequential c k fs r /\ happened ls fs /\ s_sent s = repeat (c_request c) (length fs).
Proof.
  intros c k ls s r H Ht Ho F. destruct (whole_run c ls s r H Ht Ho) as [Cu I]. pose proof (whole_run_old c ls s r H Ht Ho) as Old.
  destruct (choose_fates ls (s_cur s) Old) as (fs & L & A & Hp). pose proof (further_room c k ls s F H) as Room.
  pose proof (sent_some c ls s r H Ho) as N0. pose proof (sent_repeat c ls s H) as Rp.
  assert (Ls : length (s_sent s) = S (length fs)) by lia.
  assert (Fin : forall g, match g with
    | Good rs body => answered ls (length fs) rs /\ In (LRead (length fs) body true) ls
    | Fails => failed_attempt ls (length fs) | TimesOut => In (LUpTimer (length fs)) ls | Over => In LDwnTimer ls end ->
    sequential c (k - length fs) [g] r -> exists fs, sequential c k fs r /\ happened ls fs /\ s_sent s = repeat (c_request c) (length fs)).
  { intros g G Q. exists (fs ++ [g])%list. split; [|split; [now apply happened_snoc|]].
    - replace k with (length fs + (k - length fs)) by lia. now apply sequential_app.
    - rewrite app_length. cbn [length]. rewrite Nat.add_1_r, <- Ls. exact Rp. }
  rewrite L in Fin. destruct I as [(dice & -> & D)|[_ [(dice & -> & D & E)|[(dice & -> & D & E)|(dice & rs & body & D1 & D2 & D3 & ->)]]]].
  - apply (Fin Over D). apply sq_over.
  - apply (Fin TimesOut D). rewrite (last_one c k (s_cur s) F ltac:(lia) E), Nat.sub_diag. apply sq_times_out.
  - apply (Fin Fails D). rewrite (last_one c k (s_cur s) F ltac:(lia) E), Nat.sub_diag. apply sq_fails.
  - apply (Fin (Good rs body) (conj D1 D2)). now apply sq_good.
Qed.

(** * From sequences to runs *)

(** What the handler sees in state [s], without timer of the request *)
Definition sees (s : state) (p : pc) (n : nat) (a : att) (sent : list up_request) : Prop :=
  s_pc s = p /\ s_cur s = n /\ s_dwn s = false /\ s_flag s = false /\ s_att s n = a /\ s_sent s = sent /\ s_out s = [].

(** Like [exec], on time *)
Definition runs (c : conf) (s : state) (ls : list label) (s' : state) : Prop := exec c s ls = Some s' /\ on_time c s ls.

Lemma runs_nil : forall c s, runs c s [] s.
Proof. intros c s. split; [reflexivity|exact I]. Qed.

Lemma runs_cons : forall c s l s1 ls s2, step c s l = Some s1 -> timely s l -> runs c s1 ls s2 -> runs c s (l :: ls) s2.
Proof. intros c s l s1 ls s2 E T [R1 R2]. split; cbn [exec on_time]; rewrite E; [exact R1|]. split; assumption. Qed.

Lemma runs_app : forall c s l1 s1 l2 s2, runs c s l1 s1 -> runs c s1 l2 s2 -> runs c s (l1 ++ l2) s2.
Proof.
  intros c s l1. revert s. induction l1 as [|l l1 IH]; intros s s1 l2 s2 [E T] R; cbn [app].
  - injection E as <-. exact R.
  - cbn [exec on_time] in *. destruct (step c s l) as [s0|] eqn:E0; [|discriminate E]. destruct T as [T1 T2].
    apply (runs_cons c s l s0); [exact E0|exact T1|]. apply (IH s0 s1); [split; assumption|exact R].
Qed.

Ltac see H := destruct H as (Hp & Hn & Hd & Hf & Ha & Hs & Ho).

(** One step of the run; the goal is [exists s', runs c s (l :: ls) s' /\ _]. *)
Lemma advance : forall c s l s1 ls (Q : state -> Prop), step c s l = Some s1 -> timely s l -> (exists s', runs c s1 ls s' /\ Q s') ->
  exists s', runs c s (l :: ls) s' /\ Q s'.
Proof. intros c s l s1 ls Q E T (s' & R & H). exists s'. split; [now apply (runs_cons c s l s1)|exact H]. Qed.

Lemma upd_same : forall i f m, upd i f m i = f (m i).
Proof. intros i f m. unfold upd. now rewrite Nat.eqb_refl. Qed.

Ltac expand H := destruct H as (Hp & Hn & Hd & Hf & Ha & Hs & Ho);
  match goal with s : state |- _ => destruct s as [m n0 dw fl p0 sent0 out0] end;
  cbn [s_pc s_cur s_dwn s_flag s_att s_sent s_out] in *; subst.

Ltac seen := unfold sees; cbn [s_pc s_cur s_dwn s_flag s_att s_sent s_out go with_atts with_s_flag at_cur check_dwn check_up write cur];
  rewrite ?upd_same; repeat split; try assumption; try reflexivity.

Lemma go_start : forall c d s n sent, c_ok c = true -> sees s PStart n new_att sent ->
  exists s', step c s (LMain d) = Some s' /\ sees s' PSelHdr n (with_h HDoing new_att) (sent ++ [c_request c]).
Proof.
  intros c d s n sent Ok H. expand H. cbn [step main_step s_pc]. rewrite Ok. eexists. split; [reflexivity|]. seen. now rewrite Ha.
Qed.

Lemma go_do : forall c s n a sent o p, sees s p n a sent -> a_h a = HDoing ->
  exists s', step c s (LDo n o) = Some s' /\ sees s' p n (with_h (HGot o) a) sent.
Proof.
  intros c s n a sent o p H A. expand H. cbn [step goroutine_step s_att]. rewrite A. eexists. split; [reflexivity|]. seen.
Qed.

Lemma go_resp : forall c s n a sent o p, sees s p n a sent -> a_h a = HGot o ->
  exists s', step c s (LSetResp n) = Some s' /\ sees s' p n (with_resp o (with_h (HSet o) a)) sent.
Proof.
  intros c s n a sent o p H A. expand H. cbn [step goroutine_step s_att]. rewrite A. eexists. split; [reflexivity|]. seen.
Qed.

Lemma go_hdr : forall c s n a sent o p, sees s p n a sent -> a_h a = HSet o -> a_flag a = false ->
  exists s', step c s (LCloseHdr n) = Some s' /\ sees s' p n (with_hdr true (with_h (HEnd o) a)) sent.
Proof.
  intros c s n a sent o p H A Fl. expand H. cbn [step goroutine_step s_att s_flag]. rewrite A, Fl. eexists. split; [reflexivity|]. seen.
  cbn [negb andb]. now rewrite orb_true_r.
Qed.

Lemma go_sel_hdr : forall c s n a sent, sees s PSelHdr n a sent -> a_hdr a = true ->
  exists s', step c s (LSel CComplete) = Some s' /\ sees s' PRetHdr n a sent.
Proof.
  intros c s n a sent H A. expand H. cbn [step sel_step s_pc cur s_att s_cur]. rewrite A. eexists. split; [reflexivity|]. seen.
Qed.

Lemma go_ret_hdr : forall c d s n a sent, sees s PRetHdr n a sent ->
  exists s', step c s (LMain d) = Some s' /\ sees s' (PProc (h_seen (a_h a))) n a sent.
Proof.
  intros c d s n a sent H. expand H. cbn [step main_step s_pc cur s_att s_cur]. eexists. split; [reflexivity|]. seen.
Qed.

Lemma go_proc_bad : forall c d s n a sent o, sees s (PProc o) n a sent -> match o with Some (Some _) => False | _ => True end ->
  exists s', step c s (LMain d) = Some s' /\ sees s' PRetry n a sent.
Proof.
  intros c d s n a sent o H A. expand H. cbn [step main_step s_pc cur s_att s_cur]. destruct o as [[rs|]|]; [contradiction|..]; (eexists; split; [reflexivity|]; seen).
Qed.

Lemma go_proc : forall c d s n a sent rs, sees s (PProc (Some (Some rs))) n a sent -> a_ctx a = false -> a_flag a = false ->
  exists s', step c s (LMain d) = Some s' /\ sees s' PSelBody n (with_b (BStart rs) (with_flag false a)) sent.
Proof.
  intros c d s n a sent rs H X Fl. expand H. cbn [step main_step s_pc]. unfold up_aborted. cbn [cur s_att s_cur]. rewrite X, Fl. cbn [orb].
  eexists. split; [reflexivity|]. seen. unfold up_aborted. cbn [cur s_att s_cur]. now rewrite X, Fl.
Qed.

Lemma go_status : forall c s n a sent rs p, sees s p n a sent -> a_b a = BStart rs ->
  exists s', step c s (LStatus n) = Some s' /\ sees s' p n (with_status (ur_status rs) (with_b BReading a)) sent.
Proof.
  intros c s n a sent rs p H A. expand H. cbn [step goroutine_step s_att]. rewrite A. eexists. split; [reflexivity|]. seen.
Qed.

Lemma go_read : forall c s n a sent b ok p, sees s p n a sent -> a_b a = BReading ->
  exists s', step c s (LRead n b ok) = Some s' /\ sees s' p n (with_b (BGot b ok) a) sent.
Proof.
  intros c s n a sent b ok p H A. expand H. cbn [step goroutine_step s_att]. rewrite A. eexists. split; [reflexivity|]. seen.
Qed.

Lemma go_gz : forall c s n a sent b ok p, sees s p n a sent -> a_b a = BGot b ok ->
  exists s', step c s (LGz n) = Some s' /\ sees s' p n (let a' := with_b (BFlag b ok) a in if is_gzip b then with_gz true a' else a') sent.
Proof.
  intros c s n a sent b ok p H A. expand H. cbn [step goroutine_step s_att]. rewrite A. cbv zeta. destruct (is_gzip b); (eexists; split; [reflexivity|]; seen).
Qed.

Lemma go_bdy : forall c s n a sent b ok p, sees s p n a sent -> a_b a = BFlag b ok -> a_flag a = false ->
  exists s', step c s (LCloseBody n) = Some s' /\ sees s' p n (with_bdy true (with_b (BEnd b ok) a)) sent.
Proof.
  intros c s n a sent b ok p H A Fl. expand H. cbn [step goroutine_step s_att s_flag cur s_cur]. rewrite A, Fl. eexists. split; [reflexivity|]. seen.
  cbn [negb andb]. now rewrite orb_true_r.
Qed.

Lemma go_sel_bdy : forall c s n a sent, sees s PSelBody n a sent -> a_bdy a = true ->
  exists s', step c s (LSel CComplete) = Some s' /\ sees s' PRetBody n a sent.
Proof.
  intros c s n a sent H A. expand H. cbn [step sel_step s_pc cur s_att s_cur]. rewrite A. eexists. split; [reflexivity|]. seen.
Qed.

Lemma go_ret_bdy : forall c d s n a sent b, sees s PRetBody n a sent -> a_b a = BEnd b true ->
  exists s', step c s (LMain d) = Some s' /\ sees s' (PCheck1 b true) n a sent.
Proof.
  intros c d s n a sent b H A. expand H. cbn [step main_step s_pc cur s_att s_cur]. rewrite A. cbn [b_seen]. eexists. split; [reflexivity|]. seen.
Qed.

Lemma go_check1 : forall c d s n a sent b, sees s (PCheck1 b true) n a sent ->
  exists s', step c s (LMain d) = Some s' /\ sees s' (PCheck2 b true) n a sent.
Proof.
  intros c d s n a sent b H. expand H. cbn [step main_step s_pc]. eexists. split; [reflexivity|]. seen.
Qed.

Lemma go_check2 : forall c d s n a sent b, sees s (PCheck2 b true) n a sent -> a_ctx a = false -> a_flag a = false ->
  exists s', step c s (LMain d) = Some s' /\ sees s' (PCheck3 b true) n (with_flag false a) sent.
Proof.
  intros c d s n a sent b H X Fl. expand H. cbn [step main_step s_pc]. eexists. split; [reflexivity|].
  assert (U : forall p, up_aborted (St m n false false p sent []) = false) by (intros p; unfold up_aborted; cbn [cur s_att s_cur]; now rewrite X, Fl).
  seen; rewrite ?U; reflexivity.
Qed.

Lemma go_check3 : forall c d s n a sent b rs, sees s (PCheck3 b true) n a sent -> a_resp a = Some rs -> (ur_status rs < 500)%Z ->
  exists s', step c s (LMain d) = Some s' /\ sees s' (PKind b) n a sent.
Proof.
  intros c d s n a sent b rs H R L. expand H. cbn [step main_step s_pc cur s_att s_cur negb]. rewrite R. eexists. split; [reflexivity|].
  assert (Z.ltb (ur_status rs) 500 = true) as -> by now apply Z.ltb_lt. seen.
Qed.

Lemma go_kind : forall c d s n a sent b, sees s (PKind b) n a sent ->
  exists s', step c s (LMain d) = Some s' /\ sees s' (if client_error (a_status a) then PErr else PBuild StHeader b new_draft) n a sent.
Proof.
  intros c d s n a sent b H. expand H. cbn [step main_step s_pc cur s_att s_cur]. eexists. split; [reflexivity|]. seen.
Qed.

(** Building a response from one whole attempt *)
Lemma go_build : forall c d s n a sent rs b st dr, sees s (PBuild st b dr) n a sent -> a_resp a = Some rs -> a_status a = ur_status rs -> a_gz a = is_gzip b ->
  draft_ok c st rs b dr -> st <> StWrite ->
  exists s' st' dr', step c s (LMain d) = Some s' /\ sees s' (PBuild st' b dr') n a sent /\ draft_ok c st' rs b dr' /\
    match st with StHeader => st' = StStatus | StStatus => st' = StBody | StBody => st' = StLength | StLength => st' = StEnc1
    | StEnc1 => st' = StWrite \/ st' = StEnc2 | StEnc2 => st' = StWrite \/ st' = StEnc3 | StEnc3 => st' = StWrite | StWrite => False end.
Proof.
  intros c d s n a sent rs b st dr H R T G D N. expand H. cbn [step main_step s_pc cur s_att s_cur] in *.
  destruct st; cbn [draft_ok] in D; try (now destruct N); rewrite ?R, ?T, ?G.
  - do 3 eexists. split; [reflexivity|]. split; [seen|]. split; [|reflexivity]. reflexivity.
  - do 3 eexists. split; [reflexivity|]. split; [seen|]. split; [|reflexivity]. cbn. split; [exact D|reflexivity].
  - do 3 eexists. split; [reflexivity|]. split; [seen|]. split; [|reflexivity]. cbn. intuition.
  - do 3 eexists. split; [reflexivity|]. split; [seen|]. split; [|reflexivity]. cbn. intuition.
  - destruct D as (D1 & D2 & D3 & D4). destruct (w_send_gzip (c_down c) || String.eqb (encode_body (c_env c) (c_down c) (df_gz_body dr) b) "") eqn:E.
    + do 3 eexists. split; [reflexivity|]. split; [seen|]. split; [|now left]. cbn. split; [exact D2|].
      unfold full. rewrite (assemble_skip _ _ dr b) with (g := is_gzip b) (r := rs); [now rewrite D1, D2, D3, D4|].
      apply orb_true_iff in E. destruct E as [E|E]; [now left|]. right. now apply String.eqb_eq.
    + do 3 eexists. split; [reflexivity|]. split; [seen|]. split; [|now right]. cbn. repeat split; assumption.
  - destruct D as (D1 & D2 & D3 & D4). destruct (is_gzip b) eqn:Gz.
    + do 3 eexists. split; [reflexivity|]. split; [seen|]. split; [|now left]. cbn. split; [exact D2|].
      rewrite (assemble_gz _ _ (Draft _ _ _ _ true _) b eq_refl rs). unfold full. cbn. now rewrite D1, D2, D3, D4, Gz.
    + do 3 eexists. split; [reflexivity|]. split; [seen|]. split; [|now right]. cbn. repeat split; solve [assumption|congruence].
  - destruct D as (D1 & D2 & D3 & D4 & D5). do 3 eexists. split; [reflexivity|]. split; [seen|]. split; [|reflexivity]. cbn. split; [exact D2|].
    unfold full. now rewrite D1, D2, D3, D4, D5.
Qed.

Lemma go_write : forall c d s n a sent rs b dr, sees s (PBuild StWrite b dr) n a sent -> draft_ok c StWrite rs b dr -> (100 <= ur_status rs < 500)%Z ->
  client_error (ur_status rs) = false ->
  exists s', step c s (LMain d) = Some s' /\ s_pc s' = PLog1 /\ s_sent s' = sent /\ s_out s' = [proxied (c_env c) d (c_down c) rs b].
Proof.
  intros c d s n a sent rs b dr H [D1 D2] V C. expand H. cbn [step main_step s_pc]. rewrite D1.
  assert (valid_code (ur_status rs) = true) as -> by (unfold valid_code; apply andb_true_iff; split; apply Z.leb_le; lia).
  eexists. split; [reflexivity|]. cbn [s_pc s_sent s_out go write app]. split; [reflexivity|]. split; [reflexivity|]. unfold proxied. rewrite C, D2. reflexivity.
Qed.

Lemma go_err : forall c d s n a sent rs b, sees s PErr n a sent -> a_status a = ur_status rs -> (100 <= ur_status rs < 500)%Z -> client_error (ur_status rs) = true ->
  exists s', step c s (LMain d) = Some s' /\ s_pc s' = PLog1 /\ s_sent s' = sent /\ s_out s' = [proxied (c_env c) d (c_down c) rs b].
Proof.
  intros c d s n a sent rs b H T V C. expand H. cbn [step main_step s_pc cur s_att s_cur]. rewrite T.
  assert (valid_code (ur_status rs) = true) as -> by (unfold valid_code; apply andb_true_iff; split; apply Z.leb_le; lia).
  eexists. split; [reflexivity|]. cbn [s_pc s_sent s_out go write app]. split; [reflexivity|]. split; [reflexivity|]. unfold proxied. now rewrite C.
Qed.

(** Further attempts, counted from attempt [n] *)
Definition permits (c : conf) (n k : nat) : Prop :=
  (repeatable c /\ Z.of_nat (S (n + k)) = Z.max 1 (c_max c)) \/ (~ repeatable c /\ k = 0).

Lemma further_permits : forall c k, further c k -> permits c 0 k.
Proof.
  intros c k [F1 F2]. destruct (in_dec string_dec (w_method (c_down c)) ["GET"; "HEAD"; "OPTIONS"; "TRACE"; "PUT"; "DELETE"]) as [R|R].
  - left. split; [exact R|exact (F1 R)].
  - right. split; [exact R|exact (F2 R)].
Qed.

Lemma permits_next : forall c n k, permits c n (S k) -> permits c (S n) k.
Proof. intros c n k [[R E]|[R E]]; [|discriminate E]. left. split; [exact R|]. rewrite <- E. f_equal. lia. Qed.

Lemma go_retry : forall c d s n a sent k, permits c n (S k) -> sees s PRetry n a sent ->
  exists s', step c s (LMain d) = Some s' /\ sees s' PStart (S n) new_att sent.
Proof.
  intros c d s n a sent k P H. expand H. cbn [step main_step s_pc]. destruct P as [[R E]|[R E]]; [|discriminate E].
  assert (may_retry c (St m n false false PRetry sent []) = true) as ->.
  { unfold may_retry. cbn [s_cur]. apply andb_true_iff. split; [now apply mem_str_In|]. apply Z.ltb_lt. lia. }
  eexists. split; [reflexivity|]. seen. 
Qed.

Lemma go_no_retry : forall c d s n a sent, permits c n 0 -> sees s PRetry n a sent ->
  exists s', step c s (LMain d) = Some s' /\ sees s' PFin1 n a sent.
Proof.
  intros c d s n a sent P H. expand H. cbn [step main_step s_pc].
  assert (may_retry c (St m n false false PRetry sent []) = false) as ->.
  { unfold may_retry. cbn [s_cur]. destruct P as [[R E]|[R _]].
    - assert (Z.ltb (Z.of_nat (S n)) (c_max c) = false) as -> by (apply Z.ltb_ge; lia). apply andb_false_r.
    - now rewrite (repeatable_mem c R). }
  eexists. split; [reflexivity|]. seen.
Qed.

Lemma go_fin1 : forall c d s n a sent, sees s PFin1 n a sent -> exists s', step c s (LMain d) = Some s' /\ sees s' PFin2 n a sent.
Proof. intros c d s n a sent H. expand H. cbn [step main_step s_pc]. eexists. split; [reflexivity|]. seen. Qed.

Lemma go_fin2 : forall c d s n a sent, sees s PFin2 n a sent ->
  exists s', step c s (LMain d) = Some s' /\ s_pc s' = PLog1 /\ s_sent s' = sent /\
    s_out s' = [if a_ctx a || a_flag a then gave_up_upstream c d else gave_up_error c d].
Proof.
  intros c d s n a sent H. expand H. cbn [step main_step s_pc]. unfold up_aborted. cbn [cur s_att s_cur].
  destruct (a_ctx (m n) || a_flag (m n)); (eexists; split; [reflexivity|]; split; [reflexivity|]; split; reflexivity).
Qed.

(** The rest of a run is the log line. *)
Lemma go_log : forall c s, s_pc s = PLog1 -> exists ls s', runs c s ls s' /\ s_pc s' = PDone /\ s_sent s' = s_sent s /\ s_out s' = s_out s.
Proof.
  intros c s H. destruct s as [m n dw fl p sent out]. cbn [s_pc] in H. subst p.
  destruct (w_send_gzip (c_down c)) eqn:G.
  - exists [LMain 0]. eexists. split; [eapply runs_cons; [cbn [step main_step s_pc]; rewrite G; reflexivity|exact I|apply runs_nil]|]. repeat split.
  - destruct (a_resp (m n)) as [rs|] eqn:R.
    + assert (E1 : step c (St m n dw fl PLog1 sent out) (LMain 0) = Some (St m n dw fl PLog2 sent out)) by (cbn [step main_step s_pc cur s_att s_cur]; now rewrite G, R).
      destruct (a_gz (m n)) eqn:Z.
      * exists [LMain 0; LMain 0], (St m n dw fl PDone sent out). split; [|repeat split].
        assert (E2 : step c (St m n dw fl PLog2 sent out) (LMain 0) = Some (St m n dw fl PDone sent out)) by (cbn [step main_step s_pc cur s_att s_cur]; now rewrite Z).
        apply (runs_cons _ _ _ _ _ _ E1 I), (runs_cons _ _ _ _ _ _ E2 I), runs_nil.
      * exists [LMain 0; LMain 0; LMain 0], (St m n dw fl PDone sent out). split; [|repeat split].
        assert (E2 : step c (St m n dw fl PLog2 sent out) (LMain 0) = Some (St m n dw fl PLog3 sent out)) by (cbn [step main_step s_pc cur s_att s_cur]; now rewrite Z).
        assert (E3 : step c (St m n dw fl PLog3 sent out) (LMain 0) = Some (St m n dw fl PDone sent out)) by (cbn [step main_step s_pc cur s_att s_cur]; now rewrite R).
        apply (runs_cons _ _ _ _ _ _ E1 I), (runs_cons _ _ _ _ _ _ E2 I), (runs_cons _ _ _ _ _ _ E3 I), runs_nil.
    + exists [LMain 0]. eexists. split; [eapply runs_cons; [cbn [step main_step s_pc cur s_att s_cur]; rewrite G, R; reflexivity|exact I|apply runs_nil]|]. repeat split.
Qed.

Lemma sees_cur : forall s p n a sent, sees s p n a sent -> n = s_cur s.
Proof. intros s p n a sent H. symmetry. exact (proj1 (proj2 H)). Qed.

Ltac chain := repeat (eapply runs_cons; [eassumption | first [exact I | eapply sees_cur; eassumption] |]); apply runs_nil.

Lemma attempt_fails : forall c s n sent, c_ok c = true -> sees s PStart n new_att sent ->
  exists s' a, runs c s [LMain 0; LDo n None; LSetResp n; LCloseHdr n; LSel CComplete; LMain 0; LMain 0] s' /\
    sees s' PRetry n a (sent ++ [c_request c]) /\ a_ctx a || a_flag a = false.
Proof.
  intros c s n sent Ok V0. destruct (go_start c 0 s n sent Ok V0) as (s1 & E1 & V1). destruct (go_do c s1 n _ _ None _ V1 eq_refl) as (s2 & E2 & V2).
  destruct (go_resp c s2 n _ _ None _ V2 eq_refl) as (s3 & E3 & V3). destruct (go_hdr c s3 n _ _ None _ V3 eq_refl eq_refl) as (s4 & E4 & V4).
  destruct (go_sel_hdr c s4 n _ _ V4 eq_refl) as (s5 & E5 & V5). destruct (go_ret_hdr c 0 s5 n _ _ V5) as (s6 & E6 & V6).
  destruct (go_proc_bad c 0 s6 n _ _ _ V6 I) as (s7 & E7 & V7).
  eexists s7, _. split; [chain|]. split; [exact V7|reflexivity].
Qed.

Lemma go_timer : forall c s n a sent p, sees s p n a sent -> a_h a = HDoing -> a_ctx a = false ->
  exists s', step c s (LUpTimer n) = Some s' /\ sees s' p n (with_ctx true a) sent.
Proof.
  intros c s n a sent p H A X. expand H. cbn [step goroutine_step s_att]. rewrite A, X. eexists. split; [reflexivity|]. seen.
Qed.

Lemma go_sel_up : forall c s n a sent, sees s PSelHdr n a sent -> a_ctx a = true ->
  exists s', step c s (LSel CUp) = Some s' /\ sees s' PRetHdr n (with_status 0 (with_flag true a)) sent.
Proof.
  intros c s n a sent H A. expand H. cbn [step sel_step s_pc cur s_att s_cur]. rewrite A. eexists. split; [reflexivity|]. seen.
Qed.

Lemma attempt_times_out : forall c s n sent, c_ok c = true -> sees s PStart n new_att sent ->
  exists s' a, runs c s [LMain 0; LUpTimer n; LSel CUp; LMain 0; LMain 0] s' /\
    sees s' PRetry n a (sent ++ [c_request c]) /\ a_ctx a || a_flag a = true.
Proof.
  intros c s n sent Ok V0. destruct (go_start c 0 s n sent Ok V0) as (s1 & E1 & V1). destruct (go_timer c s1 n _ _ _ V1 eq_refl eq_refl) as (s2 & E2 & V2).
  destruct (go_sel_up c s2 n _ _ V2 eq_refl) as (s3 & E3 & V3). destruct (go_ret_hdr c 0 s3 n _ _ V3) as (s4 & E4 & V4).
  destruct (go_proc_bad c 0 s4 n _ _ _ V4 I) as (s5 & E5 & V5).
  eexists s5, _. split; [chain|]. split; [exact V5|reflexivity].
Qed.

Lemma attempt_over : forall c d s n sent, c_ok c = true -> sees s PStart n new_att sent ->
  exists s', runs c s [LMain 0; LDwnTimer; LSel CDwn; LMain 0; LMain 0; LMain 0; LMain d] s' /\
    s_pc s' = PLog1 /\ s_sent s' = (sent ++ [c_request c])%list /\ s_out s' = [gave_up_downstream c d].
Proof.
  intros c d s n sent Ok V0. destruct (go_start c 0 s n sent Ok V0) as (s1 & E1 & V1). 
  assert (X : exists s', runs c s1 [LDwnTimer; LSel CDwn; LMain 0; LMain 0; LMain 0; LMain d] s' /\
    s_pc s' = PLog1 /\ s_sent s' = (sent ++ [c_request c])%list /\ s_out s' = [gave_up_downstream c d]).
  { clear E1 V0 s. expand V1. eexists. split.
    - eapply runs_cons; [reflexivity|exact I|]. eapply runs_cons; [reflexivity|exact I|]. eapply runs_cons; [reflexivity|exact I|].
      cbn [abort_all with_s_flag with_atts go s_att s_cur s_dwn s_flag s_pc s_sent s_out cur]. rewrite Ha. cbn [with_ctx with_h a_h h_seen].
      eapply runs_cons; [reflexivity|exact I|]. eapply runs_cons.
      + cbn [step main_step s_pc go]. unfold dwn_aborted. cbn [s_dwn s_flag orb negb]. rewrite andb_false_r. reflexivity.
      + exact I.
      + eapply runs_cons; [reflexivity|exact I|]. apply runs_nil.
    - repeat split. }
  destruct X as (s' & R & Q). exists s'. split; [apply (runs_cons _ _ _ s1); [exact E1|exact I|exact R]|exact Q].
Qed.

(** Building takes steps of the handler only. *)
Lemma build_all : forall c (d : nat) rs b m st, (match st with StHeader => 7 | StStatus => 6 | StBody => 5 | StLength => 4 | StEnc1 => 3 | StEnc2 => 2 | StEnc3 => 1 | StWrite => 0 end) <= m ->
  forall s n a sent dr, sees s (PBuild st b dr) n a sent -> a_resp a = Some rs -> a_status a = ur_status rs -> a_gz a = is_gzip b -> draft_ok c st rs b dr ->
  exists ls s' dr', runs c s ls s' /\ sees s' (PBuild StWrite b dr') n a sent /\ draft_ok c StWrite rs b dr'.
Proof.
  intros c d rs b m. induction m as [|m IH]; intros st L s n a sent dr V R T G D.
  - destruct st; try lia. exists [], s, dr. split; [apply runs_nil|]. split; assumption.
  - assert (X : st = StWrite \/ st <> StWrite) by (destruct st; (now left) || (right; discriminate)). destruct X as [->|N].
    + exists [], s, dr. split; [apply runs_nil|]. split; assumption.
    + destruct (go_build c d s n a sent rs b st dr V R T G D N) as (s1 & st1 & dr1 & E1 & V1 & D1 & M).
      assert (L1 : (match st1 with StHeader => 7 | StStatus => 6 | StBody => 5 | StLength => 4 | StEnc1 => 3 | StEnc2 => 2 | StEnc3 => 1 | StWrite => 0 end) <= m).
      { destruct st; try (subst st1; lia); try contradiction; destruct M as [->| ->]; lia. }
      destruct (IH st1 L1 s1 n a sent dr1 V1 R T G D1) as (ls & s' & dr' & R1 & V' & D').
      exists (LMain d :: ls), s', dr'. split; [apply (runs_cons _ _ _ s1); [exact E1|exact I|exact R1]|]. split; assumption.
Qed.

Lemma attempt_good : forall c d s n sent rs b, c_ok c = true -> sees s PStart n new_att sent -> (100 <= ur_status rs < 500)%Z ->
  exists ls s', runs c s ([LMain 0; LDo n (Some rs); LSetResp n; LCloseHdr n; LSel CComplete; LMain 0; LMain 0;
     LStatus n; LRead n b true; LGz n; LCloseBody n; LSel CComplete; LMain 0; LMain 0; LMain 0; LMain 0; LMain 0] ++ ls) s' /\
    s_pc s' = PLog1 /\ s_sent s' = (sent ++ [c_request c])%list /\ s_out s' = [proxied (c_env c) d (c_down c) rs b].
Proof.
  intros c d s n sent rs b Ok V0 St. destruct (go_start c 0 s n sent Ok V0) as (s1 & E1 & V1). destruct (go_do c s1 n _ _ (Some rs) _ V1 eq_refl) as (s2 & E2 & V2).
  destruct (go_resp c s2 n _ _ (Some rs) _ V2 eq_refl) as (s3 & E3 & V3). destruct (go_hdr c s3 n _ _ (Some rs) _ V3 eq_refl eq_refl) as (s4 & E4 & V4).
  destruct (go_sel_hdr c s4 n _ _ V4 eq_refl) as (s5 & E5 & V5). destruct (go_ret_hdr c 0 s5 n _ _ V5) as (s6 & E6 & V6).
  destruct (go_proc c 0 s6 n _ _ rs V6 eq_refl eq_refl) as (s7 & E7 & V7). destruct (go_status c s7 n _ _ rs _ V7 eq_refl) as (s8 & E8 & V8).
  destruct (go_read c s8 n _ _ b true _ V8 eq_refl) as (s9 & E9 & V9). destruct (go_gz c s9 n _ _ b true _ V9 eq_refl) as (s10 & E10 & V10).
  set (a10 := let a' := _ in if is_gzip b then with_gz true a' else a') in V10.
  assert (A10 : a_b a10 = BFlag b true /\ a_flag a10 = false /\ a_ctx a10 = false /\ a_resp a10 = Some rs /\ a_status a10 = ur_status rs /\ a_gz a10 = is_gzip b).
  { subst a10. cbv zeta. destruct (is_gzip b); repeat split. }
  clearbody a10. destruct A10 as (P1 & P2 & P3 & P4 & P5 & P6).
  destruct (go_bdy c s10 n a10 _ b true _ V10 P1 P2) as (s11 & E11 & V11). destruct (go_sel_bdy c s11 n _ _ V11 eq_refl) as (s12 & E12 & V12).
  destruct (go_ret_bdy c 0 s12 n _ _ b V12 eq_refl) as (s13 & E13 & V13). destruct (go_check1 c 0 s13 n _ _ b V13) as (s14 & E14 & V14).
  destruct (go_check2 c 0 s14 n _ _ b V14 P3 P2) as (s15 & E15 & V15). destruct (go_check3 c 0 s15 n _ _ b rs V15 P4 (proj2 St)) as (s16 & E16 & V16).
  destruct (go_kind c 0 s16 n _ _ b V16) as (s17 & E17 & V17).
  set (a17 := with_flag false _) in V17.
  assert (Q4 : a_resp a17 = Some rs) by exact P4. assert (Q5 : a_status a17 = ur_status rs) by exact P5. assert (Q6 : a_gz a17 = is_gzip b) by exact P6.
  clearbody a17. rewrite Q5 in V17.
  assert (X : exists ls s', runs c s17 ls s' /\ s_pc s' = PLog1 /\ s_sent s' = (sent ++ [c_request c])%list /\ s_out s' = [proxied (c_env c) d (c_down c) rs b]).
  { destruct (client_error (ur_status rs)) eqn:C.
    - destruct (go_err c d s17 n a17 _ rs b V17 Q5 St C) as (s18 & E18 & Q). exists [LMain d], s18. split; [chain|exact Q].
    - destruct (build_all c d rs b 7 StHeader (le_n _) s17 n a17 _ new_draft V17 Q4 Q5 Q6 I) as (ls & s18 & dr & R18 & V18 & D18).
      destruct (go_write c d s18 n a17 _ rs b dr V18 D18 St C) as (s19 & E19 & Q). exists (ls ++ [LMain d])%list, s19.
      split; [apply (runs_app c s17 ls s18); [exact R18|chain]|exact Q]. }
  destruct X as (ls & s' & R & Q). exists ls, s'. split; [|exact Q]. apply (runs_app c s _ s17); [chain|exact R].
Qed.

Definition happened_from (n : nat) (ls : list label) (fs : list fate) : Prop :=
  forall i f, nth_error fs i = Some f ->
    match f with
    | Good rs body => answered ls (n + i) rs /\ In (LRead (n + i) body true) ls
    | Fails => failed_attempt ls (n + i)
    | TimesOut => In (LUpTimer (n + i)) ls
    | Over => In LDwnTimer ls
    end.

Lemma failed_incl : forall l1 l2 i, incl l1 l2 -> failed_attempt l1 i -> failed_attempt l2 i.
Proof.
  intros l1 l2 i I [F|[(b & F)|(rs & F & G)]]; [left; now apply I|right; left; exists b; now apply I|right; right; exists rs; split; [now apply I|exact G]].
Qed.

Lemma happened_one : forall n ls f, match f with
    | Good rs body => answered ls n rs /\ In (LRead n body true) ls
    | Fails => failed_attempt ls n | TimesOut => In (LUpTimer n) ls | Over => In LDwnTimer ls end -> happened_from n ls [f].
Proof. intros n ls f H i g E. destruct i as [|i]; [|destruct i; discriminate E]. injection E as <-. rewrite Nat.add_0_r. exact H. Qed.

Lemma happened_more : forall n ls l1 l2 f fs, happened_from n l1 [f] -> happened_from (S n) l2 fs -> incl l1 ls -> incl l2 ls -> happened_from n ls (f :: fs).
Proof.
  intros n ls l1 l2 f fs H1 H2 I1 I2 i g E. destruct i as [|i].
  - injection E as <-. specialize (H1 0 f eq_refl). rewrite Nat.add_0_r in *. destruct f; [destruct H1; split; now apply I1|now apply (failed_incl l1)|now apply I1|now apply I1].
  - specialize (H2 i g E). replace (n + S i) with (S n + i) by lia. destruct g; [destruct H2; split; now apply I2|now apply (failed_incl l2)|now apply I2|now apply I2].
Qed.

Lemma happened_incl : forall n l1 ls f, happened_from n l1 [f] -> incl l1 ls -> happened_from n ls [f].
Proof.
  intros n l1 ls f H I. apply (happened_more n ls l1 [] f [] H); [|exact I|intros x []]. intros i g E. destruct i; discriminate E.
Qed.

Lemma finish_up : forall c s l1 s1 n f sent r, runs c s l1 s1 -> s_pc s1 = PLog1 -> s_sent s1 = (sent ++ [c_request c])%list -> s_out s1 = [r] ->
  happened_from n l1 [f] ->
  exists ls s', runs c s ls s' /\ s_pc s' = PDone /\ s_out s' = [r] /\ s_sent s' = (sent ++ repeat (c_request c) (length [f]))%list /\ happened_from n ls [f].
Proof.
  intros c s l1 s1 n f sent r R P Q O H. destruct (go_log c s1 P) as (l2 & s' & R2 & P2 & Q2 & O2).
  exists (l1 ++ l2)%list, s'. split; [now apply (runs_app c s l1 s1)|]. split; [exact P2|]. split; [now rewrite O2|]. split; [now rewrite Q2|].
  apply (happened_incl n l1); [exact H|]. intros x X. apply in_or_app. now left.
Qed.

Lemma sequential_run : forall c k fs r, sequential c k fs r -> c_ok c = true -> valid_fates fs -> forall n s sent, permits c n k -> sees s PStart n new_att sent ->
  exists ls s', runs c s ls s' /\ s_pc s' = PDone /\ s_out s' = [r] /\ s_sent s' = (sent ++ repeat (c_request c) (length fs))%list /\ happened_from n ls fs.
Proof.
  intros c k fs r H. induction H as [k rs b d L|k d|k f fs r F H IH|d|d]; intros Ok Va n s sent Pm V.
  - destruct (attempt_good c d s n sent rs b Ok V (conj (Va rs b (or_introl eq_refl)) L)) as (ls & s' & R & P & Q & O).
    apply (finish_up c s _ s' n _ sent _ R P Q O). apply happened_one. split; apply in_or_app; left; cbn; auto 20.
  - destruct (attempt_over c d s n sent Ok V) as (s' & R & P & Q & O). apply (finish_up c s _ s' n _ sent _ R P Q O). apply happened_one. cbn. auto.
  - assert (X : exists l1 s1, runs c s l1 s1 /\ sees s1 PStart (S n) new_att (sent ++ [c_request c]) /\ happened_from n l1 [f]).
    { destruct F as [->| ->].
      - destruct (attempt_fails c s n sent Ok V) as (s1 & a & R & V1 & _). destruct (go_retry c 0 s1 n a _ k Pm V1) as (s2 & E2 & V2).
        eexists _, s2. split; [exact (runs_app c s _ s1 [LMain 0] s2 R ltac:(chain))|]. split; [exact V2|]. apply happened_one. left. cbn. auto.
      - destruct (attempt_times_out c s n sent Ok V) as (s1 & a & R & V1 & _). destruct (go_retry c 0 s1 n a _ k Pm V1) as (s2 & E2 & V2).
        eexists _, s2. split; [exact (runs_app c s _ s1 [LMain 0] s2 R ltac:(chain))|]. split; [exact V2|]. apply happened_one. cbn. auto. }
    destruct X as (l1 & s1 & R1 & V1 & H1).
    destruct (IH Ok (fun rs b I => Va rs b (or_intror I)) (S n) s1 _ (permits_next c n k Pm) V1) as (l2 & s' & R2 & P & O & Q & H2).
    exists (l1 ++ l2)%list, s'. split; [now apply (runs_app c s l1 s1)|]. split; [exact P|]. split; [exact O|]. split.
    + rewrite Q. cbn [length repeat]. now rewrite <- app_assoc.
    + apply (happened_more n _ l1 l2); [exact H1|exact H2|intros x X; apply in_or_app; now left|intros x X; apply in_or_app; now right].
  - destruct (attempt_fails c s n sent Ok V) as (s1 & a & R & V1 & A). destruct (go_no_retry c 0 s1 n a _ Pm V1) as (s2 & E2 & V2).
    destruct (go_fin1 c 0 s2 n a _ V2) as (s3 & E3 & V3). destruct (go_fin2 c d s3 n a _ V3) as (s4 & E4 & P & Q & O). rewrite A in O.
    refine (finish_up c s _ s4 n _ sent _ (runs_app c s _ s1 [LMain 0; LMain 0; LMain d] s4 R ltac:(chain)) P Q O _). apply happened_one. left. cbn. auto.
  - destruct (attempt_times_out c s n sent Ok V) as (s1 & a & R & V1 & A). destruct (go_no_retry c 0 s1 n a _ Pm V1) as (s2 & E2 & V2).
    destruct (go_fin1 c 0 s2 n a _ V2) as (s3 & E3 & V3). destruct (go_fin2 c d s3 n a _ V3) as (s4 & E4 & P & Q & O). rewrite A in O.
    refine (finish_up c s _ s4 n _ sent _ (runs_app c s _ s1 [LMain 0; LMain 0; LMain d] s4 R ltac:(chain)) P Q O _). apply happened_one. cbn. auto.
Qed.

Lemma run_exists : forall c k fs r, c_ok c = true -> further c k -> valid_fates fs -> sequential c k fs r ->
  exists ls s, exec c init ls = Some s /\ on_time c init ls /\ s_pc s = PDone /\ s_out s = [r] /\ s_sent s = repeat (c_request c) (length fs) /\ happened ls fs.
Proof.
  intros c k fs r Ok F Va H. destruct (sequential_run c k fs r H Ok Va 0 init [] (further_permits c k F)) as (ls & s & [R1 R2] & P & O & Q & Hp).
  - repeat split.
  - exists ls, s. split; [exact R1|]. split; [exact R2|]. split; [exact P|]. split; [exact O|]. split; [exact Q|exact Hp].
Qed.

Lemma sequential_status : forall c k fs r, sequential c k fs r -> rp_status r = 502%Z \/ rp_status r = 504%Z \/
  exists rs b, In (Good rs b) fs /\ rp_status r = ur_status rs /\ (ur_status rs < 500)%Z.
Proof.
  intros c k fs r H. induction H as [k rs b d L|k d|k f fs r F H IH|d|d]; try (now left); try (now right; left).
  - right; right. exists rs, b. split; [now left|]. split; [|exact L]. unfold proxied. destruct (client_error (ur_status rs)); reflexivity.
  - destruct IH as [IH|[IH|(rs & b & I & E)]]; [now left|now right; left|]. right; right. exists rs, b. split; [now right|exact E].
Qed.

Lemma late_not_sequential : exists c ls s r, exec c init ls = Some s /\ c_ok c = true /\ s_out s = [r] /\ forall k fs, ~ sequential c k fs r.
Proof.
  destruct wrong_status as (c & ls & s & r & E & Ok & O & S5 & _). exists c, ls, s, r. split; [exact E|]. split; [exact Ok|]. split; [exact O|].
  intros k fs H. destruct (sequential_status c k fs r H) as [X|[X|(rs & b & _ & X & L)]]; rewrite S5 in X; [discriminate X|discriminate X|lia].
Qed.

(** No channel is closed twice: it is open whenever a goroutine is about to close it. *)
Lemma closed_once : forall c ls s i, exec c init ls = Some s ->
  (step c s (LCloseHdr i) <> None -> a_hdr (s_att s i) = false) /\ (step c s (LCloseBody i) <> None -> a_bdy (s_att s i) = false).
Proof.
  intros c ls s i H. pose proof (reach_hist c ls s (exec_reach c ls s H)) as T. split; intros X; cbn [step goroutine_step] in X.
  - destruct (a_h (s_att s i)) eqn:E; try (now destruct X). destruct (a_hdr (s_att s i)) eqn:D; [|reflexivity]. exfalso.
    destruct (Nat.le_gt_cases i (s_cur s)) as [L|L]; [|destruct (h_new _ _ _ T i L); congruence].
    destruct (g_hdr _ _ _ _ (h_good _ _ _ T i L) D). congruence.
  - destruct (a_b (s_att s i)) eqn:E; try (now destruct X). destruct (a_bdy (s_att s i)) eqn:D; [|reflexivity]. exfalso.
    destruct (Nat.le_gt_cases i (s_cur s)) as [L|L]; [|destruct (h_new _ _ _ T i L) as (_ & N & _); congruence].
    destruct (g_bdy _ _ _ _ (h_good _ _ _ T i L) D) as (b' & ok' & E'). congruence.
Qed.
