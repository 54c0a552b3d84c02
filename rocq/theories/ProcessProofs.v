(** Proofs for C87 to C91. *)
From Coq Require Import String Ascii List Bool ZArith NArith Lia.
From Verif Require Import GoStr Header Policy Config ConfigSpec ConfigProofs Routing Exchange Jwt JwtSpec JwtProofs JwtKeys JwtRefresh JwksRate JwksRateSpec JwksRateProofs
  Machine Handler HandlerSpec HandlerProofs SystemSpec Startup StartupSpec StartupProofs Process ProcessSpec.
From Verif Require KidSpec.
Import Verif.Config Verif.JwtSpec Verif.Startup Verif.Process Verif.ProcessSpec ListNotations.
Local Open Scope string_scope.

(** * Executions *)

Lemma exec_app : forall E L nr cfg es1 es2 p,
  process_exec E L nr cfg p (es1 ++ es2)%list = match process_exec E L nr cfg p es1 with Some p' => process_exec E L nr cfg p' es2 | None => None end.
Proof.
  intros E L nr cfg es1 es2. induction es1 as [|e es1 IH]; intros p; cbn [app process_exec]; [reflexivity|].
  destruct (process_step E L nr cfg p e); [apply IH|reflexivity].
Qed.

Lemma exec_inv : forall E L nr cfg (P : process -> Prop), (forall p e p', P p -> process_step E L nr cfg p e = Some p' -> P p') ->
  forall es p p', P p -> process_exec E L nr cfg p es = Some p' -> P p'.
Proof.
  intros E L nr cfg P HP. induction es as [|e es IH]; intros p p' Hp H; cbn [process_exec] in H; [injection H as <-; exact Hp|].
  destruct (process_step E L nr cfg p e) as [p1|] eqn:Es; [|discriminate H]. exact (IH p1 p' (HP p e p1 Hp Es) H).
Qed.

Lemma step_live : forall E L nr cfg p e p', process_step E L nr cfg p e = Some p' -> p_dead p = false.
Proof. intros E L nr cfg p e p' H. unfold process_step in H. now destruct (p_dead p). Qed.

(** What a goroutine that refreshes keys may do *)
Inductive moves (p : process) (k : nat) (n : string) (doc : option (list jwk)) : process -> Prop :=
| mv_late : refresher p k n FTry -> p_locked p n = true -> moves p k n doc (to k n FEnd p)
| mv_start : refresher p k n FTry -> p_locked p n = false -> moves p k n doc (to k n FFetch (with_lock n true (started n p)))
| mv_fetch : refresher p k n FFetch -> moves p k n doc (to k n (match doc with None | Some [] => FTest | Some ks => FInstall ks end) (fetched n doc p))
| mv_done : refresher p k n (FInstall []) -> moves p k n doc (to k n FTest p)
| mv_crash : forall d ks, refresher p k n (FInstall (d :: ks)) ->
    (forall j, now_is p n j -> install j d = None) -> moves p k n doc (dead p)
| mv_key : forall d ks j j', refresher p k n (FInstall (d :: ks)) -> now_is p n j -> install j d = Some (j', true) ->
    moves p k n doc (to k n (FInstall ks) (with_jwt n j' p))
| mv_stop : forall d ks j j', refresher p k n (FInstall (d :: ks)) -> now_is p n j -> install j d = Some (j', false) -> moves p k n doc (to k n FTest p)
| mv_test : refresher p k n FTest -> moves p k n doc (to k n (if Nat.ltb 0 (p_count p n) then FSleep (p_now p + slow_wait) else FCount) p)
| mv_wake : forall t, refresher p k n (FSleep t) -> (t <= p_now p)%Z -> moves p k n doc (to k n FCount p)
| mv_count : refresher p k n FCount -> moves p k n doc (to k n FRelease (with_count n (S (p_count p n)) p))
| mv_release : refresher p k n FRelease -> moves p k n doc (to k n FEnd (with_lock n false p)).

Lemma load_moves : forall k doc p p', load k doc p = Some p' -> exists n, moves p k n doc p'.
Proof.
  intros k doc p p' H. unfold load in H. destruct (nth_error (p_gs p) k) as [[n f]|] eqn:Ek; [|discriminate H]. exists n.
  destruct f as [| |[|d ks]| |t| | |].
  - destruct (p_locked p n) eqn:El; injection H as <-; [now apply mv_late|now apply mv_start].
  - injection H as <-. now apply mv_fetch.
  - injection H as <-. now apply mv_done.
  - destruct (lookup n (p_jwts p)) as [[j|]|] eqn:Ej.
    + destruct (install j d) as [[j' []]|] eqn:Ei; injection H as <-.
      * exact (mv_key p k n doc d ks j j' Ek Ej Ei).
      * exact (mv_stop p k n doc d ks j j' Ek Ej Ei).
      * apply (mv_crash p k n doc d ks Ek). intros j1 E1. unfold now_is in E1. rewrite Ej in E1. injection E1 as <-. exact Ei.
    + injection H as <-. apply (mv_crash p k n doc d ks Ek). intros j1 E1. unfold now_is in E1. rewrite Ej in E1. discriminate E1.
    + injection H as <-. apply (mv_crash p k n doc d ks Ek). intros j1 E1. unfold now_is in E1. rewrite Ej in E1. discriminate E1.
  - injection H as <-. now apply mv_test.
  - destruct (Z.leb_spec t (p_now p)) as [Ht|]; [|discriminate H]. injection H as <-. exact (mv_wake p k n doc t Ek Ht).
  - injection H as <-. now apply mv_count.
  - injection H as <-. now apply mv_release.
  - discriminate H.
Qed.

(** * Requests *)

Lemma set_nth_length : forall A (x : A) l k, length (set_nth k x l) = length l.
Proof. intros A x. induction l as [|y l IH]; intros [|k]; cbn [set_nth length]; auto. Qed.

Lemma arrive_inv : forall E L nr cfg i ch p p', arrive E L nr cfg i ch p = Some p' ->
  ch_now ch = unix (p_now p) /\
  p_visits p' = (p_visits p ++ [Visit i ch (serve E L nr (current cfg p) ch i) init (rotates E L (current cfg p) ch i)])%list /\
  p_gs p' = (p_gs p ++ match rotates E L (current cfg p) ch i with Some n => [(n, FTry)] | None => [] end)%list /\
  p_now p' = p_now p /\ p_jwts p' = p_jwts p /\ p_locked p' = p_locked p /\ p_count p' = p_count p /\ p_starts p' = p_starts p /\ p_docs p' = p_docs p /\ p_dead p' = p_dead p.
Proof.
  intros E L nr cfg i ch p p' H. unfold arrive in H. destruct (Z.eqb_spec (ch_now ch) (unix (p_now p))) as [Ec|]; [|discriminate H].
  injection H as <-. split; [exact Ec|]. now repeat split.
Qed.

Lemma go_inv : forall k l p p', go_on k l p = Some p' ->
  exists v c s, nth_error (p_visits p) k = Some v /\ v_out v = Upstream c /\ step c (v_state v) l = Some s /\
    p' = with_visits (set_nth k (Visit (v_in v) (v_chance v) (v_out v) s (v_rotated v)) (p_visits p)) p.
Proof.
  intros k l p p' H. unfold go_on in H. destruct (nth_error (p_visits p) k) as [v|] eqn:Ev; [|discriminate H].
  destruct (v_out v) as [t|r|r|c|] eqn:Eo; try discriminate H. destruct (step c (v_state v) l) as [s|] eqn:Es; [|discriminate H].
  injection H as <-. exists v, c, s. split; [reflexivity|]. split; [exact Eo|]. split; [exact Es|]. now rewrite Eo.
Qed.

Lemma moves_visits : forall p k n doc p', moves p k n doc p' -> p_visits p' = p_visits p.
Proof. intros p k n doc p' H. destruct H; reflexivity. Qed.

Lemma arrivals_snoc : forall es e, arrivals (es ++ [e])%list = arrivals es + match e with Arrive _ _ => 1 | _ => 0 end.
Proof. intros es e. unfold arrivals. rewrite filter_app, app_length. now destruct e. Qed.

Lemma step_visits : forall E L nr cfg p e p', process_step E L nr cfg p e = Some p' ->
  length (p_visits p') = length (p_visits p) + match e with Arrive _ _ => 1 | _ => 0 end.
Proof.
  intros E L nr cfg p e p' H. unfold process_step in H. destruct (p_dead p); [discriminate H|]. destruct e as [i ch|k l|k doc|d].
  - destruct (arrive_inv _ _ _ _ _ _ _ _ H) as (_ & -> & _). rewrite app_length. reflexivity.
  - destruct (go_inv _ _ _ _ H) as (v & c & s & _ & _ & _ & ->). cbn [p_visits with_visits]. rewrite set_nth_length. lia.
  - destruct (load_moves _ _ _ _ H) as (n & M). rewrite (moves_visits _ _ _ _ _ M). lia.
  - unfold wait in H. destruct (Z.leb 0 d); [|discriminate H]. injection H as <-. cbn [p_visits]. lia.
Qed.

Lemma exec_visits : forall E L nr cfg es p p', process_exec E L nr cfg p es = Some p' -> length (p_visits p') = length (p_visits p) + arrivals es.
Proof.
  intros E L nr cfg. induction es as [|e es IH]; intros p p' H; cbn [process_exec] in H.
  - injection H as <-. unfold arrivals. cbn. lia.
  - destruct (process_step E L nr cfg p e) as [p1|] eqn:Es; [|discriminate H]. rewrite (IH p1 p' H), (step_visits _ _ _ _ _ _ _ Es).
    unfold arrivals. cbn [filter]. destruct e; cbn [length]; lia.
Qed.

(** Request [k] goes on by its own labels only. *)
Lemma visit_goes : forall E L nr cfg es p p' k v, process_exec E L nr cfg p es = Some p' -> nth_error (p_visits p) k = Some v ->
  exists v', nth_error (p_visits p') k = Some v' /\ v_in v' = v_in v /\ v_chance v' = v_chance v /\ v_out v' = v_out v /\ v_rotated v' = v_rotated v /\
    (forall c, v_out v = Upstream c -> exec c (v_state v) (labels_of k es) = Some (v_state v')) /\
    ((forall c, v_out v <> Upstream c) -> v_state v' = v_state v /\ labels_of k es = []).
Proof.
  intros E L nr cfg. induction es as [|e es IH]; intros p p' k v H Hv; cbn [process_exec] in H.
  - injection H as <-. exists v. split; [exact Hv|]. do 4 (split; [reflexivity|]). split; intros; [reflexivity|now split].
  - destruct (process_step E L nr cfg p e) as [p1|] eqn:Es; [|discriminate H].
    assert (Same : nth_error (p_visits p1) k = Some v -> labels_of k (e :: es) = labels_of k es ->
      exists v', nth_error (p_visits p') k = Some v' /\ v_in v' = v_in v /\ v_chance v' = v_chance v /\ v_out v' = v_out v /\ v_rotated v' = v_rotated v /\
        (forall c, v_out v = Upstream c -> exec c (v_state v) (labels_of k (e :: es)) = Some (v_state v')) /\
        ((forall c, v_out v <> Upstream c) -> v_state v' = v_state v /\ labels_of k (e :: es) = [])).
    { intros H1 ->. exact (IH p1 p' k v H H1). }
    unfold process_step in Es. destruct (p_dead p); [discriminate Es|]. destruct e as [i ch|k' l|k' doc|d].
    + apply Same; [|reflexivity]. destruct (arrive_inv _ _ _ _ _ _ _ _ Es) as (_ & -> & _). rewrite nth_error_app1; [exact Hv|]. apply nth_error_Some. congruence.
    + destruct (go_inv _ _ _ _ Es) as (w & c & s & Hw & Ho & Hs & E1). destruct (Nat.eqb_spec k' k) as [-> |N].
      * rewrite Hw in Hv. injection Hv as ->. destruct (IH p1 p' k (Visit (v_in v) (v_chance v) (v_out v) s (v_rotated v)) H) as (v' & A & B & C & D & F & G & K).
        { rewrite E1. cbn [p_visits with_visits]. rewrite nth_set, Nat.eqb_refl, Hw. reflexivity. }
        exists v'. split; [exact A|]. split; [exact B|]. split; [exact C|]. split; [exact D|]. split; [exact F|]. split.
        -- intros c' Hc'. rewrite Ho in Hc'. injection Hc' as <-. unfold labels_of. cbn [flat_map]. rewrite Nat.eqb_refl. cbn [app exec]. rewrite Hs. exact (G c Ho).
        -- intros Hn. elim (Hn c). exact Ho.
      * apply Same.
        -- rewrite E1. cbn [p_visits with_visits]. rewrite nth_set. apply Nat.eqb_neq in N. now rewrite N.
        -- unfold labels_of. cbn [flat_map]. apply Nat.eqb_neq in N. now rewrite N.
    + apply Same; [|reflexivity]. destruct (load_moves _ _ _ _ Es) as (n & M). now rewrite (moves_visits _ _ _ _ _ M).
    + apply Same; [|reflexivity]. unfold wait in Es. destruct (Z.leb 0 d); [|discriminate Es]. injection Es as <-. exact Hv.
Qed.

Lemma after_prefix : forall m es1 es2 p, after m (es1 ++ es2)%list p -> exists p1, after m es1 p1 /\ executes m p1 es2 = Some p.
Proof.
  intros m es1 es2 p [Hu H]. unfold executes in H. rewrite exec_app in H. destruct (process_exec _ _ _ _ _ es1) as [p1|] eqn:E1; [|discriminate H].
  exists p1. split; [split; [exact Hu|exact E1]|exact H].
Qed.

(** The request as it arrives and what becomes of it *)
Lemma visit_of : forall m k i ch es1 es es2 p, comes_in k i ch es1 es es2 -> after m es p ->
  exists p1 v, after m es1 p1 /\ ch_now ch = unix (p_now p1) /\ nth_error (p_visits p) k = Some v /\ v_in v = i /\ v_chance v = ch /\
    v_out v = serve (li_env (dm_listener m)) (dm_lib m) (dm_new m) (config_at m p1) ch i /\
    v_rotated v = rotates (li_env (dm_listener m)) (dm_lib m) (config_at m p1) ch i /\
    (forall c, v_out v = Upstream c -> exec c init (labels_of k es2) = Some (v_state v)) /\
    ((forall c, v_out v <> Upstream c) -> v_state v = init /\ labels_of k es2 = []).
Proof.
  intros m k i ch es1 es es2 p [-> Hk] H. destruct (after_prefix _ _ _ _ H) as (p1 & H1 & H2). exists p1.
  unfold executes in H2. cbn [process_exec] in H2. destruct (process_step _ _ _ _ p1 (Arrive i ch)) as [p2|] eqn:Es; [|discriminate H2].
  unfold process_step in Es. destruct (p_dead p1); [discriminate Es|]. destruct (arrive_inv _ _ _ _ _ _ _ _ Es) as (Hc & Hv & _).
  assert (Hl : length (p_visits p1) = k).
  { destruct H1 as [_ H1]. unfold executes in H1. rewrite (exec_visits _ _ _ _ _ _ _ H1). cbn [process_init p_visits length]. exact Hk. }
  set (v0 := Visit i ch (serve (li_env (dm_listener m)) (dm_lib m) (dm_new m) (current (li_config (dm_listener m)) p1) ch i) init
               (rotates (li_env (dm_listener m)) (dm_lib m) (current (li_config (dm_listener m)) p1) ch i)) in *.
  destruct (visit_goes _ _ _ _ es2 p2 p k v0 H2) as (v & A & B & C & D & F & G & K).
  { rewrite Hv, nth_error_app2 by lia. rewrite Hl, Nat.sub_diag. reflexivity. }
  exists v. split; [exact H1|]. split; [exact Hc|]. split; [exact A|]. split; [exact B|]. split; [exact C|]. split; [exact D|]. split; [exact F|].
  rewrite D. split; [exact G|exact K].
Qed.

(** * Key sets *)

(** Every key in [docs] is in one of [ds]. *)
Definition covered (docs ds : list (list jwk)) : Prop := forall doc d, In doc docs -> In d doc -> exists doc', In doc' ds /\ In d doc'.

Definition holds (m : daemon) (p : process) (n : string) (o0 o : option jwt) : Prop :=
  exists j0 docs j, o0 = Some j0 /\ o = Some j /\
    reached (so_pem (pl_source (dm_place m)) n) (so_kid (pl_source (dm_place m)) n) (named n j0) docs j /\
    covered docs (at_boot m n j0 ++ since p n)%list.

Record jwt_inv (m : daemon) (p : process) : Prop := JwtInv {
  ji_sets : Forall2 (fun e0 e => fst e = fst e0 /\ holds m p (fst e0) (snd e0) (snd e)) (c_jwt (dm_told m)) (p_jwts p);
  ji_url : forall k n f, refresher p k n f -> exists j, now_is p n j /\ j_url j <> "";
  ji_docs : forall k n ks, refresher p k n (FInstall ks) -> exists doc, In doc (since p n) /\ incl ks doc }.

Lemma covered_more : forall docs ds ds', covered docs ds -> incl ds ds' -> covered docs ds'.
Proof. intros docs ds ds' H Hi doc d H1 H2. destruct (H doc d H1 H2) as (doc' & A & B). exists doc'. split; [now apply Hi|exact B]. Qed.

Lemma holds_more : forall m p p' n o0 o, incl (since p n) (since p' n) -> holds m p n o0 o -> holds m p' n o0 o.
Proof.
  intros m p p' n o0 o Hi (j0 & docs & j & A & B & C & D). exists j0, docs, j. split; [exact A|]. split; [exact B|]. split; [exact C|].
  apply (covered_more _ _ _ D). intros x Hx. apply in_app_or in Hx. apply in_or_app. destruct Hx as [Hx|Hx]; [now left|right; now apply Hi].
Qed.

Lemma Forall2_more : forall A B (R R' : A -> B -> Prop) l l', (forall x y, R x y -> R' x y) -> Forall2 R l l' -> Forall2 R' l l'.
Proof. intros A B R R' l l' H F. induction F; constructor; auto. Qed.

Lemma now_holds : forall m p n j, Forall2 (fun e0 e => fst e = fst e0 /\ holds m p (fst e0) (snd e0) (snd e)) (c_jwt (dm_told m)) (p_jwts p) -> now_is p n j ->
  exists j0, defined m n j0 /\ holds m p n (Some j0) (Some j).
Proof.
  intros m p n j H Hj.
  assert (Hin : In n (map fst (c_jwt (dm_told m)))).
  { unfold now_is in Hj. clear - H Hj. induction H as [|[k1 v1] [k2 v2] l l' [H1 _] H IH]; [discriminate Hj|]. cbn [fst snd] in *. subst k2.
    cbn [lookup] in Hj. destruct (String.eqb_spec k1 n) as [-> |N]; [now left|]. right. now apply IH. }
  destruct (Forall2_lookup _ _ (fun k o0 o => holds m p k o0 o) _ _ n H Hin) as (v & v' & L1 & L2 & Hh).
  unfold now_is in Hj. rewrite L2 in Hj. injection Hj as ->. assert (Hh' := Hh). destruct Hh' as (j0 & docs & j1 & -> & _). exists j0. now split.
Qed.

Lemma defined_holds : forall m p n j0, Forall2 (fun e0 e => fst e = fst e0 /\ holds m p (fst e0) (snd e0) (snd e)) (c_jwt (dm_told m)) (p_jwts p) -> defined m n j0 ->
  exists j, now_is p n j /\ holds m p n (Some j0) (Some j).
Proof.
  intros m p n j0 H Hj.
  assert (Hin : In n (map fst (c_jwt (dm_told m)))).
  { unfold defined in Hj. clear H. induction (c_jwt (dm_told m)) as [|[k1 v1] l IH]; [discriminate Hj|].
    cbn [lookup] in Hj. destruct (String.eqb_spec k1 n) as [-> |N]; [now left|]. right. now apply IH. }
  destruct (Forall2_lookup _ _ (fun k o0 o => holds m p k o0 o) _ _ n H Hin) as (v & v' & L1 & L2 & Hh).
  unfold defined in Hj. rewrite L1 in Hj. injection Hj as ->. assert (Hh' := Hh). destruct Hh' as (j1 & docs & j & _ & -> & _). exists j. now split.
Qed.

(** One entry is replaced. *)
Lemma Forall2_insert : forall (R : string -> option jwt -> option jwt -> Prop) n j j' l0 l,
  Forall2 (fun e0 e => fst e = fst e0 /\ R (fst e0) (snd e0) (snd e)) l0 l -> lookup n l = Some (Some j) ->
  (forall o0, R n o0 (Some j) -> R n o0 (Some j')) ->
  Forall2 (fun e0 e => fst e = fst e0 /\ R (fst e0) (snd e0) (snd e)) l0 (insert n (Some j') l).
Proof.
  intros R n j j' l0 l H Hl HR. induction H as [|[k1 v1] [k2 v2] l0 l [H1 H2] H IH]; [discriminate Hl|]. cbn [fst snd] in *. subst k2.
  cbn [lookup insert] in *. destruct (String.eqb_spec k1 n) as [-> |N].
  - injection Hl as ->. constructor; [|exact H]. split; [reflexivity|]. now apply HR.
  - constructor; [now split|]. now apply IH.
Qed.

Lemma install_load : forall j d j' b, install j d = Some (j', b) -> exists e, load_jwks (Some [d]) j = Some (j', e).
Proof.
  intros j d j' b H. unfold install in H. destruct (load_jwks (Some [d]) j) as [[j1 e]|]; [|discriminate H]. injection H as <- _. now exists e.
Qed.

Lemma since_cons : forall n p n' doc, since (fetched n' doc p) n = ((if String.eqb n' n then delivered doc else []) ++ since p n)%list.
Proof. reflexivity. Qed.

Lemma refresher_to : forall p k n f k' n' f', refresher (to k n f p) k' n' f' ->
  (k' = k /\ n' = n /\ f' = f) \/ (k' <> k /\ refresher p k' n' f').
Proof.
  intros p k n f k' n' f' H. unfold refresher, to in H. cbn [p_gs] in H. rewrite nth_set in H. destruct (Nat.eqb_spec k k') as [<-|N].
  - destruct (nth_error (p_gs p) k); [|discriminate H]. injection H as <- <-. now left.
  - right. split; [auto|exact H].
Qed.

(** The key sets, goroutines and documents stay as they are. *)
Lemma jwt_inv_same : forall m p p', jwt_inv m p -> p_jwts p' = p_jwts p -> p_gs p' = p_gs p -> p_docs p' = p_docs p -> jwt_inv m p'.
Proof.
  intros m p p' [A B C] E1 E2 E3.
  assert (Es : forall n, since p' n = since p n) by (intros n; unfold since; now rewrite E3).
  constructor.
  - rewrite E1. eapply Forall2_more; [|exact A]. cbn beta. intros e0 e [H1 H2]. split; [exact H1|]. apply (holds_more m p); [rewrite Es; apply incl_refl|exact H2].
  - intros k n f H. unfold refresher in H. rewrite E2 in H. unfold now_is. rewrite E1. exact (B k n f H).
  - intros k n ks H. unfold refresher in H. rewrite E2 in H. rewrite Es. exact (C k n ks H).
Qed.

(** Goroutine [k] goes on; [p] has the same goroutines as before. *)
Lemma jwt_inv_to : forall m p k n f f', jwt_inv m p -> refresher p k n f ->
  (forall ks, f' = FInstall ks -> exists doc, In doc (since p n) /\ incl ks doc) -> jwt_inv m (to k n f' p).
Proof.
  intros m p k n f f' [A B C] Hk Hf. constructor.
  - exact A.
  - intros k1 n1 f1 H. destruct (refresher_to _ _ _ _ _ _ _ H) as [(-> & -> & ->)|(_ & H1)]; [exact (B k n f Hk)|exact (B k1 n1 f1 H1)].
  - intros k1 n1 ks H. destruct (refresher_to _ _ _ _ _ _ _ H) as [(-> & -> & E1)|(_ & H1)]; [exact (Hf ks (eq_sym E1))|exact (C k1 n1 ks H1)].
Qed.

Lemma jwt_inv_moves : forall m p k n doc p', jwt_inv m p -> moves p k n doc p' -> jwt_inv m p'.
Proof.
  intros m p k n doc p' HI H. destruct H as [Hk Hl|Hk Hl|Hk|Hk|d ks Hk Hc|d ks j j' Hk Hj Hi|d ks j j' Hk Hj Hi|Hk|t Hk Ht|Hk|Hk].
  - apply (jwt_inv_to _ _ _ _ _ _ HI Hk). intros ks E. discriminate E.
  - apply (jwt_inv_to m (with_lock n true (started n p)) k n FTry); [|exact Hk|intros ks E; discriminate E]. now apply (jwt_inv_same m p).
  - assert (HI' : jwt_inv m (fetched n doc p)).
    { destruct HI as [A B C].
      assert (Hi : forall x, incl (since p x) (since (fetched n doc p) x)) by (intros x y Hy; rewrite since_cons; apply in_or_app; now right).
      constructor.
      - eapply Forall2_more; [|exact A]. cbn beta. intros e0 e [H1 H2]. split; [exact H1|]. apply (holds_more m p); [apply Hi|exact H2].
      - exact B.
      - intros k1 n1 ks H. destruct (C k1 n1 ks H) as (d & D1 & D2). exists d. split; [now apply Hi|exact D2]. }
    apply (jwt_inv_to m (fetched n doc p) k n FFetch); [exact HI'|exact Hk|]. intros ks E.
    assert (doc = Some ks) as -> by (destruct doc as [[|x l]|]; [discriminate E|injection E as <-; reflexivity|discriminate E]).
    exists ks. split; [rewrite since_cons, String.eqb_refl; now left|apply incl_refl].
  - apply (jwt_inv_to _ _ _ _ _ _ HI Hk). intros ks E. discriminate E.
  - now apply (jwt_inv_same m p).
  - destruct (install_load _ _ _ _ Hi) as (e & Hl). destruct HI as [A B C].
    destruct (C k n (d :: ks) Hk) as (doc1 & D1 & D2). destruct (B k n _ Hk) as (j1 & J1 & J2).
    unfold now_is in Hj, J1. rewrite Hj in J1. injection J1 as <-.
    assert (HI' : jwt_inv m (with_jwt n j' p)).
    { constructor.
      - apply (Forall2_insert (fun x o0 o => holds m p x o0 o) n j j' _ _ A Hj). intros o0 (j0 & docs & j1 & -> & Ej & R & Cv). injection Ej as <-.
        exists j0, (delivered (Some [d]) ++ docs)%list, j'. split; [reflexivity|]. split; [reflexivity|]. split; [exact (reached_refresh _ _ _ _ _ _ _ _ R J2 Hl)|].
        cbn [delivered app]. intros doc2 d2 [<-|Hd] Hin; [|exact (Cv doc2 d2 Hd Hin)]. destruct Hin as [<-|[]]. exists doc1. split; [apply in_or_app; now right|apply D2; now left].
      - intros k1 n1 f1 H. destruct (B k1 n1 f1 H) as (j1 & K1 & K2). unfold now_is, with_jwt. cbn [p_jwts]. rewrite lookup_insert. destruct (String.eqb_spec n n1) as [<-|N].
        + exists j'. split; [reflexivity|]. apply load_jwks_url in Hl. now rewrite Hl.
        + exists j1. now split.
      - exact C. }
    apply (jwt_inv_to m (with_jwt n j' p) k n (FInstall (d :: ks))); [exact HI'|exact Hk|]. intros ks' E. injection E as <-.
    exists doc1. split; [exact D1|]. intros x Hx. apply D2. now right.
  - apply (jwt_inv_to _ _ _ _ _ _ HI Hk). intros ks' E. discriminate E.
  - apply (jwt_inv_to _ _ _ _ _ _ HI Hk). intros ks' E. destruct (Nat.ltb 0 (p_count p n)); discriminate E.
  - apply (jwt_inv_to _ _ _ _ _ _ HI Hk). intros ks' E. discriminate E.
  - apply (jwt_inv_to m (with_count n (S (p_count p n)) p) k n FCount); [|exact Hk|intros ks E; discriminate E]. now apply (jwt_inv_same m p).
  - apply (jwt_inv_to m (with_lock n false p) k n FRelease); [|exact Hk|intros ks E; discriminate E]. now apply (jwt_inv_same m p).
Qed.

(** What a request that starts a refresh needs *)
Lemma rotates_inv : forall E L c ch i n, rotates E L c ch i = Some n <->
  mux_serve (about_paths (c_routes c)) i = TProxy /\ validate (parse_incoming E (ch_fresh ch) (i_req i)) = true /\
  exists r j, select_route (c_routes c) (q_raw_uri (i_req i)) = Some r /\ r_jwt r <> "" /\ n = r_jwt r /\ lookup n (c_jwt c) = Some (Some j) /\
    refresh_triggered j (snd (validate_jwt L (ch_now ch) j (authorization i))) = true.
Proof.
  intros E L c ch i n. unfold rotates. split.
  - intros H. destruct (mux_serve _ i) eqn:Em; try discriminate H. split; [reflexivity|]. destruct (validate _); [|discriminate H]. split; [reflexivity|].
    destruct (select_route _ _) as [r|]; [|discriminate H]. destruct (has_jwt r) eqn:Ej; [|discriminate H]. apply has_jwt_iff in Ej.
    destruct (lookup (r_jwt r) (c_jwt c)) as [[j|]|] eqn:El; try discriminate H. destruct (refresh_triggered j _) eqn:Er; [|discriminate H]. injection H as <-.
    exists r, j. now repeat split.
  - intros (Em & Ev & r & j & Er & Ej & -> & El & Et). rewrite Em, Ev, Er. apply has_jwt_iff in Ej. rewrite Ej, El. unfold authorization in Et. now rewrite Et.
Qed.

Lemma jwt_inv_step : forall m p e p', jwt_inv m p -> process_step (li_env (dm_listener m)) (dm_lib m) (dm_new m) (li_config (dm_listener m)) p e = Some p' -> jwt_inv m p'.
Proof.
  intros m p e p' HI H. unfold process_step in H. destruct (p_dead p); [discriminate H|]. destruct e as [i ch|k l|k doc|d].
  - destruct (arrive_inv _ _ _ _ _ _ _ _ H) as (_ & _ & Hg & _ & Hj & _ & _ & _ & Hd & _). destruct HI as [A B C].
    assert (Es : forall n, since p' n = since p n) by (intros n; unfold since; now rewrite Hd).
    assert (Hr : forall k n f, refresher p' k n f -> refresher p k n f \/ (f = FTry /\ rotates (li_env (dm_listener m)) (dm_lib m) (current (li_config (dm_listener m)) p) ch i = Some n)).
    { intros k n f Hk. unfold refresher in Hk. rewrite Hg in Hk. destruct (Nat.ltb_spec k (length (p_gs p))) as [Hl|Hl].
      - rewrite nth_error_app1 in Hk by exact Hl. now left.
      - rewrite nth_error_app2 in Hk by exact Hl. destruct (rotates _ _ _ ch i) as [n1|]; destruct (k - length (p_gs p)) as [|[|q]]; try discriminate Hk.
        injection Hk as -> <-. now right. }
    constructor.
    + rewrite Hj. eapply Forall2_more; [|exact A]. cbn beta. intros e0 e [H1 H2]. split; [exact H1|]. apply (holds_more m p); [rewrite Es; apply incl_refl|exact H2].
    + intros k n f Hk. unfold now_is. rewrite Hj. destruct (Hr k n f Hk) as [Hk'|[-> Hrot]]; [exact (B k n f Hk')|].
      apply rotates_inv in Hrot. destruct Hrot as (_ & _ & r & j & _ & _ & _ & El & Et). exists j. split; [exact El|].
      unfold refresh_triggered in Et. apply andb_true_iff in Et. destruct Et as [_ Et]. apply negb_true_iff, String.eqb_neq in Et. exact Et.
    + intros k n ks Hk. rewrite Es. destruct (Hr k n _ Hk) as [Hk'|[E _]]; [exact (C k n ks Hk')|discriminate E].
  - destruct (go_inv _ _ _ _ H) as (v & c & s & _ & _ & _ & ->). now apply (jwt_inv_same m p).
  - destruct (load_moves _ _ _ _ H) as (n & M). exact (jwt_inv_moves _ _ _ _ _ _ HI M).
  - unfold wait in H. destruct (Z.leb 0 d); [|discriminate H]. injection H as <-. now apply (jwt_inv_same m p).
Qed.

(** * The start *)

Lemma boot_holds : forall m, up m -> Forall2 (fun e0 e => fst e = fst e0 /\ exists j0 j, snd e0 = Some j0 /\ snd e = Some j /\
    validate_jwt_def (so_pem (pl_source (dm_place m)) (fst e0)) (so_kid (pl_source (dm_place m)) (fst e0)) (so_doc (pl_source (dm_place m)) (fst e0)) (named (fst e0) j0) = ROk j /\
    blank j0 /\ j_count j0 = 0) (c_jwt (dm_told m)) (c_jwt (li_config (dm_listener m))).
Proof.
  intros m (Hs & Hl & Ht & Hj). destruct (start_inv _ _ _ Hl) as [c1 [c [Ht1 [Hb [_ [Ec _]]]]]]. rewrite Ec.
  assert (c1 = dm_told m) by exact (told_unique _ _ _ _ Ht1 Ht). subst c1.
  destruct (boot_inv _ _ _ _ _ Hb) as [jm [rs [E1 [_ [_ [_ ->]]]]]]. cbn [c_jwt].
  apply all_ok_spec in E1. clear Hb Ec Ht Ht1. revert Hj. induction E1 as [|[n o] [n' o'] l0 l1 H1 H2 IH]; intros Hj; [constructor|].
  constructor; [|apply IH; intros name j Hin; apply (Hj name j); now right].
  unfold jwt_step in H1. cbn [fst snd] in *. unfold bind in H1. destruct o as [j0|]; [|discriminate H1].
  destruct (jwt_checked (pl_source (dm_place m)) n j0) as [j|] eqn:Ej; [|discriminate H1]. injection H1 as <- <-. split; [reflexivity|].
  unfold jwt_checked in Ej. destruct (validate_jwt_def _ _ _ (named n j0)) as [j'| |] eqn:Ev; try discriminate Ej.
  injection Ej as ->. exists j0, j. split; [reflexivity|]. split; [reflexivity|]. split; [exact Ev|]. exact (Hj n j0 (or_introl eq_refl)).
Qed.

Lemma jwt_inv_init : forall m, up m -> jwt_inv m (process_init (li_config (dm_listener m)) (dm_since m)).
Proof.
  intros m Hu. constructor.
  - cbn [process_init p_jwts]. eapply Forall2_more; [|exact (boot_holds m Hu)]. cbn beta. intros [n o0] [n' o] [H1 (j0 & j & -> & -> & Hv & Hb & _)].
    cbn [fst snd] in *. split; [exact H1|]. exists j0, (if String.eqb (j_key (named n j0)) "" then delivered (so_doc (pl_source (dm_place m)) n) else []), j.
    split; [reflexivity|]. split; [reflexivity|]. split; [apply reached_boot; [|exact Hv]|].
    + destruct Hb as [B1 [B2 B3]]. now repeat split.
    + intros doc d Hd Hin. exists doc. split; [|exact Hin]. apply in_or_app. left. exact Hd.
  - intros [|k] n f H; discriminate H.
  - intros [|k] n ks H; discriminate H.
Qed.

Lemma after_inv : forall m es p, after m es p -> jwt_inv m p.
Proof.
  intros m es p [Hu H]. refine (exec_inv _ _ _ _ (jwt_inv m) _ es _ p (jwt_inv_init m Hu) H). intros p0 e p'. apply jwt_inv_step.
Qed.

(** The configuration is in use at all times. *)
Lemma after_in_use : forall m es p, after m es p -> in_use (pl_source (dm_place m)) (pl_sort (dm_place m)) (dm_told m) (config_at m p).
Proof.
  intros m es p H. assert (HI := after_inv _ _ _ H). destruct H as [Hu _]. destruct HI as [A _ _].
  destruct Hu as (Hs & Hl & Ht & Hj).
  destruct (started_in_use _ _ _ _ Hs Hl Ht) as [_ (c1 & Hb & E1 & E2 & E3 & E4 & E5 & _)]; [intros name j Hin; exact (proj1 (Hj name j Hin))|].
  split; [exact Hs|]. exists c1. split; [exact Hb|]. split; [exact E1|]. split; [exact E2|]. split; [exact E3|]. split; [exact E4|]. split; [exact E5|].
  unfold config_at, current, with_jwts. cbn [c_jwt]. eapply Forall2_more; [|exact A]. cbn beta. intros e0 e [H1 (j0 & docs & j & F1 & F2 & F3 & _)].
  split; [exact H1|]. exists j0, docs, j. now repeat split.
Qed.

(** * C87, C90 *)

Lemma published_more : forall docs ds alg kid k, covered docs ds -> published docs alg kid k -> published ds alg kid k.
Proof.
  intros docs ds alg kid k H (doc & d & A & B & C). destruct (H doc d A B) as (doc' & A' & B'). exists doc', d. split; [exact A'|]. now split.
Qed.

Lemma stands_for_named : forall pem n j k, stands_for pem (named n j) k -> stands_for pem j k.
Proof. intros pem n j k H. destruct H; [exact (sf_secret _ j)|eapply sf_cert; eassumption|eapply sf_public; eassumption|eapply sf_rsa; eassumption]. Qed.

Lemma keys_from : forall m es p n j kid k, after m es p -> now_is p n j -> In (kid, k) (keys j) ->
  exists j0, defined m n j0 /\ fits (j_alg j0) k /\ allowed m p n j0 kid k.
Proof.
  intros m es p n j kid k H Hj Hin. destruct (after_inv _ _ _ H) as [A _ _]. destruct (now_holds _ _ _ _ A Hj) as (j0 & Hd & (j1 & docs & j2 & E1 & E2 & R & Cv)).
  injection E1 as <-. injection E2 as <-. exists j0. split; [exact Hd|]. apply reached_fit in R. destruct R as [I1 I2 I3 I4 I5 I6 I7 I8].
  split. { destruct I6 as (_ & _ & _ & I6). specialize (I6 kid k Hin). rewrite I1 in I6. exact I6. }
  destruct (I8 kid k Hin) as [(K1 & K2 & _)|K]; [left|right].
  - split; [exact K1|]. exact (stands_for_named _ _ _ _ K2).
  - exact (published_more _ _ _ _ _ Cv K).
Qed.

Lemma opens : forall m k i ch es1 es es2 p1 p v c, comes_in k i ch es1 es es2 -> after m es1 p1 -> after m es p ->
  nth_error (p_visits p) k = Some v -> v_out v = Upstream c -> sized (i_req i) ->
  exists r, select_route (c_routes (li_config (dm_listener m))) (q_raw_uri (i_req i)) = Some r /\
    (r_jwt r <> "" -> exists j0 token skew, defined m (r_jwt r) j0 /\ bearer (authorization i) token /\
       (In (j_alg j0) signing -> exists kid key cl, lib_verify (dm_lib m) (j_alg j0) key token = Some cl /\ fits (j_alg j0) key /\ allowed m p1 (r_jwt r) j0 kid key) /\
       (0 <= skew)%Z /\ skew_configured (j_skew j0) skew /\
       (forall cl, (0 <= p_now p1)%Z -> lib_parse (dm_lib m) token = Some cl -> dated cl -> in_time (unix (p_now p1)) skew cl)).
Proof.
  intros m k i ch es1 es es2 p1 p v c Hc H1 H Hv Ho Hq. destruct (visit_of _ _ _ _ _ _ _ _ Hc H) as (p1' & v' & H1' & Hn & Hv' & Hi & Hch & Ho' & _).
  assert (p1' = p1) as -> by (destruct H1 as [_ H1], H1' as [_ H1']; congruence).
  assert (v' = v) as -> by congruence. rewrite Ho' in Ho.
  destruct (upstream_token _ _ _ _ _ _ _ _ _ _ (after_in_use _ _ _ H1) Ho Hq) as (r & Hr & Hj). exists r. split; [exact Hr|].
  intros Hne. destruct (Hj Hne) as (j0 & docs0 & j & token & L1 & L2 & R0 & Hb & Hval & Hkey). clear Hj.
  destruct (reached_skew _ _ _ _ _ R0) as (skew & S1 & S2 & S3).
  exists j0, token, skew. split; [exact L1|]. split; [exact Hb|]. split; [|split; [exact S2|split; [exact S3|]]].
  - intros Ha. destruct (Hkey Ha) as (kid & key & cl & K1 & K2 & K3 & _). exists kid, key, cl. split; [exact K2|]. split; [exact K3|].
    destruct (keys_from m es1 p1 (r_jwt r) j kid key H1 L2 K1) as (j0' & D & _ & Al). unfold defined in D. rewrite L1 in D. injection D as <-. exact Al.
  - intros cl Hp Hpa Hda. rewrite <- Hn. refine (in_time_of _ _ _ _ _ (dm_lib m) (ch_now ch) _ token skew cl R0 Hb S1 _ Hval Hpa Hda).
    rewrite Hn. unfold unix. apply Z.div_pos; lia.
Qed.

Lemma alone : forall m k i ch es1 es es2 p, comes_in k i ch es1 es es2 -> after m es p ->
  exists p1 v, after m es1 p1 /\ nth_error (p_visits p) k = Some v /\ v_in v = i /\ v_chance v = ch /\
    let t := Setting (li_env (dm_listener m)) (dm_lib m) (dm_new m) (config_at m p1) ch i (labels_of k es2) in
    StartupSpec.serves (dm_place m) (dm_host m) t /\ v_out v = t_serve t /\ (forall c, v_out v = Upstream c -> ran t c (v_state v)) /\
    ((forall c, v_out v <> Upstream c) -> v_state v = init).
Proof.
  intros m k i ch es1 es es2 p Hc H. destruct (visit_of _ _ _ _ _ _ _ _ Hc H) as (p1 & v & H1 & Hn & Hv & Hi & Hch & Ho & _ & Hs & Hs').
  exists p1, v. split; [exact H1|]. split; [exact Hv|]. split; [exact Hi|]. split; [exact Hch|]. cbv zeta. split.
  - exists (dm_listener m), (dm_told m). destruct H as [(Hu1 & Hu2 & Hu3 & Hu4) _]. split; [exact Hu2|]. split; [exact Hu3|]. split; [reflexivity|]. exact (after_in_use _ _ _ H1).
  - split; [exact Ho|]. split; [|intros Hn'; exact (proj1 (Hs' Hn'))]. intros c Hc'. split; [|exact (Hs c Hc')]. unfold t_serve. cbn. now rewrite <- Ho.
Qed.

(** Key sets play no part for routes without jwt. *)
Lemma serve_no_jwt : forall E L nr cfg jm ch i, (forall r, select_route (c_routes cfg) (q_raw_uri (i_req i)) = Some r -> r_jwt r = "") ->
  serve E L nr (with_jwts jm cfg) ch i = serve E L nr cfg ch i.
Proof.
  intros E L nr cfg jm ch i H. unfold serve, with_jwts. cbn [c_routes]. destruct (mux_serve _ i); try reflexivity.
  unfold proxy_handler. cbn [c_routes]. destruct (negb (validate _)); [reflexivity|].
  destruct (select_route (c_routes cfg) (q_raw_uri (i_req i))) as [r|] eqn:Er; [|reflexivity].
  assert (Hj : has_jwt r = false).
  { destruct (has_jwt r) eqn:Ej; [|reflexivity]. apply has_jwt_iff in Ej. elim Ej. now apply H. }
  rewrite Hj. reflexivity.
Qed.

Lemma independent : forall m es es' p p' k k' i ch a b a' b' v v' now', comes_in k i ch a es b -> comes_in k' i ch a' es' b' ->
  after m es p -> after (Daemon (dm_place m) (dm_host m) (dm_listener m) (dm_told m) (dm_lib m) (dm_new m) now') es' p' ->
  nth_error (p_visits p) k = Some v -> nth_error (p_visits p') k' = Some v' ->
  (forall r, select_route (c_routes (li_config (dm_listener m))) (q_raw_uri (i_req i)) = Some r -> r_jwt r = "") ->
  labels_of k b = labels_of k' b' -> v_out v' = v_out v /\ v_state v' = v_state v.
Proof.
  intros m es es' p p' k k' i ch a b a' b' v v' now' Hc Hc' H H' Hv Hv' Hr Hl.
  destruct (visit_of _ _ _ _ _ _ _ _ Hc H) as (p1 & w & _ & _ & Hw & _ & _ & Ho & _ & Hs & Hs').
  destruct (visit_of _ _ _ _ _ _ _ _ Hc' H') as (p1' & w' & _ & _ & Hw' & _ & _ & Ho' & _ & Gs & Gs').
  assert (w = v) as -> by congruence. assert (w' = v') as -> by congruence. cbn [dm_listener dm_lib dm_new] in *.
  unfold config_at, current in Ho, Ho'. rewrite serve_no_jwt in Ho by exact Hr. cbn [dm_listener] in Ho'. rewrite serve_no_jwt in Ho' by exact Hr.
  assert (Eo : v_out v' = v_out v) by congruence. split; [exact Eo|]. rewrite Eo in Gs, Gs'.
  destruct (v_out v) as [t|r|r|c|] eqn:E.
  4: { specialize (Hs c eq_refl). specialize (Gs c eq_refl). rewrite <- Hl in Gs. congruence. }
  all: rewrite (proj1 (Hs' ltac:(intros c; discriminate))), (proj1 (Gs' ltac:(intros c; discriminate))); reflexivity.
Qed.

(** * C88: the rate of refreshes, as seen for one jwt *)

Definition pc_of (f : fetcher) : gpc :=
  match f with
  | FTry => GTry | FFetch | FInstall _ => GFetch | FTest => GTest | FSleep t => GSleep t | FCount => GCount | FRelease => GRelease | FEnd => GEnd
  end.
Definition pc_for (n : string) (e : string * fetcher) : gpc := if String.eqb (fst e) n then pc_of (snd e) else GEnd.

Definition view (n : string) (post : list Z) (p : process) : rate :=
  Rate (p_now p) (p_locked p n) (p_count p n) (map (pc_for n) (p_gs p)) (begun p n ++ post).

Lemma map_set_nth : forall A B (f : A -> B) k x l, map f (set_nth k x l) = set_nth k (f x) (map f l).
Proof. intros A B f k x l. revert k. induction l as [|y l IH]; intros [|k]; cbn [set_nth map]; try reflexivity. now rewrite IH. Qed.

Lemma set_nth_same : forall A k (x : A) l, nth_error l k = Some x -> set_nth k x l = l.
Proof.
  intros A k x l. revert k. induction l as [|y l IH]; intros [|k] H; try discriminate H; cbn [set_nth nth_error] in *; [injection H as ->; reflexivity|now rewrite IH].
Qed.

Lemma view_nth : forall p k n f, refresher p k n f -> nth_error (map (pc_for n) (p_gs p)) k = Some (pc_of f).
Proof. intros p k n f H. rewrite (map_nth_error _ _ _ H). unfold pc_for. cbn [fst snd]. now rewrite String.eqb_refl. Qed.

(** Goroutines for other jwts *)
Lemma rate_pad : forall now l c gs st, rate_inv (Rate now l c gs st) -> lock_inv (Rate now l c gs st) ->
  rate_inv (Rate now l c (gs ++ [GEnd]) st) /\ lock_inv (Rate now l c (gs ++ [GEnd]) st).
Proof.
  intros now l c gs st [I1 I2 I3 I4 I5] [K1 K2].
  assert (Hsame : forall j q, nth_error (gs ++ [GEnd]) j = Some q -> q <> GEnd -> nth_error gs j = Some q).
  { intros j q Hj Hq. destruct (Nat.ltb_spec j (length gs)) as [Hl|Hl]; [now rewrite nth_error_app1 in Hj by exact Hl|].
    rewrite nth_error_app2 in Hj by exact Hl. destruct (j - length gs) as [|[|x]]; try discriminate Hj. injection Hj as <-. now destruct Hq. }
  assert (Hne : forall q, refreshing q -> q <> GEnd) by (intros q Hq ->; exact Hq).
  split; [constructor|split]; cbn [r_starts r_now r_gs r_locked r_count] in *.
  - exact I1.
  - exact I2.
  - intros i j p q Hi Hj Hp Hq. cbn [r_gs] in Hi, Hj. apply (I3 i j p q); auto.
  - intros i p Hi Hp. exact (I4 i p (Hsame i p Hi (Hne p Hp)) Hp).
  - exact I5.
  - intros L. destruct (K1 L) as (i & p & Hi & Hp). exists i, p. split; [|exact Hp]. rewrite nth_error_app1; [exact Hi|]. apply nth_error_Some. congruence.
  - intros i u Hi. apply (K2 i u). apply Hsame; [exact Hi|discriminate].
Qed.

Definition rate_ok (s : rate) : Prop := rate_inv s /\ lock_inv s.

Lemma rate_ok_step : forall s l s', rate_ok s -> rate_step s l = Some s' -> rate_ok s'.
Proof. intros s l s' [A B] H. split; [exact (rate_inv_step _ _ _ A H)|exact (lock_inv_step _ _ _ A B H)]. Qed.

Lemma set_at_same : forall A n (x : A) f, set_at n x f n = x.
Proof. intros A n x f. unfold set_at. now rewrite String.eqb_refl. Qed.
Lemma set_at_other : forall A n m (x : A) f, m <> n -> set_at n x f m = f m.
Proof. intros A n m x f H. unfold set_at. apply String.eqb_neq in H. now rewrite H. Qed.

Lemma begun_started : forall n n' p, begun (started n' p) n = ((if String.eqb n' n then [p_now p] else []) ++ begun p n)%list.
Proof. intros n n' p. unfold begun, started. cbn [p_starts filter fst]. destruct (String.eqb n' n); reflexivity. Qed.

Lemma view_moves : forall n post p k n' doc p', rate_ok (view n post p) -> moves p k n' doc p' -> rate_ok (view n post p').
Proof.
  intros n post p k n' doc p' HV H. destruct (String.eqb_spec n' n) as [-> |N].
  - assert (Stay : forall f f' q, refresher p k n f -> pc_of f' = pc_of f -> p_now q = p_now p -> p_locked q = p_locked p -> p_count q = p_count p -> p_starts q = p_starts p ->
       p_gs q = p_gs p -> rate_ok (view n post (to k n f' q))).
    { intros f f' q Hk E E1 E2 E3 E4 E5. unfold view, to, begun. cbn [p_now p_locked p_count p_gs p_starts]. rewrite E1, E2, E3, E4, E5. rewrite map_set_nth.
      unfold pc_for at 1. cbn [fst snd]. rewrite String.eqb_refl, E. rewrite (set_nth_same _ k _ _ (view_nth _ _ _ _ Hk)). exact HV. }
    assert (Go : forall f f', refresher p k n f -> rate_step (view n post p) (Run k) = Some (moved (view n post p) k (pc_of f')) ->
       forall q, p_now q = p_now p -> p_locked q = p_locked p -> p_count q = p_count p -> p_starts q = p_starts p -> p_gs q = p_gs p -> rate_ok (view n post (to k n f' q))).
    { intros f f' Hk Hs q E1 E2 E3 E4 E5. apply (rate_ok_step _ _ _ HV) in Hs. unfold view, to, begun. cbn [p_now p_locked p_count p_gs p_starts]. rewrite E1, E2, E3, E4, E5.
      rewrite map_set_nth. unfold pc_for at 1. cbn [fst snd]. rewrite String.eqb_refl. exact Hs. }
    destruct H as [Hk Hl|Hk Hl|Hk|Hk|d ks Hk Hc|d ks j j' Hk Hj Hi|d ks j j' Hk Hj Hi|Hk|t Hk Ht|Hk|Hk]; pose proof (view_nth _ _ _ _ Hk) as Hv; cbn [pc_of] in Hv.
    + apply (Go FTry FEnd Hk); try reflexivity. cbn [rate_step view r_gs r_locked]. rewrite Hv, Hl. reflexivity.
    + assert (Hs : rate_step (view n post p) (Run k) = Some (Rate (p_now p) true (p_count p n) (set_nth k GFetch (map (pc_for n) (p_gs p))) (p_now p :: begun p n ++ post))).
      { cbn [rate_step view r_gs r_locked r_now r_count r_starts]. rewrite Hv, Hl. reflexivity. }
      apply (rate_ok_step _ _ _ HV) in Hs. unfold view. cbn [to with_lock p_now p_locked p_count p_gs]. change (begun (to k n FFetch (with_lock n true (started n p))) n) with (begun (started n p) n).
      rewrite begun_started, String.eqb_refl, set_at_same, map_set_nth. unfold pc_for at 1. cbn [fst snd pc_of]. rewrite String.eqb_refl. exact Hs.
    + destruct doc as [[|d ks]|].
      * apply (Go FFetch FTest Hk); try reflexivity. cbn [rate_step view r_gs]. rewrite Hv. reflexivity.
      * apply (Stay FFetch (FInstall (d :: ks)) _ Hk); reflexivity.
      * apply (Go FFetch FTest Hk); try reflexivity. cbn [rate_step view r_gs]. rewrite Hv. reflexivity.
    + apply (Go (FInstall []) FTest Hk); try reflexivity. cbn [rate_step view r_gs]. rewrite Hv. reflexivity.
    + exact HV.
    + apply (Stay (FInstall (d :: ks)) (FInstall ks) _ Hk); reflexivity.
    + apply (Go (FInstall (d :: ks)) FTest Hk); try reflexivity. cbn [rate_step view r_gs]. rewrite Hv. reflexivity.
    + apply (Go FTest (if Nat.ltb 0 (p_count p n) then FSleep (p_now p + slow_wait) else FCount) Hk); try reflexivity.
      cbn [rate_step view r_gs r_count r_now]. rewrite Hv. destruct (Nat.ltb 0 (p_count p n)); reflexivity.
    + apply (Go (FSleep t) FCount Hk); try reflexivity. cbn [rate_step view r_gs r_now]. rewrite Hv. apply Z.leb_le in Ht. rewrite Ht. reflexivity.
    + assert (Hs : rate_step (view n post p) (Run k) = Some (Rate (p_now p) (p_locked p n) (S (p_count p n)) (set_nth k GRelease (map (pc_for n) (p_gs p))) (begun p n ++ post))).
      { cbn [rate_step view r_gs r_locked r_now r_count r_starts]. rewrite Hv. reflexivity. }
      apply (rate_ok_step _ _ _ HV) in Hs. unfold view. cbn [to with_count p_now p_locked p_count p_gs]. rewrite set_at_same, map_set_nth. unfold pc_for at 1. cbn [fst snd pc_of].
      rewrite String.eqb_refl. exact Hs.
    + assert (Hs : rate_step (view n post p) (Run k) = Some (Rate (p_now p) false (p_count p n) (set_nth k GEnd (map (pc_for n) (p_gs p))) (begun p n ++ post))).
      { cbn [rate_step view r_gs r_locked r_now r_count r_starts]. rewrite Hv. reflexivity. }
      apply (rate_ok_step _ _ _ HV) in Hs. unfold view. cbn [to with_lock p_now p_locked p_count p_gs]. rewrite set_at_same, map_set_nth. unfold pc_for at 1. cbn [fst snd pc_of].
      rewrite String.eqb_refl. exact Hs.
  - assert (Same : forall f' q, p_now q = p_now p -> p_locked q n = p_locked p n -> p_count q n = p_count p n -> begun q n = begun p n -> p_gs q = p_gs p ->
       (exists f, refresher p k n' f) -> rate_ok (view n post (to k n' f' q))).
    { intros f' q E1 E2 E3 E4 E5 (f & Hk). unfold view. change (begun (to k n' f' q) n) with (begun q n). cbn [to p_now p_locked p_count p_gs]. rewrite E1, E2, E3, E4, E5.
      rewrite map_set_nth. unfold pc_for at 1. cbn [fst snd]. apply String.eqb_neq in N. rewrite N. rewrite set_nth_same; [exact HV|].
      rewrite (map_nth_error _ _ _ Hk). unfold pc_for. cbn [fst snd]. now rewrite N. }
    assert (N' : n <> n') by congruence.
    destruct H as [Hk Hl|Hk Hl|Hk|Hk|d ks Hk Hc|d ks j j' Hk Hj Hi|d ks j j' Hk Hj Hi|Hk|t Hk Ht|Hk|Hk]; try (apply Same; [reflexivity..|eexists; exact Hk]).
    + apply Same; try reflexivity; [apply set_at_other; exact N'| |eexists; exact Hk]. cbn [with_lock]. change (begun (with_lock n' true (started n' p)) n) with (begun (started n' p) n).
      rewrite begun_started. apply String.eqb_neq in N. now rewrite N.
    + exact HV.
    + apply Same; try reflexivity; [apply set_at_other; exact N'|eexists; exact Hk].
    + apply Same; try reflexivity; [apply set_at_other; exact N'|eexists; exact Hk].
Qed.

Lemma view_step : forall m n post p e p', rate_ok (view n post p) ->
  process_step (li_env (dm_listener m)) (dm_lib m) (dm_new m) (li_config (dm_listener m)) p e = Some p' -> rate_ok (view n post p').
Proof.
  intros m n post p e p' HV H. unfold process_step in H. destruct (p_dead p); [discriminate H|]. destruct e as [i ch|k l|k doc|d].
  - destruct (arrive_inv _ _ _ _ _ _ _ _ H) as (_ & _ & Hg & Hn & _ & Hl & Hc & Hs & _). unfold view, begun. rewrite Hn, Hl, Hc, Hs, Hg, map_app.
    destruct (rotates _ _ _ ch i) as [n1|]; cbn [map]; [|now rewrite app_nil_r]. unfold pc_for at 2. cbn [fst snd pc_of]. destruct (String.eqb n1 n).
    + exact (rate_ok_step (view n post p) Call _ HV eq_refl).
    + destruct HV as [A B]. exact (rate_pad _ _ _ _ _ A B).
  - destruct (go_inv _ _ _ _ H) as (v & c & s & _ & _ & _ & ->). exact HV.
  - destruct (load_moves _ _ _ _ H) as (n' & M). exact (view_moves _ _ _ _ _ _ _ HV M).
  - unfold wait in H. destruct (Z.leb 0 d) eqn:Ed; [|discriminate H]. injection H as <-. apply (rate_ok_step (view n post p) (Pass d) _ HV). cbn [rate_step]. now rewrite Ed.
Qed.

Lemma parse_key_count : forall pem kid alg j j', parse_key pem kid alg j = ROk j' -> j_count j' = j_count j.
Proof.
  intros pem kid alg j j' H. unfold parse_key in H.
  repeat match type of H with
  | (if ?b then _ else _) = _ => destruct b
  | match ?x with _ => _ end = _ => destruct x
  end; try discriminate H; injection H as <-; reflexivity.
Qed.

Lemma load_keys_count : forall ks j err j' e, load_keys j ks err = Some (j', e) -> j_count j' = j_count j.
Proof.
  induction ks as [|d ks IH]; intros j err j' e H; cbn [load_keys] in H; [injection H as <- _; reflexivity|].
  repeat match type of H with
  | (if ?b then _ else _) = _ => destruct b
  | match ?x with _ => _ end = _ => destruct x
  end; try discriminate H; try (apply IH in H; exact H). injection H as <- _. reflexivity.
Qed.

Lemma load_jwks_count : forall doc j j' e, load_jwks doc j = Some (j', e) -> j_count j' = S (j_count j).
Proof.
  intros [[|d ks]|] j j' e H; unfold load_jwks in H; try (injection H as <- _; reflexivity).
  destruct (load_keys j (d :: ks) false) as [[j1 e1]|] eqn:E; [|discriminate H]. injection H as <- _. apply load_keys_count in E. cbn [counted j_count]. now rewrite E.
Qed.

Lemma validate_count : forall pem kid doc j j', validate_jwt_def pem kid doc j = ROk j' -> j_count j = 0 ->
  j_count j' = if String.eqb (j_key j) "" && negb (String.eqb (j_url j) "") then 1 else 0.
Proof.
  intros pem kid doc j j' H H0. unfold validate_jwt_def in H.
  assert (G : forall j1, j_url j1 = j_url j -> j_key j1 = j_key j -> j_count j1 = 0 ->
    (if negb (String.eqb (j_key j1) "") then parse_key pem kid (accept_alg (j_alg j)) j1
        else if negb (String.eqb (j_url j1) "")
             then match load_jwks doc j1 with
                  | Some (j2, false) => ROk j2
                  | Some (_, true) => RErr
                  | None => RPanic
                  end
        else if negb (String.eqb (accept_alg (j_alg j)) "none") && String.eqb (j_key j) "" && String.eqb (j_url j) "" then RErr else ROk j1) = ROk j' ->
    j_count j' = if String.eqb (j_key j) "" && negb (String.eqb (j_url j) "") then 1 else 0).
  { intros j1 E1 E2 E3 K. rewrite E2 in K. destruct (String.eqb (j_key j) ""); cbn [negb andb] in K |- *; [|apply parse_key_count in K; congruence].
    rewrite E1 in K. destruct (String.eqb (j_url j) ""); cbn [negb andb] in K |- *.
    - destruct (_ && _)%bool in K; [discriminate K|]. injection K as <-. exact E3.
    - destruct (load_jwks doc j1) as [[j2 []]|] eqn:L; try discriminate K. injection K as <-. apply load_jwks_count in L. congruence. }
  destruct (String.eqb (j_name j) ""); [discriminate H|]. do 4 (destruct (_ && _)%bool in H; [discriminate H|]).
  destruct (negb (String.eqb (j_skew j) "")).
  - destruct (atoi (j_skew j)) as [z|]; [|discriminate H]. destruct (Z.ltb z 0); [discriminate H|]. now apply (G j).
  - now apply (G (with_skew "120" j)).
Qed.

Lemma boot_count : forall m n, up m ->
  (fetched_at_boot m n /\ p_count (process_init (li_config (dm_listener m)) (dm_since m)) n = 1) \/
  (~ fetched_at_boot m n /\ p_count (process_init (li_config (dm_listener m)) (dm_since m)) n = 0).
Proof.
  intros m n Hu. cbn [process_init p_count]. assert (F := boot_holds m Hu). unfold fetched_at_boot, defined.
  induction F as [|[n0 o0] [n1 o] l0 l [H1 (j0 & j & E0 & E1 & Hv & _ & Hc)] F IH].
  - right. split; [intros (j0 & H & _); discriminate H|reflexivity].
  - cbn [fst snd] in *. subst n1 o0 o. cbn [lookup]. destruct (String.eqb_spec n0 n) as [-> |N]; [|exact IH].
    rewrite (validate_count _ _ _ _ _ Hv Hc). cbn [named j_key j_url]. destruct (String.eqb_spec (j_key j0) "") as [Ek|Ek]; cbn [andb].
    + destruct (String.eqb_spec (j_url j0) "") as [Eu|Eu]; cbn [negb].
      * right. split; [|reflexivity]. intros (j1 & J1 & _ & J3). injection J1 as <-. contradiction.
      * left. split; [exists j0; now repeat split|reflexivity].
    + right. split; [|reflexivity]. intros (j1 & J1 & J2 & _). injection J1 as <-. contradiction.
Qed.

Lemma after_rate : forall m es p n, after m es p ->
  (fetched_at_boot m n /\ rate_ok (view n [dm_since m] p)) \/ (~ fetched_at_boot m n /\ rate_ok (view n [] p)).
Proof.
  intros m es p n [Hu H].
  assert (G : forall post, rate_ok (view n post (process_init (li_config (dm_listener m)) (dm_since m))) -> rate_ok (view n post p)).
  { intros post H0. refine (exec_inv _ _ _ _ (fun q => rate_ok (view n post q)) _ es _ p H0 H). intros p0 e p'. apply view_step. }
  destruct (boot_count m n Hu) as [[A B]|[A B]]; [left|right]; (split; [exact A|]); apply G; unfold view; rewrite B; cbn [process_init p_now p_locked p_gs begun p_starts map filter app].
  - split; [constructor|split]; cbn [r_starts r_now r_gs r_locked r_count].
    + constructor.
    + lia.
    + intros [|i] j q q' E; discriminate E.
    + intros [|i] q E; discriminate E.
    + intros _. split; [reflexivity|exact I].
    + discriminate.
    + intros [|i] u E; discriminate E.
  - split; [exact (rate_inv_init (dm_since m))|]. split; [discriminate|]. intros [|i] u E; discriminate E.
Qed.

Lemma busy_refreshing : forall f, busy f <-> refreshing (pc_of f).
Proof. intros f. destruct f; split; intros H; exact H. Qed.

Lemma after_view : forall m es p n, after m es p -> exists post, rate_ok (view n post p).
Proof. intros m es p n H. destruct (after_rate m es p n H) as [[_ V]|[_ V]]; eexists; exact V. Qed.

Lemma one_refresher : forall m es p n k k' f f', after m es p -> refresher p k n f -> refresher p k' n f' -> busy f -> busy f' -> k = k'.
Proof.
  intros m es p n k k' f f' H Hk Hk' Hb Hb'. destruct (after_view m es p n H) as (post & [[_ _ I3 _ _] _]).
  apply (I3 k k' (pc_of f) (pc_of f')); [exact (view_nth _ _ _ _ Hk)|exact (view_nth _ _ _ _ Hk')|now apply busy_refreshing|now apply busy_refreshing].
Qed.

Lemma locked_iff : forall m es p n, after m es p -> (p_locked p n = true <-> exists k f, refresher p k n f /\ busy f).
Proof.
  intros m es p n H. destruct (after_view m es p n H) as (post & [[_ _ _ I4 _] [K1 _]]). split.
  - intros L. destruct (K1 L) as (i & q & Hi & Hq). cbn [view r_gs] in Hi. rewrite nth_error_map in Hi.
    destruct (nth_error (p_gs p) i) as [[n' f]|] eqn:E; [|discriminate Hi]. injection Hi as <-. unfold pc_for in Hq. cbn [fst snd] in Hq.
    destruct (String.eqb_spec n' n) as [-> |N]; [|destruct Hq]. exists i, f. split; [exact E|now apply busy_refreshing].
  - intros (k & f & Hk & Hb). apply busy_refreshing in Hb. exact (proj1 (I4 k (pc_of f) (view_nth _ _ _ _ Hk) Hb)).
Qed.

Lemma starts_spaced : forall m es p n, after m es p ->
  (fetched_at_boot m n -> spaced_out (begun p n)) /\ ten_seconds_apart (begun p n).
Proof.
  intros m es p n H. destruct (after_rate m es p n H) as [[A [[I1 _ _ _ _] _]]|[A [[I1 _ _ _ _] _]]]; cbn [view r_starts] in I1; apply spaced_apart in I1.
  - assert (S : spaced_out (begun p n)).
    { intros a t1 b t2 c E. apply (I1 a t1 b t2 c (dm_since m)). rewrite E, <- app_assoc. cbn [app]. rewrite <- app_assoc. reflexivity. }
    split; [intros _; exact S|]. intros a t1 b t2 c first E. exact (S a t1 b t2 _ E).
  - split; [intros B; contradiction|]. rewrite app_nil_r in I1. exact I1.
Qed.

(** Every refresh that began was asked for by a request of its own. *)
Definition for_jwt (n : string) (e : string * fetcher) : bool := String.eqb (fst e) n.
Definition under_way (n : string) (e : string * fetcher) : bool := String.eqb (fst e) n && match snd e with FTry => false | _ => true end.

Lemma count_set : forall A (P : A -> bool) k x y l, nth_error l k = Some x ->
  length (filter P (set_nth k y l)) + (if P x then 1 else 0) = length (filter P l) + (if P y then 1 else 0).
Proof.
  intros A P k x y l. revert k. induction l as [|z l IH]; intros [|k] H; try discriminate H; cbn [set_nth nth_error filter] in *.
  - injection H as ->. destruct (P x), (P y); cbn [length]; lia.
  - specialize (IH k H). destruct (P z); cbn [length]; lia.
Qed.

Definition asked_inv (p : process) : Prop := forall n,
  length (filter (for_jwt n) (p_gs p)) = length (asked p n) /\ length (begun p n) <= length (filter (under_way n) (p_gs p)).

Lemma asked_moves : forall p k n' doc p', asked_inv p -> moves p k n' doc p' -> asked_inv p'.
Proof.
  intros p k n' doc p' HA H n. destruct (HA n) as [A B].
  assert (G : forall f f' q, refresher p k n' f -> (f = FTry -> f' <> FTry) -> f' <> FTry -> p_gs q = p_gs p -> p_visits q = p_visits p -> 
     length (begun q n) <= length (begun p n) + (if String.eqb n' n then match f with FTry => 1 | _ => 0 end else 0) ->
     length (filter (for_jwt n) (p_gs (to k n' f' q))) = length (asked (to k n' f' q) n) /\ length (begun (to k n' f' q) n) <= length (filter (under_way n) (p_gs (to k n' f' q)))).
  { intros f f' q Hk _ Hf Eg Ev Hb. unfold asked. change (begun (to k n' f' q) n) with (begun q n). cbn [to p_gs p_visits]. rewrite Eg, Ev.
    pose proof (count_set _ (for_jwt n) k (n', f) (n', f') _ Hk) as C1. pose proof (count_set _ (under_way n) k (n', f) (n', f') _ Hk) as C2.
    unfold for_jwt at 2 4 in C1. unfold under_way at 2 4 in C2. cbn [fst snd] in C1, C2. split.
    - unfold asked in A. destruct (String.eqb n' n); lia.
    - destruct (String.eqb n' n); cbn [andb] in C2; [|lia]. destruct f, f'; try (now destruct Hf); cbn in *; lia. }
  destruct H as [Hk Hl|Hk Hl|Hk|Hk|d ks Hk Hc|d ks j j' Hk Hj Hi|d ks j j' Hk Hj Hi|Hk|t Hk Ht|Hk|Hk].
  - apply (G FTry); try discriminate; try reflexivity; [exact Hk|]. lia.
  - apply (G FTry); try discriminate; try reflexivity; [exact Hk|]. change (begun (with_lock n' true (started n' p)) n) with (begun (started n' p) n).
    rewrite begun_started, app_length. destruct (String.eqb n' n); cbn [length]; lia.
  - apply (G FFetch); try discriminate; try reflexivity; [exact Hk|destruct doc as [[|x l]|]; discriminate|]. change (begun (fetched n' doc p) n) with (begun p n). lia.
  - apply (G (FInstall [])); try discriminate; try reflexivity; [exact Hk|]. lia.
  - exact (HA n).
  - apply (G (FInstall (d :: ks))); try discriminate; try reflexivity; [exact Hk|]. change (begun (with_jwt n' j' p) n) with (begun p n). lia.
  - apply (G (FInstall (d :: ks))); try discriminate; try reflexivity; [exact Hk|]. lia.
  - apply (G FTest); try discriminate; try reflexivity; [exact Hk|destruct (Nat.ltb 0 (p_count p n')); discriminate|]. lia.
  - apply (G (FSleep t)); try discriminate; try reflexivity; [exact Hk|]. lia.
  - apply (G FCount); try discriminate; try reflexivity; [exact Hk|]. change (begun (with_count n' (S (p_count p n')) p) n) with (begun p n). lia.
  - apply (G FRelease); try discriminate; try reflexivity; [exact Hk|]. change (begun (with_lock n' false p) n) with (begun p n). lia.
Qed.

Definition rotated_for (n : string) (v : visit) : bool := match v_rotated v with Some m => String.eqb m n | None => false end.

Lemma filter_set_same : forall A (P : A -> bool) k x y l, nth_error l k = Some x -> P y = P x -> length (filter P (set_nth k y l)) = length (filter P l).
Proof. intros A P k x y l H E. pose proof (count_set _ P k x y l H) as C. rewrite E in C. destruct (P x); lia. Qed.

Lemma asked_step : forall m p e p', asked_inv p -> process_step (li_env (dm_listener m)) (dm_lib m) (dm_new m) (li_config (dm_listener m)) p e = Some p' -> asked_inv p'.
Proof.
  intros m p e p' HA H. unfold process_step in H. destruct (p_dead p); [discriminate H|]. destruct e as [i ch|k l|k doc|d].
  - destruct (arrive_inv _ _ _ _ _ _ _ _ H) as (_ & Hv & Hg & _ & _ & _ & _ & Hs & _). intros n. destruct (HA n) as [A B]. unfold asked, begun in *. rewrite Hv, Hg, Hs, !filter_app, !app_length.
    cbn [filter v_rotated]. destruct (rotates _ _ _ ch i) as [n1|]; cbn [filter length]; [|lia]. unfold for_jwt at 2, under_way at 2. cbn [fst snd]. rewrite andb_false_r. destruct (String.eqb n1 n); cbn [length]; lia.
  - destruct (go_inv _ _ _ _ H) as (v & c & s & Hv & _ & _ & ->). intros n. destruct (HA n) as [A B]. split; [|exact B]. unfold asked in *. cbn [with_visits p_gs p_visits].
    rewrite (filter_set_same _ _ k v); [exact A|exact Hv|reflexivity].
  - destruct (load_moves _ _ _ _ H) as (n' & M). exact (asked_moves _ _ _ _ _ HA M).
  - unfold wait in H. destruct (Z.leb 0 d); [|discriminate H]. injection H as <-. exact HA.
Qed.

Lemma filter_length_incl : forall A (P Q : A -> bool) l, (forall x, P x = true -> Q x = true) -> length (filter P l) <= length (filter Q l).
Proof.
  intros A P Q l H. induction l as [|x l IH]; cbn [filter]; [lia|]. specialize (H x). destruct (P x); [rewrite (H eq_refl); cbn [length]; lia|].
  destruct (Q x); cbn [length]; lia.
Qed.

Lemma begun_asked : forall m es p n, after m es p -> length (begun p n) <= length (asked p n).
Proof.
  intros m es p n [Hu H].
  assert (HA : asked_inv p).
  { refine (exec_inv _ _ _ _ asked_inv _ es _ p _ H); [intros p0 e p'; apply asked_step|]. intros x. split; [reflexivity|]. cbn. lia. }
  destruct (HA n) as [A B]. assert (C := filter_length_incl _ (under_way n) (for_jwt n) (p_gs p)). 
  assert (D : forall x, under_way n x = true -> for_jwt n x = true) by (intros x Hx; unfold under_way in Hx; apply andb_true_iff in Hx; apply Hx).
  specialize (C D). lia.
Qed.

(** Which requests ask for one *)
Lemma rotated_iff : forall m k i ch es1 es es2 p1 p v n, comes_in k i ch es1 es es2 -> after m es1 p1 -> after m es p ->
  nth_error (p_visits p) k = Some v -> sized (i_req i) ->
  (v_rotated v = Some n <->
   proxied_request (li_config (dm_listener m)) i /\ sound_request (li_env (dm_listener m)) (i_req i) /\
   exists r j0 j token sigs kid, select_route (c_routes (li_config (dm_listener m))) (q_raw_uri (i_req i)) = Some r /\ r_jwt r <> "" /\ n = r_jwt r /\
     defined m n j0 /\ In (j_alg j0) signing /\ j_url j0 <> "" /\ now_is p1 n j /\
     bearer (authorization i) token /\ lib_signatures (dm_lib m) token = Some (S sigs) /\ kid <> "" /\ KidSpec.names_kid token kid /\ ~ known j kid).
Proof.
  intros m k i ch es1 es es2 p1 p v n Hc H1 H Hv Hq. destruct (visit_of _ _ _ _ _ _ _ _ Hc H) as (p1' & v' & H1' & _ & Hv' & _ & _ & _ & Hr & _).
  assert (p1' = p1) as -> by (destruct H1 as [_ H1], H1' as [_ H1']; congruence). assert (v' = v) as -> by congruence. rewrite Hr, rotates_inv. clear H1' Hv'.
  destruct (after_inv _ _ _ H1) as [A _ _]. unfold proxied_request. cbn [config_at current with_jwts c_routes c_jwt].
  rewrite (validate_iff (li_env (dm_listener m)) (ch_fresh ch) (i_req i) Hq). split.
  - intros (Em & Ev & r & j & Er & Ej & En & El & Et). split; [exact Em|]. split; [exact Ev|].
    destruct (now_holds _ _ _ _ A El) as (j0 & Hd & (j1 & docs & j2 & E1 & E2 & R & _)). injection E1 as <-. injection E2 as <-.
    apply (refresh_exactly _ _ _ _ _ _ _ _ R) in Et. destruct Et as (T1 & T2 & token & sigs & kid & T3 & T4 & T5 & T6 & T7).
    exists r, j0, j, token, sigs, kid. split; [exact Er|]. split; [exact Ej|]. split; [exact En|]. split; [exact Hd|]. split; [exact T1|]. split; [exact T2|]. split; [exact El|].
    split; [exact T3|]. split; [exact T4|]. split; [exact T5|]. now split.
  - intros (Em & Ev & r & j0 & j & token & sigs & kid & Er & Ej & En & Hd & T1 & T2 & El & T3 & T4 & T5 & T6 & T7). split; [exact Em|]. split; [exact Ev|].
    exists r, j. split; [exact Er|]. split; [exact Ej|]. split; [exact En|]. split; [exact El|].
    destruct (now_holds _ _ _ _ A El) as (j0' & Hd' & (j1 & docs & j2 & E1 & E2 & R & _)). injection E1 as <-. injection E2 as <-.
    assert (j0' = j0) as -> by (unfold defined in *; congruence).
    apply (refresh_exactly _ _ _ _ _ _ _ _ R). split; [exact T1|]. split; [exact T2|]. exists token, sigs, kid. now repeat split.
Qed.

(** * C91: keys stay *)

Lemma find_key_in : forall ks kid k, find_key ks kid = Some k -> In (kid, k) ks.
Proof.
  induction ks as [|[kid' x] ks IH]; intros kid k H; cbn [find_key] in H; [discriminate H|]. destruct (String.eqb_spec kid' kid) as [-> |N]; [injection H as ->; now left|]. right. now apply IH.
Qed.

Lemma now_reached : forall m es p n j, after m es p -> now_is p n j -> exists j0 docs, defined m n j0 /\
  reached (so_pem (pl_source (dm_place m)) n) (so_kid (pl_source (dm_place m)) n) (named n j0) docs j.
Proof.
  intros m es p n j H Hj. destruct (after_inv _ _ _ H) as [A _ _]. destruct (now_holds _ _ _ _ A Hj) as (j0 & Hd & (j1 & docs & j2 & E1 & E2 & R & _)).
  injection E1 as <-. injection E2 as <-. exists j0, docs. now split.
Qed.

(** A step keeps a jwt or adds one key to it. *)
Lemma jwt_moves : forall p k n' doc p' n j, moves p k n' doc p' -> now_is p n j ->
  now_is p' n j \/
  (n' = n /\ exists d ks j', refresher p k n (FInstall (d :: ks)) /\ install j d = Some (j', true) /\ p' = to k n (FInstall ks) (with_jwt n j' p) /\ now_is p' n j').
Proof.
  intros p k n' doc p' n j H Hj. destruct H as [Hk Hl|Hk Hl|Hk|Hk|d ks Hk Hc|d ks j1 j' Hk H1 Hi|d ks j1 j' Hk H1 Hi|Hk|t Hk Ht|Hk|Hk]; try (left; exact Hj).
  destruct (String.eqb_spec n' n) as [-> |N].
  - right. split; [reflexivity|]. assert (j1 = j) as -> by (unfold now_is in *; congruence). exists d, ks, j'. split; [exact Hk|]. split; [exact Hi|]. split; [reflexivity|].
    unfold now_is, to, with_jwt. cbn [p_jwts]. now rewrite lookup_insert, String.eqb_refl.
  - left. unfold now_is, to, with_jwt. cbn [p_jwts]. rewrite lookup_insert. apply String.eqb_neq in N. rewrite N. exact Hj.
Qed.

Lemma jwt_stays : forall m p e p' n j, process_step (li_env (dm_listener m)) (dm_lib m) (dm_new m) (li_config (dm_listener m)) p e = Some p' -> now_is p n j ->
  now_is p' n j \/
  (exists k d ks j', refresher p k n (FInstall (d :: ks)) /\ install j d = Some (j', true) /\ p' = to k n (FInstall ks) (with_jwt n j' p) /\ now_is p' n j').
Proof.
  intros m p e p' n j H Hj. unfold process_step in H. destruct (p_dead p); [discriminate H|]. destruct e as [i ch|k l|k doc|d].
  - destruct (arrive_inv _ _ _ _ _ _ _ _ H) as (_ & _ & _ & _ & Ej & _). left. unfold now_is. now rewrite Ej.
  - destruct (go_inv _ _ _ _ H) as (v & c & s & _ & _ & _ & ->). now left.
  - destruct (load_moves _ _ _ _ H) as (n' & M). destruct (jwt_moves _ _ _ _ _ _ _ M Hj) as [A|[-> (d & ks & j' & A)]]; [now left|]. right. exists k, d, ks, j'. exact A.
  - unfold wait in H. destruct (Z.leb 0 d); [|discriminate H]. injection H as <-. now left.
Qed.

Lemma after_snoc : forall m es p e p', after m es p -> process_step (li_env (dm_listener m)) (dm_lib m) (dm_new m) (li_config (dm_listener m)) p e = Some p' -> after m (es ++ [e])%list p'.
Proof. intros m es p e p' [Hu H] Hs. split; [exact Hu|]. unfold executes in *. rewrite exec_app, H. cbn [process_exec]. now rewrite Hs. Qed.

Lemma after_app : forall m es p es' p', after m es p -> executes m p es' = Some p' -> after m (es ++ es')%list p'.
Proof. intros m es p es' p' [Hu H] Hs. split; [exact Hu|]. unfold executes in *. now rewrite exec_app, H. Qed.

Lemma find_app : forall a b kid, find_key (a ++ b)%list kid = match find_key a kid with Some k => Some k | None => find_key b kid end.
Proof.
  induction a as [|[x y] a IH]; intros b kid; cbn [app find_key]; [reflexivity|]. destruct (String.eqb x kid); [reflexivity|]. apply IH.
Qed.

Lemma keys_stay : forall m es' es p p' n j, after m es p -> executes m p es' = Some p' -> now_is p n j ->
  exists j' a, now_is p' n j' /\ keys j' = (keys j ++ a)%list.
Proof.
  intros m. induction es' as [|e es' IH]; intros es p p' n j H He Hj.
  - injection He as <-. exists j, []. split; [exact Hj|now rewrite app_nil_r].
  - unfold executes in He. cbn [process_exec] in He. destruct (process_step _ _ _ _ p e) as [p1|] eqn:Es; [|discriminate He].
    assert (H1 := after_snoc _ _ _ _ _ H Es). destruct (jwt_stays _ _ _ _ _ _ Es Hj) as [Hj1|(k & d & ks & j1 & Hk & Hi & _ & Hj1)].
    + exact (IH _ _ _ _ _ H1 He Hj1).
    + destruct (IH _ _ _ _ _ H1 He Hj1) as (j' & a' & Hj' & Ea). destruct (install_load _ _ _ _ Hi) as (err & Hl).
      destruct (now_reached _ _ _ _ _ H Hj) as (j0 & docs & _ & R). destruct (reached_extends _ _ _ _ _ _ _ _ R Hl) as (_ & _ & a & Ea1 & _).
      exists j', (a ++ a')%list. split; [exact Hj'|]. now rewrite Ea, Ea1, app_assoc.
Qed.

(** * C89: new keys *)

Lemma refresher_step : forall m p e p' k n f, process_step (li_env (dm_listener m)) (dm_lib m) (dm_new m) (li_config (dm_listener m)) p e = Some p' -> refresher p k n f ->
  refresher p' k n f \/ exists doc, e = Load k doc /\ moves p k n doc p'.
Proof.
  intros m p e p' k n f H Hk. unfold process_step in H. destruct (p_dead p); [discriminate H|]. destruct e as [i ch|k' l|k' doc|d].
  - destruct (arrive_inv _ _ _ _ _ _ _ _ H) as (_ & _ & Hg & _). left. unfold refresher in *. rewrite Hg, nth_error_app1; [exact Hk|]. apply nth_error_Some. congruence.
  - destruct (go_inv _ _ _ _ H) as (v & c & s & _ & _ & _ & ->). now left.
  - destruct (load_moves _ _ _ _ H) as (n' & M). destruct (Nat.eq_dec k' k) as [-> |N].
    + assert (n' = n) as -> by (clear - M Hk; unfold refresher in *; destruct M; unfold refresher in *; congruence). right. exists doc. now split.
    + left. assert (G : forall f' q, p_gs q = p_gs p -> refresher (to k' n' f' q) k n f).
      { intros f' q E. unfold refresher, to. cbn [p_gs]. rewrite E, nth_set. apply Nat.eqb_neq in N. rewrite N. exact Hk. }
      destruct M; try (apply G; reflexivity). exact Hk.
  - unfold wait in H. destruct (Z.leb 0 d); [|discriminate H]. injection H as <-. now left.
Qed.

Lemma fits_valid : forall alg k, fits alg k -> mem_str alg valid_alg = true.
Proof.
  intros alg k H. apply mem_str_In. unfold valid_alg, valid_alg_no_none. destruct k as [n|b n|s|n]; cbn [fits] in H.
  - destruct H as (x & Hx & H). cbn [In] in Hx. destruct Hx as [<-|[<-|[<-|[]]]]; destruct H as [-> | ->]; cbn; tauto.
  - destruct H as [[-> _]|[[-> _]|[-> _]]]; cbn; tauto.
  - destruct H as (x & Hx & ->). cbn [In] in Hx. destruct Hx as [<-|[<-|[<-|[]]]]; cbn; tauto.
  - destruct H.
Qed.

(** One entry is processed. *)
Lemma install_ok : forall j d alg, j_alg j = alg -> mem_str alg valid_alg = true -> jk_alg d = alg -> (In alg ["ES256"; "ES384"; "ES512"] -> exists b n, jk_raw d = Some (KEc b n)) ->
  exists j', install j d = Some (j', true).
Proof.
  intros j d alg Hj Hv Ha He. unfold install, load_jwks. cbn [load_keys]. rewrite Ha, Hj, Hv, String.eqb_refl. cbn [andb].
  destruct (mem_str alg rsa_algs).
  - destruct (jk_raw d) as [[x|b x|s|x]|]; eexists; reflexivity.
  - destruct (mem_str alg ec_algs) eqn:Ee; [|eexists; reflexivity]. apply mem_str_In in Ee. destruct (He Ee) as (b & x & ->). destruct (bit_size_ok alg b); eexists; reflexivity.
Qed.

(** A usable entry is loaded without error. *)
Lemma usable_load : forall j d k, jk_alg d = j_alg j -> jk_raw d = Some k -> fits (j_alg j) k -> (forall s, k <> KSecret s) -> 
  exists j', load_jwks (Some [d]) j = Some (j', false).
Proof.
  intros j d k Ha Hr Hf Hs. assert (T := load_keys_total [d] j false). destruct T as (j' & e & T1 & T2).
  - intros x [<-|[]]. exact Ha.
  - destruct k as [n|b n|s|n].
    + left. apply rsa_fits in Hf. exact Hf.
    + right. split; [apply ec_fits in Hf; apply Hf|]. intros x [<-|[]]. now exists b, n.
    + elim (Hs s). reflexivity.
    + destruct Hf.
  - assert (e = false) as -> by exact (T2 [] d k eq_refl Hr Hf). exists (counted j'). unfold load_jwks. now rewrite T1.
Qed.

Section NewKey.
  Variables (m : daemon) (n : string) (k : nat) (d : jwk) (key0 : key) (j0 : jwt).
  Hypothesis (Hdef : defined m n j0) (Hraw : jk_raw d = Some key0) (Hfit : fits (j_alg j0) key0) (Hpub : forall s, key0 <> KSecret s).

  (** The key is there, or its turn is still to come. *)
  Definition coming (p : process) : Prop := exists j, now_is p n j /\
    (find_key (keys j) (jk_kid d) = Some key0 \/
     (~ known j (jk_kid d) /\ exists a b, refresher p k n (FInstall (a ++ d :: b)) /\ processable (j_alg j0) (a ++ [d]) /\ ~ In (jk_kid d) (map jk_kid a))).

  Lemma coming_step : forall es p e p', after m es p -> coming p ->
    process_step (li_env (dm_listener m)) (dm_lib m) (dm_new m) (li_config (dm_listener m)) p e = Some p' -> coming p'.
  Proof using Hdef Hraw Hfit Hpub.
    intros es p e p' H (j & Hj & Hc) Hs. destruct Hc as [Hf|(Hunk & a & b & Hk & Hp & Hkid)].
    - assert (He : executes m p [e] = Some p') by (unfold executes; cbn [process_exec]; now rewrite Hs).
      destruct (keys_stay m [e] es p p' n j H He Hj) as (j' & x & Hj' & Ek). exists j'. split; [exact Hj'|]. left. rewrite Ek, find_app, Hf. reflexivity.
    - destruct (now_reached _ _ _ _ _ H Hj) as (j0' & docs & Hd' & R). assert (j0' = j0) as -> by (unfold defined in *; congruence). clear Hd'.
      assert (Ealg : j_alg j = j_alg j0) by (destruct (reached_fit _ _ _ _ _ R) as [I1 _]; exact I1).
      destruct (jwt_stays _ _ _ _ _ _ Hs Hj) as [Hj'|(k1 & d1 & ks1 & j' & Hk1 & Hi & Ep & Hj')].
      + exists j. split; [exact Hj'|]. right. split; [exact Hunk|]. exists a, b. split; [|now split].
        destruct (refresher_step _ _ _ _ _ _ _ Hs Hk) as [Hk'|(doc & _ & M)]; [exact Hk'|]. exfalso.
        (* the goroutine itself cannot have kept the jwt *)
        assert (Hent : exists d1 rest, (a ++ d :: b)%list = d1 :: rest /\ jk_alg d1 = j_alg j0 /\ (In (j_alg j0) ["ES256"; "ES384"; "ES512"] -> exists x y, jk_raw d1 = Some (KEc x y))).
        { destruct a as [|x a]; [exists d, b|exists x, (a ++ d :: b)%list]; (split; [reflexivity|]); apply Hp; now left. }
        destruct Hent as (d1 & rest & E & Ha1 & He1). rewrite E in Hk.
        destruct (install_ok j d1 (j_alg j0) Ealg (fits_valid _ _ Hfit) Ha1 He1) as (j1 & Hi1).
        inversion M as [Hk2 Hl|Hk2 Hl|Hk2|Hk2|d2 ks2 Hk2 Hcr|d2 ks2 j2 j2' Hk2 Hj2 Hi2|d2 ks2 j2 j2' Hk2 Hj2 Hi2|Hk2|t Hk2 Ht|Hk2|Hk2]; unfold refresher in Hk, Hk2; rewrite Hk in Hk2; try discriminate Hk2; injection Hk2 as <- <-.
        * rewrite (Hcr j Hj) in Hi1. discriminate Hi1.
        * assert (j2 = j) as -> by (unfold now_is in *; congruence). rewrite Hi1 in Hi2. injection Hi2 as <-.
          destruct (install_load _ _ _ _ Hi1) as (err & Hl). assert (C := load_jwks_count _ _ _ _ Hl).
          assert (Hj3 : now_is p' n j1) by (subst p'; unfold now_is, to, with_jwt; cbn [p_jwts]; now rewrite lookup_insert, String.eqb_refl).
          assert (j1 = j) by (unfold now_is in *; congruence). subst j1. lia.
        * assert (j2 = j) as -> by (unfold now_is in *; congruence). rewrite Hi1 in Hi2. discriminate Hi2.
      + assert (k1 = k) as -> by exact (one_refresher m es p n k1 k _ _ H Hk1 Hk I I).
        unfold refresher in Hk, Hk1. rewrite Hk in Hk1. injection Hk1 as E. exists j'. split; [exact Hj'|].
        destruct (install_load _ _ _ _ Hi) as (err & Hl). destruct a as [|x a]; cbn [app] in E; injection E as E1 E2; subst d1 ks1.
        * left. destruct (Hp d) as (Ha & _); [now left|]. rewrite <- Ealg in Ha. rewrite <- Ealg in Hfit.
          destruct (usable_load j d key0 Ha Hraw Hfit Hpub) as (j1 & Hl1). assert (j1 = j') as -> by congruence.
          refine (new_kid _ _ _ _ _ [d] j' d key0 R Hl1 _ (or_introl eq_refl) Hraw _ Hpub); [|cbn [named j_alg]; now rewrite <- Ealg].
          split; [cbn [map]; constructor; [intros []|constructor]|]. intros y [<-|[]]. exact Hunk.
        * right. split.
          -- intros (y & Hy). destruct (reached_extends _ _ _ _ _ _ _ _ R Hl) as (_ & _ & c & Ec & Hc). rewrite Ec in Hy. apply in_app_or in Hy. destruct Hy as [Hy|Hy]; [apply Hunk; now exists y|].
             destruct (Hc _ _ Hy) as (_ & _ & _ & (doc & dd & D1 & D2 & _ & D4 & _)). destruct D1 as [<-|[]]. destruct D2 as [<-|[]]. apply Hkid. cbn [map]. left. exact D4.
          -- exists a, b. split.
             ++ subst p'. unfold refresher, to. cbn [p_gs with_jwt]. rewrite nth_set, Nat.eqb_refl, Hk. reflexivity.
             ++ split; [intros y Hy; apply Hp; right; exact Hy|]. intros Hy. apply Hkid. right. exact Hy.
  Qed.

  Lemma coming_exec : forall es' es p p', after m es p -> coming p -> executes m p es' = Some p' -> coming p'.
  Proof using Hdef Hraw Hfit Hpub.
    induction es' as [|e es' IH]; intros es p p' H Hc He; [injection He as <-; exact Hc|].
    unfold executes in He. cbn [process_exec] in He. destruct (process_step _ _ _ _ p e) as [p1|] eqn:Es; [|discriminate He].
    exact (IH _ _ _ (after_snoc _ _ _ _ _ H Es) (coming_step _ _ _ _ H Hc Es) He).
  Qed.
End NewKey.

Lemma fetch_step : forall m p k n ks, p_dead p = false -> refresher p k n FFetch -> ks <> [] ->
  process_step (li_env (dm_listener m)) (dm_lib m) (dm_new m) (li_config (dm_listener m)) p (Load k (Some ks)) = Some (to k n (FInstall ks) (fetched n (Some ks) p)).
Proof.
  intros m p k n ks Hd Hk Hne. unfold process_step. rewrite Hd. unfold load. unfold refresher in Hk. rewrite Hk. destruct ks as [|x l]; [now destruct Hne|reflexivity].
Qed.

(** A published key becomes known. *)
Lemma key_arrives : forall m es1 p1 k n j0 j1 ks d key es2 p2 f,
  after m es1 p1 -> refresher p1 k n FFetch -> defined m n j0 -> now_is p1 n j1 ->
  has_turn (j_alg j0) d ks -> ~ known j1 (jk_kid d) -> jk_raw d = Some key -> fits (j_alg j0) key -> (forall s, key <> KSecret s) ->
  executes m p1 (Load k (Some ks) :: es2) = Some p2 -> refresher p2 k n f -> past_keys f ->
  exists j2, now_is p2 n j2 /\ find_key (keys j2) (jk_kid d) = Some key.
Proof.
  intros m es1 p1 k n j0 j1 ks d key es2 p2 f H1 Hk Hd Hj1 (a & b & -> & Hp & Hkid) Hunk Hraw Hfit Hs He Hk2 Hpast.
  unfold executes in He. cbn [process_exec] in He. destruct (process_step _ _ _ _ p1 _) as [p|] eqn:Es; [|discriminate He].
  assert (H := after_snoc _ _ _ _ _ H1 Es). assert (Hl := step_live _ _ _ _ _ _ _ Es). rewrite (fetch_step m p1 k n _ Hl Hk) in Es by (intros E; destruct a; discriminate E). injection Es as <-.
  assert (C : coming n k d key j0 (to k n (FInstall (a ++ d :: b)) (fetched n (Some (a ++ d :: b)%list) p1))).
  { exists j1. split; [exact Hj1|]. right. split; [exact Hunk|]. exists a, b. split; [|now split]. unfold refresher, to. cbn [p_gs fetched]. rewrite nth_set, Nat.eqb_refl.
    unfold refresher in Hk. now rewrite Hk. }
  apply (coming_exec m n k d key j0 Hd Hraw Hfit Hs es2 _ _ _ H C) in He. destruct He as (j2 & Hj2 & [Hf|(_ & a' & b' & Hk3 & _)]).
  - exists j2. now split.
  - exfalso. unfold refresher in Hk2, Hk3. rewrite Hk3 in Hk2. injection Hk2 as <-. exact Hpast.
Qed.

(** Requests with tokens it verifies are admitted. *)
Lemma key_accepted : forall m es p n j0 j kid key i ch r token sigs cl skew,
  after m es p -> defined m n j0 -> now_is p n j -> find_key (keys j) kid = Some key -> honest (dm_lib m) ->
  ch_now ch = unix (p_now p) -> proxied_request (li_config (dm_listener m)) i -> sound_request (li_env (dm_listener m)) (i_req i) ->
  select_route (c_routes (li_config (dm_listener m))) (q_raw_uri (i_req i)) = Some r -> r_jwt r = n ->
  bearer (authorization i) token -> lib_signatures (dm_lib m) token = Some (S sigs) -> In (j_alg j0) signing -> lib_verify (dm_lib m) (j_alg j0) key token = Some cl ->
  skew_configured (j_skew j0) skew -> moderate (ch_now ch) skew -> in_time (ch_now ch) skew cl ->
  forall rs, serve (li_env (dm_listener m)) (dm_lib m) (dm_new m) (config_at m p) ch i = Answered rs -> rp_status rs <> 401%Z.
Proof.
  intros m es p n j0 j kid key i ch r token sigs cl skew H Hd Hj Hf HL Hn Hp Hs Hr Hrn Hb Hsig Ha Hv Hsk Hm Ht rs Hrs E401.
  destruct (now_reached _ _ _ _ _ H Hj) as (j0' & docs & Hd' & R). assert (j0' = j0) as -> by (unfold defined in *; congruence).
  destruct (reached_skew _ _ _ _ _ R) as (skew' & S1 & S2 & S3). cbn [named j_skew] in S3.
  assert (skew' = skew) as -> by exact (skew_configured_one _ _ _ S3 Hsk).
  assert (V : fst (validate_jwt (dm_lib m) (ch_now ch) j (authorization i)) = Valid).
  { exact (dates_not_rejected _ _ _ _ _ _ _ _ _ _ _ kid key cl R Ha HL Hb Hsig (find_key_in _ _ _ Hf) Hv S1 Hm Ht). }
  assert (Hread : readable (dm_lib m) (get "Authorization" (q_header (i_req i)))).
  { intros token' Hb'. fold (authorization i) in Hb'. apply bearer_split in Hb. apply bearer_split in Hb'. destruct Hb as (s & x & E1), Hb' as (s' & x' & E2).
    rewrite E1 in E2. injection E2 as _ <- _. congruence. }
  assert (N := proj2 (not_admitted_401 _ _ _ _ (li_env (dm_listener m)) (dm_lib m) (dm_new m) ch i r (after_in_use _ _ _ H) HL Hp Hs Hr Hread)).
  apply N; [now exists rs|]. right. exists j. rewrite Hrn. split; [exact Hj|exact V].
Qed.

(** * C65: what ends the process *)

Lemma install_crash : forall j d, install j d = None -> In (j_alg j) ["ES256"; "ES384"; "ES512"] /\ jk_alg d = j_alg j /\ forall b n, jk_raw d <> Some (KEc b n).
Proof.
  intros j d H. unfold install in H. destruct (load_jwks (Some [d]) j) as [[j' e]|] eqn:El; [discriminate H|]. unfold load_jwks in El. cbn [load_keys] in El.
  destruct (mem_str (jk_alg d) valid_alg && String.eqb (j_alg j) (jk_alg d)) eqn:Ea; [|discriminate El]. apply andb_true_iff in Ea. destruct Ea as [_ Ea]. apply String.eqb_eq in Ea.
  destruct (mem_str (jk_alg d) rsa_algs); [destruct (jk_raw d) as [[x|b x|s|x]|]; discriminate El|].
  destruct (mem_str (jk_alg d) ec_algs) eqn:Ee; [|discriminate El]. apply mem_str_In in Ee. rewrite Ea. split; [exact Ee|]. split; [reflexivity|].
  intros b x Er. rewrite Er in El. destruct (bit_size_ok (jk_alg d) b); discriminate El.
Qed.

Definition cause (m : daemon) (p : process) : Prop :=
  exists n j0 doc d, defined m n j0 /\ In doc (since p n) /\ In d doc /\ In (j_alg j0) ["ES256"; "ES384"; "ES512"] /\ jk_alg d = j_alg j0 /\ forall b x, jk_raw d <> Some (KEc b x).

Lemma death_moves : forall m es p k n doc p', after m es p -> p_dead p = false -> moves p k n doc p' -> p_dead p' = true -> cause m p'.
Proof.
  intros m es p k n doc p' H Hl M Hd. destruct M as [Hk L|Hk L|Hk|Hk|d ks Hk Hc|d ks j j' Hk Hj Hi|d ks j j' Hk Hj Hi|Hk|t Hk Ht|Hk|Hk]; try (cbn in Hd; rewrite Hl in Hd; discriminate Hd).
  destruct (after_inv _ _ _ H) as [A B C]. destruct (B k n _ Hk) as (j & Hj & _). destruct (C k n _ Hk) as (doc1 & D1 & D2). specialize (Hc j Hj).
  apply install_crash in Hc. destruct Hc as (C1 & C2 & C3). destruct (now_reached _ _ _ _ _ H Hj) as (j0 & docs & Hd0 & R).
  assert (Ealg : j_alg j = j_alg j0) by (destruct (reached_fit _ _ _ _ _ R) as [I1 _]; exact I1).
  exists n, j0, doc1, d. split; [exact Hd0|]. split; [exact D1|]. split; [apply D2; now left|]. rewrite <- Ealg. now repeat split.
Qed.

Lemma death_cause : forall m es p, after m es p -> p_dead p = true -> cause m p.
Proof.
  intros m es. induction es as [|e es IH] using rev_ind; intros p H Hd.
  - destruct H as [_ H]. injection H as <-. discriminate Hd.
  - destruct (after_prefix _ _ _ _ H) as (p1 & H1 & H2). unfold executes in H2. cbn [process_exec] in H2. destruct (process_step _ _ _ _ p1 e) as [p2|] eqn:Es; [|discriminate H2].
    injection H2 as ->. assert (Hl := step_live _ _ _ _ _ _ _ Es). unfold process_step in Es. rewrite Hl in Es. destruct e as [i ch|k l|k doc|t].
    + destruct (arrive_inv _ _ _ _ _ _ _ _ Es) as (_ & _ & _ & _ & _ & _ & _ & _ & _ & E). congruence.
    + destruct (go_inv _ _ _ _ Es) as (v & c & s & _ & _ & _ & ->). cbn in Hd. congruence.
    + destruct (load_moves _ _ _ _ Es) as (n & M). exact (death_moves _ _ _ _ _ _ _ H1 Hl M Hd).
    + unfold wait in Es. destruct (Z.leb 0 t); [|discriminate Es]. injection Es as <-. cbn in Hd. congruence.
Qed.

(** * C89: a refresh can take place at once *)

Lemma exec_cons : forall m p e es p1, process_step (li_env (dm_listener m)) (dm_lib m) (dm_new m) (li_config (dm_listener m)) p e = Some p1 ->
  executes m p (e :: es) = executes m p1 es.
Proof. intros m p e es p1 H. unfold executes. cbn [process_exec]. now rewrite H. Qed.

Lemma install_run : forall m n j0 k, defined m n j0 -> mem_str (j_alg j0) valid_alg = true -> forall ks es p, after m es p -> p_dead p = false ->
  refresher p k n (FInstall ks) -> processable (j_alg j0) ks ->
  exists p', executes m p (repeat (Load k None) (S (length ks))) = Some p' /\ refresher p' k n FTest /\ p_now p' = p_now p /\ p_dead p' = false.
Proof.
  intros m n j0 k Hd Hv. induction ks as [|d ks IH]; intros es p H Hl Hk Hp.
  - exists (to k n FTest p). split; [|split; [|split; [reflexivity|exact Hl]]].
    + cbn [length repeat]. unfold executes. cbn [process_exec]. unfold process_step. rewrite Hl. unfold load. unfold refresher in Hk. rewrite Hk. reflexivity.
    + unfold refresher, to. cbn [p_gs]. rewrite nth_set, Nat.eqb_refl. unfold refresher in Hk. now rewrite Hk.
  - destruct (after_inv _ _ _ H) as [_ B _]. destruct (B k n _ Hk) as (j & Hj & _). destruct (now_reached _ _ _ _ _ H Hj) as (j0' & docs & Hd' & R).
    assert (j0' = j0) as -> by (unfold defined in *; congruence). assert (Ealg : j_alg j = j_alg j0) by (destruct (reached_fit _ _ _ _ _ R) as [I1 _]; exact I1).
    destruct (Hp d (or_introl eq_refl)) as [P1 P2]. destruct (install_ok j d _ Ealg Hv P1 P2) as (j' & Hi).
    assert (Es : process_step (li_env (dm_listener m)) (dm_lib m) (dm_new m) (li_config (dm_listener m)) p (Load k None) = Some (to k n (FInstall ks) (with_jwt n j' p))).
    { unfold process_step. rewrite Hl. unfold load. unfold refresher in Hk. unfold now_is in Hj. rewrite Hk, Hj, Hi. reflexivity. }
    destruct (IH _ _ (after_snoc _ _ _ _ _ H Es) Hl) as (p' & A & B1 & C & D).
    + unfold refresher, to. cbn [p_gs with_jwt]. rewrite nth_set, Nat.eqb_refl. unfold refresher in Hk. now rewrite Hk.
    + intros x Hx. apply Hp. now right.
    + exists p'. split; [|split; [exact B1|split; [exact C|exact D]]]. change (repeat (Load k None) (S (length (d :: ks)))) with (Load k None :: repeat (Load k None) (S (length ks))).
      rewrite (exec_cons _ _ _ _ _ Es). exact A.
Qed.

Lemma retry : forall m es p i ch r n j0 j token sigs ks d key cl skew,
  after m es p -> p_dead p = false -> p_locked p n = false -> defined m n j0 -> now_is p n j -> honest (dm_lib m) ->
  ch_now ch = unix (p_now p) -> proxied_request (li_config (dm_listener m)) i -> sound_request (li_env (dm_listener m)) (i_req i) ->
  select_route (c_routes (li_config (dm_listener m))) (q_raw_uri (i_req i)) = Some r -> r_jwt r = n -> n <> "" -> j_url j0 <> "" ->
  bearer (authorization i) token -> lib_signatures (dm_lib m) token = Some (S sigs) -> KidSpec.names_kid token (jk_kid d) -> jk_kid d <> "" -> ~ known j (jk_kid d) ->
  processable (j_alg j0) ks -> has_turn (j_alg j0) d ks -> jk_raw d = Some key -> fits (j_alg j0) key -> (forall s, key <> KSecret s) ->
  lib_verify (dm_lib m) (j_alg j0) key token = Some cl ->
  skew_configured (j_skew j0) skew -> moderate (ch_now ch) skew -> in_time (ch_now ch) skew cl ->
  exists k es' p', executes m p (Arrive i ch :: es') = Some p' /\ p_now p' = p_now p /\
    (forall e, In e es' -> e = Load k None \/ e = Load k (Some ks)) /\
    forall rs, serve (li_env (dm_listener m)) (dm_lib m) (dm_new m) (config_at m p') ch i = Answered rs -> rp_status rs <> 401%Z.
Proof.
  intros m es p i ch r n j0 j token sigs ks d key cl skew H Hl Hfree Hd Hj HL Hn Hp Hs Hr Hrn Hne Hu Hb Hsig Hname Hkne Hunk Hproc Hturn Hraw Hfit Hpub Hv Hsk Hm Ht.
  assert (Hsign : In (j_alg j0) signing).
  { assert (V := fits_valid _ _ Hfit). apply mem_str_In in V. unfold valid_alg in V. apply in_app_or in V. destruct V as [V|[V|[]]]; [exact V|]. exfalso. rewrite <- V in Hfit.
    destruct key as [x|b x|s|x]; cbn [fits] in Hfit.
    - destruct Hfit as (y & Hy & Hfit). cbn [In] in Hy. destruct Hy as [<-|[<-|[<-|[]]]]; destruct Hfit as [E|E]; discriminate E.
    - destruct Hfit as [[E _]|[[E _]|[E _]]]; discriminate E.
    - now apply (Hpub s).
    - destruct Hfit. }
  assert (Hrot : rotates (li_env (dm_listener m)) (dm_lib m) (config_at m p) ch i = Some n).
  { apply rotates_inv. split; [exact Hp|]. split; [apply validate_iff; [apply Hs|exact Hs]|]. exists r, j. split; [exact Hr|]. split; [now rewrite Hrn|]. split; [now symmetry|]. split; [exact Hj|].
    destruct (now_reached _ _ _ _ _ H Hj) as (j0' & docs & Hd' & R). assert (j0' = j0) as -> by (unfold defined in *; congruence).
    apply (refresh_exactly _ _ _ _ _ _ _ _ R). split; [exact Hsign|]. split; [exact Hu|]. exists token, sigs, (jk_kid d). now repeat split. }
  destruct (process_step (li_env (dm_listener m)) (dm_lib m) (dm_new m) (li_config (dm_listener m)) p (Arrive i ch)) as [p1|] eqn:E1.
  2: { exfalso. unfold process_step in E1. rewrite Hl in E1. unfold arrive in E1. rewrite Hn, Z.eqb_refl in E1. discriminate E1. }
  assert (E1' := E1). unfold process_step in E1'. rewrite Hl in E1'.
  destruct (arrive_inv _ _ _ _ _ _ _ _ E1') as (_ & _ & Hg & Hn1 & Hj1 & Hl1 & _ & _ & _ & Hd1). clear E1'. unfold config_at in Hrot. rewrite Hrot in Hg.
  set (k := length (p_gs p)) in *. assert (Hk1 : refresher p1 k n FTry). { unfold refresher. rewrite Hg, nth_error_app2, Nat.sub_diag by (unfold k; lia). reflexivity. }
  rewrite Hl in Hd1. assert (H1 := after_snoc _ _ _ _ _ H E1).
  set (p2 := to k n FFetch (with_lock n true (started n p1))).
  assert (E2 : process_step (li_env (dm_listener m)) (dm_lib m) (dm_new m) (li_config (dm_listener m)) p1 (Load k None) = Some p2).
  { unfold process_step. rewrite Hd1. unfold load. unfold refresher in Hk1. rewrite Hk1. rewrite Hl1, Hfree. reflexivity. }
  assert (H2 := after_snoc _ _ _ _ _ H1 E2).
  assert (Hk2 : refresher p2 k n FFetch). { unfold refresher, p2, to. cbn [p_gs with_lock started]. rewrite nth_set, Nat.eqb_refl. unfold refresher in Hk1. now rewrite Hk1. }
  assert (Hks : ks <> []) by (intros ->; destruct Hturn as (a & b & E & _); destruct a; discriminate E).
  assert (Hj2 : now_is p2 n j) by (unfold now_is, p2, to; cbn [p_jwts with_lock started]; now rewrite Hj1).
  set (p3 := to k n (FInstall ks) (fetched n (Some ks) p2)).
  assert (E3 : process_step (li_env (dm_listener m)) (dm_lib m) (dm_new m) (li_config (dm_listener m)) p2 (Load k (Some ks)) = Some p3) by exact (fetch_step m p2 k n ks Hd1 Hk2 Hks).
  assert (H3 := after_snoc _ _ _ _ _ H2 E3).
  assert (Hk3 : refresher p3 k n (FInstall ks)). { unfold refresher, p3, to. cbn [p_gs fetched]. rewrite nth_set, Nat.eqb_refl. unfold refresher in Hk2. now rewrite Hk2. }
  destruct (install_run m n j0 k Hd (fits_valid _ _ Hfit) ks _ p3 H3 Hd1 Hk3 Hproc) as (p' & A & B & C & D).
  exists k, (Load k None :: Load k (Some ks) :: repeat (Load k None) (S (length ks))), p'. split.
  { rewrite (exec_cons _ _ _ _ _ E1), (exec_cons _ _ _ _ _ E2), (exec_cons _ _ _ _ _ E3). exact A. }
  split; [rewrite C; exact Hn1|]. split.
  { intros e [<-|[<-|He]]; [now left|now right|]. left. exact (repeat_spec _ _ _ He). }
  assert (He : executes m p2 (Load k (Some ks) :: repeat (Load k None) (S (length ks))) = Some p') by (rewrite (exec_cons _ _ _ _ _ E3); exact A).
  destruct (key_arrives m _ p2 k n j0 j ks d key _ p' FTest H2 Hk2 Hd Hj2 Hturn Hunk Hraw Hfit Hpub He B I) as (j2 & J1 & J2).
  assert (H' := after_app _ _ _ _ _ H3 A).
  assert (Hn' : ch_now ch = unix (p_now p')) by (rewrite C; cbn [p3 p2 to fetched with_lock started p_now]; rewrite Hn1; exact Hn).
  exact (key_accepted m _ p' n j0 j2 (jk_kid d) key i ch r token sigs cl skew H' Hd J1 J2 HL Hn' Hp Hs Hr Hrn Hb Hsig Hsign Hv Hsk Hm Ht).
Qed.
