(** Proofs for C115, and for C13 at the level of a process. *)
From Coq Require Import String Ascii List Bool ZArith NArith Lia QArith Qpower Permutation.
From Verif Require Import GoStr Header Policy PolicySpec Config ConfigSpec ConfigProofs Routing Stats Dice DiceSpec DiceProofs Exchange Jwt JwksRate
  Machine Handler HandlerSpec SystemSpec Startup StartupSpec Process ProcessSpec ProcessProofs Balance BalanceSpec.
Import Verif.Config Verif.Startup Verif.Process Verif.ProcessSpec ListNotations.
Local Open Scope string_scope.
Local Open Scope nat_scope.

(** * The generator *)

Lemma throws_fun : forall G g g1 d1, throws G g g1 d1 -> forall g2 d2, throws G g g2 d2 -> g1 = g2 /\ d1 = d2.
Proof.
  intros G g g1 d1 H. induction H as [g g1 g2 i d E1 E2 H IH|g g1 i E1 E2]; intros g' d' H'; destruct H' as [h h1 h2 j e F1 F2 H'|h h1 j F1 F2]; rewrite E1 in F1; injection F1 as <- <-.
  - apply IH. exact H'.
  - rewrite E2 in F2. discriminate F2.
  - rewrite E2 in F2. discriminate F2.
  - split; reflexivity.
Qed.

Lemma stream_fun : forall G g ds1 g1, stream G g ds1 g1 -> forall ds2 g2, stream G g ds2 g2 -> List.length ds1 = List.length ds2 -> ds1 = ds2 /\ g1 = g2.
Proof.
  intros G g ds1 g1 H. induction H as [g|g g1 d ds g2 T H IH]; intros ds2 g' H' N; destruct H' as [h|h h1 e es h2 T' H']; cbn [List.length] in N; try discriminate N.
  - split; reflexivity.
  - destruct (throws_fun G _ _ _ T _ _ T') as [-> ->]. destruct (IH es h2 H' ltac:(lia)) as [-> ->]. split; reflexivity.
Qed.

Lemma stream_app : forall G g ds1 g1, stream G g ds1 g1 -> forall ds2 g2, stream G g1 ds2 g2 -> stream G g (ds1 ++ ds2) g2.
Proof. intros G g ds1 g1 H. induction H as [g|g g1 d ds g2 T H IH]; intros ds2 g' H'; [exact H'|]. cbn [app]. apply (st_cons G g g1); [exact T|]. now apply IH. Qed.

(** * The policies stay as they are, up to sorting. *)

Section Kept.
  Variables (G : rng) (srt : fpolicy -> fpolicy) (E : env) (L : library) (nr : string -> string -> bool) (cfg : config jwt).
  Hypothesis Hs : settles srt.

  Definition kept (b : chances G) : Prop := forall pol, srt (policy_in (b_policies b) pol) = srt (policy_in (c_policies cfg) pol).

  Lemma kept_draw : forall pol ch b b', kept b -> draw_label G srt cfg pol ch b b' -> kept b'.
  Proof.
    intros pol ch b b' K (g & d & T & Lb & ->) q. cbn [b_policies]. destruct (lookup pol (b_policies b)) as [p|] eqn:Ep; [|apply K].
    rewrite <- (K q). unfold policy_in. rewrite lookup_insert. destruct (String.eqb_spec pol q) as [->|N]; [|reflexivity].
    rewrite Ep. unfold resolve_f, resolve_label. cbn [snd]. apply Hs.
  Qed.

  Lemma kept_takes : forall p e b b', kept b -> takes G srt E L nr cfg p e b b' -> kept b'.
  Proof.
    intros p e b b' K H. destruct e as [i ch|k l|k doc|d]; cbn [takes] in H; try (subst b'; exact K).
    - destruct H as (b1 & H1 & H2). assert (K1 : kept b1) by (destruct (draws E L (current cfg p) ch i) as [pol|]; [exact (kept_draw pol ch b b1 K H1)|subst b1; exact K]).
      destruct (answers_at_once _); [|subst b'; exact K1]. destruct H2 as (g & n & _ & _ & ->). exact K1.
    - destruct l; try (subst b'; exact K). destruct (nth_error (p_visits p) k) as [v|]; [|subst b'; exact K].
      destruct (renders (v_state v)); [|subst b'; exact K]. destruct H as (g & n & _ & _ & ->). exact K.
  Qed.

  Lemma kept_lives : forall p b es p' b', lives G srt E L nr cfg p b es p' b' -> kept b -> kept b'.
  Proof. intros p b es p' b' H. induction H as [|p b e p1 b1 es p2 b2 Hp Ht H IH]; intros K; [exact K|]. apply IH. exact (kept_takes p e b b1 K Ht). Qed.

  Lemma kept_label : forall pol ch b b', kept b -> draw_label G srt cfg pol ch b b' ->
    exists d, throws G (b_gen b) (b_gen b') d /\ ch_label ch (policy_in (c_policies cfg) pol) = fst (resolve_f srt d (policy_in (c_policies cfg) pol)).
  Proof.
    intros pol ch b b' K (g & d & T & Lb & ->). exists d. split; [exact T|]. rewrite Lb. unfold resolve_f, resolve_label. cbn [fst]. now rewrite (K pol).
  Qed.
End Kept.

Lemma kept_init : forall G srt cfg, kept G srt cfg (chances_init G cfg).
Proof. intros G srt cfg pol. reflexivity. Qed.

Lemma kept_gone : forall G srt m es p b, settles srt -> has_gone G srt m es p b -> kept G srt (li_config (dm_listener m)) b.
Proof. intros G srt m es p b Hs [_ H]. exact (kept_lives _ _ _ _ _ _ Hs _ _ _ _ _ H (kept_init _ _ _)). Qed.

Lemma goes_after : forall G srt m p b es p' b', goes G srt m p b es p' b' -> executes m p es = Some p'.
Proof.
  intros G srt m p b es p' b' H. unfold goes in H. unfold executes. induction H as [|p b e p1 b1 es p2 b2 Hp Ht H IH]; [reflexivity|]. cbn [process_exec]. now rewrite Hp.
Qed.

Lemma has_gone_after : forall G srt m es p b, has_gone G srt m es p b -> after m es p.
Proof. intros G srt m es p b [U H]. split; [exact U|]. exact (goes_after G srt m _ _ _ _ _ H). Qed.

(** * Draws without documents in between *)

Definition by_dice (srt : fpolicy -> fpolicy) (m : daemon) (e : string * string) (d : f64) : Prop := snd e = fst (resolve_f srt d (policy_of m (fst e))).

Lemma undisturbed : forall G srt m p b es p' b', settles srt -> kept G srt (li_config (dm_listener m)) b -> goes G srt m p b es p' b' -> none_rendered m p es ->
  exists ds, stream G (b_gen b) ds (b_gen b') /\ Forall2 (by_dice srt m) (drawn_labels m p es) ds.
Proof.
  intros G srt m p b es p' b' Hs K H. unfold goes in H. induction H as [p b|p b e p1 b1 es p2 b2 Hp Ht H IH]; intros N.
  - exists []. split; [apply st_nil|]. apply Forall2_nil.
  - cbn [none_rendered drawn_labels] in *. assert (E1 : executes m p [e] = Some p1) by (unfold executes; cbn [process_exec]; now rewrite Hp). rewrite E1 in *.
    destruct N as [N1 N2]. destruct (IH (kept_takes _ _ _ _ _ _ Hs p e b b1 K Ht) N2) as (ds & S & F).
    assert (X : exists d1, stream G (b_gen b) d1 (b_gen b1) /\ Forall2 (by_dice srt m)
       (match e with Arrive i ch => match draws_from m p i ch with Some pol => [(pol, ch_label ch (policy_of m pol))] | None => [] end | _ => [] end) d1).
    { destruct e as [i ch|k l|k doc|d]; cbn [takes rendered] in Ht, N1; try (subst b1; exists []; split; [apply st_nil|apply Forall2_nil]).
      - destruct Ht as (c1 & H1 & H2). unfold config_at in N1. rewrite N1 in H2. subst c1. unfold draws_from, config_at.
        destruct (draws _ _ (current _ p) ch i) as [pol|]; [|subst b1; exists []; split; [apply st_nil|apply Forall2_nil]].
        destruct (kept_label _ _ _ pol ch b b1 K H1) as (d & T & Lb). exists [d]. split; [apply (st_cons G _ (b_gen b1)); [exact T|apply st_nil]|].
        apply Forall2_cons; [exact Lb|apply Forall2_nil].
      - assert (b1 = b) as -> by (destruct l; try exact Ht; destruct (nth_error (p_visits p) k); [rewrite N1 in Ht|]; exact Ht).
        exists []. split; [apply st_nil|apply Forall2_nil]. }
    destruct X as (d1 & S1 & F1). exists (d1 ++ ds)%list. split; [now apply (stream_app G _ d1 (b_gen b1))|]. now apply Forall2_app.
Qed.

Lemma Forall2_len : forall A B (R : A -> B -> Prop) l1 l2, Forall2 R l1 l2 -> List.length l1 = List.length l2.
Proof. intros A B R l1 l2 H. induction H; cbn; congruence. Qed.

Lemma one_stream : forall G srt m es0 p b es p' b', settles srt -> has_gone G srt m es0 p b -> goes G srt m p b es p' b' -> none_rendered m p es ->
  exists ds, stream G (b_gen b) ds (b_gen b') /\ Forall2 (fun e d => snd e = fst (resolve_f srt d (policy_of m (fst e)))) (drawn_labels m p es) ds.
Proof. intros G srt m es0 p b es p' b' Hs H0 H N. exact (undisturbed G srt m p b es p' b' Hs (kept_gone _ _ _ _ _ _ Hs H0) H N). Qed.

Lemma same_dice : forall srt m m' e e' ds, (forall pol, policy_of m pol = policy_of m' pol) -> map fst e = map fst e' ->
  Forall2 (by_dice srt m) e ds -> Forall2 (by_dice srt m') e' ds -> e = e'.
Proof.
  intros srt m m' e e' ds Hm. revert e' ds. induction e as [|[a x] e IH]; intros [|[a' x'] e'] ds M F F'; cbn [map fst] in M; try discriminate M; [reflexivity|].
  injection M as <- M. inversion F as [|? d ? ds' R F2]; subst. inversion F' as [|? ? ? ? R' F2']; subst. unfold by_dice in R, R'. cbn [fst snd] in *. rewrite <- Hm in R'. subst. f_equal.
  exact (IH e' ds' M F2 F2').
Qed.

Lemma same_draws : forall G srt m m' p b es q c p' b' es' q' c', settles srt -> (forall pol, policy_of m pol = policy_of m' pol) ->
  kept G srt (li_config (dm_listener m)) b -> kept G srt (li_config (dm_listener m')) b' -> b_gen b = b_gen b' ->
  goes G srt m p b es q c -> goes G srt m' p' b' es' q' c' -> none_rendered m p es -> none_rendered m' p' es' ->
  map fst (drawn_labels m p es) = map fst (drawn_labels m' p' es') -> drawn_labels m p es = drawn_labels m' p' es'.
Proof.
  intros G srt m m' p b es q c p' b' es' q' c' Hs Hm K K' Hg H H' N N' M.
  destruct (undisturbed G srt m p b es q c Hs K H N) as (ds & S & F). destruct (undisturbed G srt m' p' b' es' q' c' Hs K' H' N') as (ds' & S' & F').
  rewrite <- Hg in S'. destruct (stream_fun G _ _ _ S _ _ S') as [<- _].
  - rewrite <- (Forall2_len _ _ _ _ _ F), <- (Forall2_len _ _ _ _ _ F'), <- (map_length fst), M. apply map_length.
  - exact (same_dice srt m m' _ _ ds Hm M F F').
Qed.

(** Others matter by the number of labels they draw, and what they draw from. *)
Lemma only_number : forall G srt m es0 p b es q c es' q' c', settles srt -> has_gone G srt m es0 p b ->
  goes G srt m p b es q c -> goes G srt m p b es' q' c' -> none_rendered m p es -> none_rendered m p es' ->
  map fst (drawn_labels m p es) = map fst (drawn_labels m p es') -> drawn_labels m p es = drawn_labels m p es'.
Proof.
  intros G srt m es0 p b es q c es' q' c' Hs H0. pose proof (kept_gone _ _ _ _ _ _ Hs H0) as K.
  exact (same_draws G srt m m p b es q c p b es' q' c' Hs (fun pol => eq_refl) K K eq_refl).
Qed.

Lemma replicas_alike : forall G srt m m' es p b es' p' b', settles srt -> (forall pol, policy_of m pol = policy_of m' pol) ->
  has_gone G srt m es p b -> has_gone G srt m' es' p' b' ->
  let p0 := process_init (li_config (dm_listener m)) (dm_since m) in let p0' := process_init (li_config (dm_listener m')) (dm_since m') in
  none_rendered m p0 es -> none_rendered m' p0' es' ->
  map fst (drawn_labels m p0 es) = map fst (drawn_labels m' p0' es') -> drawn_labels m p0 es = drawn_labels m' p0' es'.
Proof.
  intros G srt m m' es p b es' p' b' Hs Hm [_ H] [_ H']. cbv zeta.
  exact (same_draws G srt m m' _ _ es p b _ _ es' p' b' Hs Hm (kept_init _ _ _) (kept_init _ _ _) eq_refl H H').
Qed.

(** * Shares *)

Lemma filter_perm : forall A (f : A -> bool) l l', Permutation l l' -> List.length (filter f l) = List.length (filter f l').
Proof.
  intros A f l l' H. induction H as [|x l l' H IH|x y l|l l' l'' H1 IH1 H2 IH2]; cbn [filter]; [reflexivity| | |congruence].
  - destruct (f x); cbn [List.length]; congruence.
  - destruct (f x), (f y); reflexivity.
Qed.

Lemma filter_map_len : forall A B (f : B -> bool) (g : A -> B) l, List.length (filter f (map g l)) = List.length (filter (fun x => f (g x)) l).
Proof. intros A B f g l. induction l as [|x l IH]; [reflexivity|]. cbn [map filter]. destruct (f (g x)); cbn [List.length]; congruence. Qed.

Lemma labels_map : forall srt m pol l ds, (forall e, In e l -> fst e = pol) -> Forall2 (by_dice srt m) l ds ->
  map snd l = map (fun d => fst (resolve_f srt d (policy_of m pol))) ds.
Proof.
  intros srt m pol l ds A F. induction F as [|e d l ds R F IH]; [reflexivity|]. cbn [map]. rewrite IH; [|intros x X; apply A; now right].
  f_equal. unfold by_dice in R. now rewrite (A e (or_introl eq_refl)) in R.
Qed.

Lemma stream_share : forall G srt m es0 p b es p' b' pol ds g dice eps theta s L, settles srt -> reorders srt -> has_gone G srt m es0 p b ->
  goes G srt m p b es p' b' -> none_rendered m p es -> (forall e, In e (drawn_labels m p es) -> fst e = pol) ->
  let N := List.length (drawn_labels m p es) in
  N <> 0 -> stream G (b_gen b) ds g -> List.length ds = N -> Permutation ds (map dice (seq 0 N)) -> spread N eps dice -> (0 <= eps)%Q -> (0 <= theta)%Q ->
  (of_nat (List.length (policy_of m pol)) * (theta + Qpower 2 (-53)) < 1)%Q -> states theta (policy_of m pol) s -> (total_weight s <= 1)%Q -> L <> "default" ->
  within (of_nat (entries_of L s) * (1 + 2 * of_nat N * (eps + of_nat (List.length (policy_of m pol)) * (theta + Qpower 2 (-53)))))
    (of_nat (count_label L (map snd (drawn_labels m p es)))) (of_nat N * weight_of L s).
Proof.
  intros G srt m es0 p b es p' b' pol ds g dice eps theta s L Hs Hr H0 H Nr A N N0 S LN P Sp He Ht Hb St Tw HL.
  destruct (undisturbed G srt m p b es p' b' Hs (kept_gone _ _ _ _ _ _ Hs H0) H Nr) as (ds' & S' & F).
  destruct (stream_fun G _ _ _ S _ _ S') as [<- _]; [rewrite LN; exact (Forall2_len _ _ _ _ _ F)|].
  rewrite (labels_map srt m pol _ ds A F). unfold count_label. rewrite filter_map_len, (filter_perm _ _ _ _ P), filter_map_len.
  apply (float_share N srt dice eps theta (policy_of m pol) s L); auto. lia.
Qed.

(** * Steering *)

Lemma step_serve : forall E L nr cfg p i ch p', process_step E L nr cfg p (Arrive i ch) = Some p' ->
  p_jwts p' = p_jwts p /\ p_now p' = p_now p /\ ch_now ch = unix (p_now p) /\
  exists v, p_visits p' = (p_visits p ++ [v])%list /\ v_in v = i /\ v_chance v = ch /\ v_out v = serve E L nr (current cfg p) ch i.
Proof.
  intros E L nr cfg p i ch p' H. unfold process_step in H. destruct (p_dead p); [discriminate H|]. unfold arrive in H.
  destruct (Z.eqb_spec (ch_now ch) (unix (p_now p))) as [Ec|]; [|discriminate H]. injection H as <-. cbn [p_jwts p_now p_visits]. split; [reflexivity|]. split; [reflexivity|]. split; [exact Ec|].
  eexists. split; [reflexivity|]. repeat split.
Qed.

(** The URI of a request that goes upstream depends on its own URI and the label drawn. *)
Lemma upstream_uri : forall E L nr cfg jm ch i c, serve E L nr (with_jwts jm cfg) ch i = Upstream c ->
  exists r, select_route (c_routes cfg) (q_raw_uri (i_req i)) = Some r /\
    ((draws E L (with_jwts jm cfg) ch i = None /\ r_policy r = "" \/ draws E L (with_jwts jm cfg) ch i = Some (r_policy r)) /\
    exists u lab, map_url (ch_label ch) cfg r = Mapped u lab /\ uq_uri (c_request c) = resolve_upstream_uri r u (q_uri (i_req i))).
Proof.
  intros E L nr cfg jm ch i c H. unfold serve in H. unfold draws. change (c_routes (with_jwts jm cfg)) with (c_routes cfg) in *.
  destruct (mux_serve (about_paths (c_routes cfg)) i); try discriminate H. unfold proxy_handler in H. destruct (validate (parse_incoming E (ch_fresh ch) (i_req i))); cbn [negb] in H.
  2:{ destruct (w_too_large _); discriminate H. }
  change (c_routes (with_jwts jm cfg)) with (c_routes cfg) in *. destruct (select_route (c_routes cfg) (q_raw_uri (i_req i))) as [r|]; [|discriminate H].
  exists r. split; [reflexivity|]. destruct (if has_jwt r then _ else _); try discriminate H.
  assert (Em : map_url (ch_label ch) (with_jwts jm cfg) r = map_url (ch_label ch) cfg r) by reflexivity. rewrite Em in H.
  destruct (map_url (ch_label ch) cfg r) as [u lab| |] eqn:M; try discriminate H. injection H as <-. split.
  - change (c_resources (with_jwts jm cfg)) with (c_resources cfg). unfold map_url in M. destruct (lookup (r_resource r) (c_resources cfg)) as [[ms|]|]; try discriminate M.
    destruct (String.eqb_spec (r_policy r) "") as [Ep|Ep]; [now left; split|now right].
  - exists u, lab. split; reflexivity.
Qed.

Lemma same_target : forall (cfg : config jwt) ch ch' r u u' lab lab', map_url (ch_label ch) cfg r = Mapped u lab -> map_url (ch_label ch') cfg r = Mapped u' lab' ->
  (r_policy r <> "" -> ch_label ch (policy_in (c_policies cfg) (r_policy r)) = ch_label ch' (policy_in (c_policies cfg) (r_policy r))) -> u = u'.
Proof.
  intros cfg ch ch' r u u' lab lab' M M' H. unfold map_url in M, M'. destruct (lookup (r_resource r) (c_resources cfg)) as [[ms|]|]; try discriminate M.
  destruct (String.eqb_spec (r_policy r) "") as [Ep|Ep]; cbn [negb] in M, M'.
  - destruct ms as [|x ms]; [discriminate M|]. congruence.
  - specialize (H Ep). unfold policy_in in H. rewrite <- H in M'. destruct (first_labelled _ ms); congruence.
Qed.

(** A request that comes right after a document draws with the first throw after the greeting. *)
Lemma after_document : forall G srt m p b x cx i ch p' b', settles srt -> kept G srt (li_config (dm_listener m)) b ->
  goes G srt m p b [Arrive x cx; Arrive i ch] p' b' -> rendered m p (Arrive x cx) = true ->
  exists p1, executes m p [Arrive x cx] = Some p1 /\ p_now p1 = p_now p /\
    forall pol, draws_from m p1 i ch = Some pol ->
      exists g n g' d, g_int63 G (g_seed G (unix (p_now p))) = (g, n) /\ throws G g g' d /\ ch_label ch (policy_of m pol) = fst (resolve_f srt d (policy_of m pol)).
Proof.
  intros G srt m p b x cx i ch p' b' Hs K H R. unfold goes in H.
  inversion H as [|? ? ? p1 b1 ? ? ? Hp Ht H1]; subst. inversion H1 as [|? ? ? p2 b2 ? ? ? Hp' Ht' H2]; subst.
  exists p1. split; [unfold executes; cbn [process_exec]; now rewrite Hp|]. destruct (step_serve _ _ _ _ _ _ _ _ Hp) as (_ & Hn & _). split; [exact Hn|].
  intros pol D. unfold draws_from, config_at in D. pose proof (kept_takes _ _ _ _ _ _ Hs _ _ _ _ K Ht) as K1.
  cbn [takes] in Ht, Ht'. destruct Ht as (c1 & T1 & T2). cbn [rendered] in R. unfold config_at in R. rewrite R in T2. destruct T2 as (g & n & I1 & _ & ->).
  destruct Ht' as (c2 & T3 & _). rewrite D in T3. destruct (kept_label _ _ _ pol ch _ c2 K1 T3) as (d & T & Lb). cbn [b_gen] in T.
  exists g, n, (b_gen c2), d. split; [exact I1|]. split; [exact T|exact Lb].
Qed.

Lemma last_visit : forall m p i ch p', executes m p [Arrive i ch] = Some p' -> forall v, nth_error (p_visits p') (List.length (p_visits p)) = Some v ->
  v_out v = serve (li_env (dm_listener m)) (dm_lib m) (dm_new m) (config_at m p) ch i.
Proof.
  intros m p i ch p' H v Hv. unfold executes in H. cbn [process_exec] in H. destruct (process_step _ _ _ _ p (Arrive i ch)) as [q|] eqn:Hp; [|discriminate H]. injection H as ->.
  destruct (step_serve _ _ _ _ _ _ _ _ Hp) as (_ & _ & _ & w & Ev & _ & _ & Ew). rewrite Ev, nth_error_app2, Nat.sub_diag in Hv by lia. injection Hv as <-. exact Ew.
Qed.

(** Two requests for one URI, each right after a document, in the same second, go to the same upstream URI. *)
Lemma steered : forall G srt m es1 p1 b1 es2 p2 b2 x1 cx1 i1 ch1 q1 c1 x2 cx2 i2 ch2 q2 c2 v1 v2 u1 u2, settles srt ->
  has_gone G srt m es1 p1 b1 -> has_gone G srt m es2 p2 b2 ->
  goes G srt m p1 b1 [Arrive x1 cx1; Arrive i1 ch1] q1 c1 -> goes G srt m p2 b2 [Arrive x2 cx2; Arrive i2 ch2] q2 c2 ->
  rendered m p1 (Arrive x1 cx1) = true -> rendered m p2 (Arrive x2 cx2) = true -> unix (p_now p1) = unix (p_now p2) ->
  q_raw_uri (i_req i1) = q_raw_uri (i_req i2) -> q_uri (i_req i1) = q_uri (i_req i2) ->
  nth_error (p_visits q1) (S (List.length (p_visits p1))) = Some v1 -> nth_error (p_visits q2) (S (List.length (p_visits p2))) = Some v2 ->
  v_out v1 = Upstream u1 -> v_out v2 = Upstream u2 -> uq_uri (c_request u1) = uq_uri (c_request u2).
Proof.
  intros G srt m es1 p1 b1 es2 p2 b2 x1 cx1 i1 ch1 q1 c1 x2 cx2 i2 ch2 q2 c2 v1 v2 u1 u2 Hs H1 H2 S1 S2 R1 R2 Hn Er Eu V1 V2 O1 O2.
  assert (X : forall es p b x cx i ch q c v u, has_gone G srt m es p b -> goes G srt m p b [Arrive x cx; Arrive i ch] q c -> rendered m p (Arrive x cx) = true ->
    nth_error (p_visits q) (S (List.length (p_visits p))) = Some v -> v_out v = Upstream u ->
    exists r srv lab, select_route (c_routes (li_config (dm_listener m))) (q_raw_uri (i_req i)) = Some r /\ map_url (ch_label ch) (li_config (dm_listener m)) r = Mapped srv lab /\
      uq_uri (c_request u) = resolve_upstream_uri r srv (q_uri (i_req i)) /\
      (r_policy r <> "" -> exists g n g' d, g_int63 G (g_seed G (unix (p_now p))) = (g, n) /\ throws G g g' d /\ ch_label ch (policy_of m (r_policy r)) = fst (resolve_f srt d (policy_of m (r_policy r))))).
  { clear - Hs. intros es p b x cx i ch q c v u H Sg R V O.
    destruct (after_document G srt m p b x cx i ch q c Hs (kept_gone _ _ _ _ _ _ Hs H) Sg R) as (p1 & E1 & Hn & D).
    pose proof (goes_after _ _ _ _ _ _ _ _ Sg) as E2. assert (E3 : executes m p1 [Arrive i ch] = Some q).
    { unfold executes in *. change [Arrive x cx; Arrive i ch] with ([Arrive x cx] ++ [Arrive i ch])%list in E2. rewrite exec_app, E1 in E2. exact E2. }
    assert (Lv : List.length (p_visits p1) = S (List.length (p_visits p))).
    { unfold executes in E1. cbn [process_exec] in E1. destruct (process_step _ _ _ _ p (Arrive x cx)) as [w|] eqn:Hp; [|discriminate E1]. injection E1 as ->.
      destruct (step_serve _ _ _ _ _ _ _ _ Hp) as (_ & _ & _ & w & Ev & _). rewrite Ev, app_length. cbn [List.length]. lia. }
    rewrite <- Lv in V. pose proof (last_visit m p1 i ch q E3 v V) as Es. rewrite O in Es. symmetry in Es. unfold config_at, current in Es.
    destruct (upstream_uri _ _ _ _ _ _ _ _ Es) as (r & Sr & Dr & srv & lab & Mp & Eu). exists r, srv, lab. split; [exact Sr|]. split; [exact Mp|]. split; [exact Eu|].
    intros Np. destruct Dr as [[_ Dr]|Dr]; [contradiction|]. exact (D (r_policy r) Dr). }
  destruct (X _ _ _ _ _ _ _ _ _ _ _ H1 S1 R1 V1 O1) as (r & s1 & l1 & Sr & M1 & U1 & D1).
  destruct (X _ _ _ _ _ _ _ _ _ _ _ H2 S2 R2 V2 O2) as (r' & s2 & l2 & Sr' & M2 & U2 & D2).
  rewrite Er, Sr' in Sr. injection Sr as ->. assert (s1 = s2) as ->.
  { apply (same_target _ _ _ _ _ _ _ _ M1 M2). intros Np. destruct (D1 Np) as (g & n & g' & d & I1 & T1 & L1). destruct (D2 Np) as (h & k & h' & e & I2 & T2 & L2).
    rewrite <- Hn, I1 in I2. injection I2 as <- <-. destruct (throws_fun G _ _ _ T1 _ _ T2) as [_ <-]. unfold policy_of in L1, L2. now rewrite L1, L2. }
  rewrite U1, U2, Eu. reflexivity.
Qed.
