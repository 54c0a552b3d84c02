(** Proofs about the size of key sets. *)
From Coq Require Import String Ascii List Bool ZArith NArith Lia.
From Verif Require Import GoStr Header Policy Config ConfigSpec ConfigProofs Routing Exchange ExchangeProofs Jwt JwtSpec JwtProofs JwtKeys JwtRefresh JwtCases JwksRate JwksRateSpec JwksRateProofs
  Machine MachineRaces Handler HandlerSpec HandlerProofs HandlerCases SystemSpec Startup StartupSpec StartupProofs StartupCases Process ProcessSpec ProcessProofs ProcessCases KeyGrowthSpec.
From Verif Require KidSpec KidProofs.
Import Verif.Config Verif.JwtSpec Verif.Startup Verif.Process Verif.ProcessSpec Verif.HandlerCases ListNotations.
Local Open Scope string_scope.

(** * One key for each kid *)

Lemma upsert_kids : forall ks kp, map fst (upsert ks kp) = map fst ks /\ In (fst kp) (map fst ks) \/ map fst (upsert ks kp) = (map fst ks ++ [fst kp])%list /\ ~ In (fst kp) (map fst ks).
Proof.
  intros ks kp. unfold upsert. destruct (existsb (fun k => String.eqb (fst k) (fst kp)) ks) eqn:E.
  - left. split; [reflexivity|]. apply existsb_exists in E. destruct E as [x [H1 H2]]. apply String.eqb_eq in H2. rewrite <- H2. now apply in_map.
  - right. split; [apply map_app|]. intros H. apply in_map_iff in H. destruct H as [x [H1 H2]].
    assert (T : existsb (fun k => String.eqb (fst k) (fst kp)) ks = true) by (apply existsb_exists; exists x; split; [exact H2|now apply String.eqb_eq]). congruence.
Qed.

Lemma upsert_NoDup : forall ks kp, NoDup (map fst ks) -> NoDup (map fst (upsert ks kp)).
Proof.
  intros ks kp H. destruct (upsert_kids ks kp) as [[-> _]|[-> N]]; [exact H|].
  apply NoDup_rev in H. rewrite <- (rev_involutive (map fst ks ++ [fst kp])%list). apply NoDup_rev. rewrite rev_app_distr. cbn [rev app]. constructor; [|exact H].
  intros Hin. apply N. now apply in_rev.
Qed.

Definition distinct (j : jwt) : Prop := NoDup (map fst (j_rsa j)) /\ NoDup (map fst (j_ec j)) /\ NoDup (map fst (j_secret j)).

Lemma load_keys_distinct : forall ks j err j' e, load_keys j ks err = Some (j', e) -> distinct j -> distinct j'.
Proof.
  induction ks as [|d ks IH]; intros j err j' e H D; cbn [load_keys] in H; [injection H as <- _; exact D|].
  destruct (mem_str (jk_alg d) valid_alg && String.eqb (j_alg j) (jk_alg d)); [|injection H as <- _; exact D].
  destruct D as [D1 [D2 D3]].
  destruct (mem_str (jk_alg d) rsa_algs).
  - destruct (jk_raw d) as [[n|b n|s|n]|]; refine (IH _ _ _ _ H _); try (now split; [|split]).
    split; [exact (upsert_NoDup _ _ D1)|now split].
  - destruct (mem_str (jk_alg d) ec_algs).
    + destruct (jk_raw d) as [[n|b n|s|n]|]; try discriminate H. destruct (bit_size_ok (jk_alg d) b); refine (IH _ _ _ _ H _); try (now split; [|split]).
      split; [exact D1|]. split; [exact (upsert_NoDup _ _ D2)|exact D3].
    + refine (IH _ _ _ _ H _). now split; [|split].
Qed.

Lemma load_jwks_distinct : forall doc j j' e, load_jwks doc j = Some (j', e) -> distinct j -> distinct j'.
Proof.
  intros doc j j' e H D. unfold load_jwks in H. destruct doc as [[|d ks]|]; [injection H as <- _; exact D| |injection H as <- _; exact D].
  destruct (load_keys j (d :: ks) false) as [[j1 e1]|] eqn:E; [|discriminate H]. injection H as <- _. exact (load_keys_distinct _ _ _ _ _ E D).
Qed.

Lemma parse_key_distinct : forall pem kid alg j j', parse_key pem kid alg j = ROk j' -> distinct j -> distinct j'.
Proof.
  intros pem kid alg j j' H [D1 [D2 D3]].
  assert (U : forall ks kp, NoDup (map fst ks) -> NoDup (map fst (upsert ks kp))) by exact upsert_NoDup.
  unfold parse_key in H. destruct (mem_str alg rsa_algs); [|destruct (mem_str alg hmac_algs); [|destruct (mem_str alg ec_algs)]].
  - repeat match type of H with
    | (if ?b then _ else _) = _ => destruct b; try discriminate H
    | match ?o with _ => _ end = _ => destruct o; try discriminate H
    end; injection H as <-; (split; [apply U; exact D1|now split]).
  - destruct (negb (String.eqb (j_key j) "")); [|discriminate H]. injection H as <-. split; [exact D1|]. split; [exact D2|apply U; exact D3].
  - repeat match type of H with
    | (if ?b then _ else _) = _ => destruct b; try discriminate H
    | match ?o with _ => _ end = _ => destruct o; try discriminate H
    end; injection H as <-; (split; [exact D1|split; [apply U; exact D2|exact D3]]).
  - destruct (String.eqb alg "none"); [|discriminate H]. destruct (negb (String.eqb (j_key j) "")); [discriminate H|]. injection H as <-. now split; [|split].
Qed.

Lemma validate_distinct : forall pem kid doc j j', validate_jwt_def pem kid doc j = ROk j' -> distinct j -> distinct j'.
Proof.
  intros pem kid doc j j' H D. unfold validate_jwt_def in H.
  repeat match type of H with (if ?b then RErr else _) = _ => destruct b; [discriminate H|] end.
  assert (S : forall s, distinct (with_skew s j)) by (intros s; exact D).
  match type of H with match ?o with _ => _ end = _ => destruct o as [j1|] eqn:E; [|discriminate H] end.
  assert (D1 : distinct j1).
  { destruct (negb (String.eqb (j_skew j) "")); [|injection E as <-; apply S]. destruct (atoi (j_skew j)) as [z|]; [|discriminate E].
    destruct (Z.ltb z 0); [discriminate E|]. injection E as <-. exact D. }
  destruct (negb (String.eqb (j_key j1) "")); [exact (parse_key_distinct _ _ _ _ _ H D1)|].
  destruct (negb (String.eqb (j_url j1) "")).
  - destruct (load_jwks doc j1) as [[j2 [|]]|] eqn:El; try discriminate H. injection H as <-. exact (load_jwks_distinct _ _ _ _ El D1).
  - match type of H with (if ?b then _ else _) = _ => destruct b; [discriminate H|] end. injection H as <-. exact D1.
Qed.

Lemma reached_distinct : forall pem kid0 j0 docs j, reached pem kid0 j0 docs j -> distinct j.
Proof.
  intros pem kid0 j0 docs j H. induction H as [doc j Hb H|docs j doc j' err H IH Hu Hl].
  - apply (validate_distinct _ _ _ _ _ H). destruct Hb as [B1 [B2 B3]]. unfold distinct. rewrite B1, B2, B3. split; [constructor|]. split; constructor.
  - exact (load_jwks_distinct _ _ _ _ Hl IH).
Qed.

Lemma reached_NoDup : forall pem kid0 j0 docs j, reached pem kid0 j0 docs j -> NoDup (map fst (keys j)).
Proof.
  intros pem kid0 j0 docs j R. destruct (reached_distinct _ _ _ _ _ R) as [D1 [D2 D3]].
  destruct (signing_dec (j_alg j0)) as [Hs|Hs].
  - rewrite <- (reached_keys _ _ _ _ _ R Hs). unfold keys_for. destruct (mem_str (j_alg j) rsa_algs); [exact D1|]. destruct (mem_str (j_alg j) ec_algs); [exact D2|exact D3].
  - apply reached_fit in R. destruct R as [I1 I2 I3 I4 I5 I6 I7 I8]. destruct I5 as [I5|I5]; [contradiction|].
    destruct (keys j) as [|[kid k] l] eqn:E; [constructor|]. exfalso. destruct I6 as (_ & _ & _ & F).
    specialize (F kid k). rewrite E, I1, I5 in F. specialize (F (or_introl eq_refl)).
    destruct k as [x|b x|s|x]; cbn [fits] in F.
    + destruct F as (y & Hy & F). cbn [In] in Hy. destruct Hy as [<-|[<-|[<-|[]]]]; destruct F as [F|F]; discriminate F.
    + destruct F as [[F _]|[[F _]|[F _]]]; discriminate F.
    + destruct F as (y & Hy & F). cbn [In] in Hy. destruct Hy as [<-|[<-|[<-|[]]]]; discriminate F.
    + destruct F.
Qed.

Lemma one_per_kid : forall m es p n j, after m es p -> now_is p n j -> NoDup (map fst (keys j)).
Proof. intros m es p n j H Hj. destruct (now_reached _ _ _ _ _ H Hj) as (j0 & docs & _ & R). exact (reached_NoDup _ _ _ _ _ R). Qed.

Lemma size_bound : forall m es p n j0 j, after m es p -> defined m n j0 -> now_is p n j ->
  List.length (keys j) <= own_keys j0 + List.length (kids_in (at_boot m n j0 ++ since p n)).
Proof.
  intros m es p n j0 j H Hd Hj. assert (N := one_per_kid _ _ _ _ _ H Hj).
  destruct (after_inv _ _ _ H) as [A _ _]. destruct (now_holds _ _ _ _ A Hj) as (j0' & Hd' & (j1 & docs & j2 & E1 & E2 & R & Cv)).
  injection E1 as <-. injection E2 as <-. assert (j0' = j0) as -> by (unfold defined in *; congruence).
  apply reached_fit in R. destruct R as [I1 I2 I3 I4 I5 I6 I7 I8]. cbn [named j_key j_alg] in I8.
  set (own := if String.eqb (j_key j0) "" then [] else [so_kid (pl_source (dm_place m)) n]).
  assert (L : List.length (map fst (keys j)) <= List.length (own ++ kids_in (at_boot m n j0 ++ since p n))%list).
  { apply NoDup_incl_length; [exact N|]. intros kid Hk. apply in_map_iff in Hk. destruct Hk as [[kid' k] [<- Hin]]. cbn [fst]. apply in_or_app.
    destruct (I8 kid' k Hin) as [(K1 & _ & K3)|K].
    - left. unfold own. destruct (String.eqb_spec (j_key j0) "") as [E|_]; [contradiction|]. left. now symmetry.
    - right. apply (published_more _ _ _ _ _ Cv) in K. destruct K as (doc & d & K1 & K2 & _ & K4 & _). unfold kids_in. apply nodup_In. apply in_flat_map. exists doc.
      split; [exact K1|]. rewrite <- K4. now apply in_map. }
  rewrite map_length, app_length in L. unfold own_keys. unfold own in L. destruct (String.eqb (j_key j0) ""); exact L.
Qed.

(** * Documents that come again *)

Definition has_kids (j j' : jwt) : Prop := incl (map fst (j_rsa j)) (map fst (j_rsa j')) /\ incl (map fst (j_ec j)) (map fst (j_ec j')).

Lemma loaded_has : forall ks j err j' e, load_keys j ks err = Some (j', e) -> has_kids j j'.
Proof.
  intros ks j err j' e H. apply load_keys_loaded in H. destruct H as [_ [_ [_ [_ [_ [_ [[a [E1 _]] [b [E2 _]]]]]]]]].
  unfold has_kids. rewrite E1, E2, !map_app. split; intros x Hx; apply in_or_app; now left.
Qed.

Lemma upsert_known : forall ks kp, In (fst kp) (map fst ks) -> upsert ks kp = ks.
Proof.
  intros ks kp H. unfold upsert. apply in_map_iff in H. destruct H as [x [H1 H2]].
  assert (E : existsb (fun k => String.eqb (fst k) (fst kp)) ks = true) by (apply existsb_exists; exists x; split; [exact H2|now apply String.eqb_eq]). now rewrite E.
Qed.

Lemma upsert_has : forall ks kp, In (fst kp) (map fst (upsert ks kp)).
Proof. intros ks kp. destruct (upsert_kids ks kp) as [[-> H]|[-> _]]; [exact H|]. apply in_or_app. right. now left. Qed.

Lemma with_same_rsa : forall j, with_rsa (j_rsa j) j = j.
Proof. intros [a b c d e f g h i]. reflexivity. Qed.
Lemma with_same_ec : forall j, with_ec (j_ec j) j = j.
Proof. intros [a b c d e f g h i]. reflexivity. Qed.

Lemma load_again : forall ks j err j' e j2 err2 j2' e2, load_keys j ks err = Some (j', e) -> j_alg j2 = j_alg j -> has_kids j' j2 ->
  load_keys j2 ks err2 = Some (j2', e2) -> j2' = j2.
Proof.
  induction ks as [|d ks IH]; intros j err j' e j2 err2 j2' e2 H Ea Hk H2; cbn [load_keys] in H, H2; [now injection H2 as <- _|].
  rewrite Ea in H2. destruct (mem_str (jk_alg d) valid_alg && String.eqb (j_alg j) (jk_alg d)); [|now injection H2 as <- _].
  destruct (mem_str (jk_alg d) rsa_algs).
  - destruct (jk_raw d) as [[n|b n|s|n]|]; try exact (IH _ _ _ _ _ _ _ _ H Ea Hk H2).
    rewrite upsert_known, with_same_rsa in H2; [exact (IH _ _ _ _ _ _ _ _ H Ea Hk H2)|].
    destruct Hk as [Hk _]. apply Hk. apply (proj1 (loaded_has _ _ _ _ _ H)). exact (upsert_has _ _).
  - destruct (mem_str (jk_alg d) ec_algs); [|exact (IH _ _ _ _ _ _ _ _ H Ea Hk H2)].
    destruct (jk_raw d) as [[n|b n|s|n]|]; try discriminate H. destruct (bit_size_ok (jk_alg d) b); [|exact (IH _ _ _ _ _ _ _ _ H Ea Hk H2)].
    rewrite upsert_known, with_same_ec in H2; [exact (IH _ _ _ _ _ _ _ _ H Ea Hk H2)|].
    destruct Hk as [_ Hk]. apply Hk. apply (proj2 (loaded_has _ _ _ _ _ H)). exact (upsert_has _ _).
Qed.

Lemma has_trans : forall a b c, has_kids a b -> has_kids b c -> has_kids a c.
Proof. intros a b c [A1 A2] [B1 B2]. split; eapply incl_tran; eauto. Qed.

Lemma load_jwks_has : forall doc j j' e, load_jwks doc j = Some (j', e) -> has_kids j j' /\ j_alg j' = j_alg j.
Proof.
  intros doc j j' e H. split.
  - unfold load_jwks in H. destruct doc as [[|d ks]|]; [injection H as <- _; split; apply incl_refl| |injection H as <- _; split; apply incl_refl].
    destruct (load_keys j (d :: ks) false) as [[j1 e1]|] eqn:E; [|discriminate H]. injection H as <- _. exact (loaded_has _ _ _ _ _ E).
  - apply load_jwks_loaded in H. apply H.
Qed.

Lemma loads_has : forall j docs j', loads j docs j' -> has_kids j j' /\ j_alg j' = j_alg j.
Proof.
  intros j docs j' H. induction H as [j|j doc j1 e docs j' H1 H IH]; [split; [split; apply incl_refl|reflexivity]|].
  destruct (load_jwks_has _ _ _ _ H1) as [A B]. destruct IH as [C D]. split; [exact (has_trans _ _ _ A C)|congruence].
Qed.

(** A document that comes again, after any others, adds nothing. *)
Lemma same_again : forall j doc j1 e1 more j2 j3 e3, load_jwks doc j = Some (j1, e1) -> loads j1 more j2 -> load_jwks doc j2 = Some (j3, e3) -> keys j3 = keys j2.
Proof.
  intros j doc j1 e1 more j2 j3 e3 H1 Hm H3. destruct (loads_has _ _ _ Hm) as [Hk Ea2]. destruct (load_jwks_has _ _ _ _ H1) as [_ Ea1].
  assert (Ea : j_alg j2 = j_alg j) by congruence.
  unfold load_jwks in H1, H3. destruct doc as [[|d ks]|]; [injection H3 as <- _; reflexivity| |injection H3 as <- _; reflexivity].
  destruct (load_keys j (d :: ks) false) as [[ja ea]|] eqn:E1; [|discriminate H1]. injection H1 as <- _.
  destruct (load_keys j2 (d :: ks) false) as [[jb eb]|] eqn:E2; [|discriminate H3]. injection H3 as <- _.
  rewrite (load_again _ _ _ _ _ _ _ _ _ E1 Ea Hk E2). reflexivity.
Qed.

(** * Keys that are never given up *)

Lemma to_at : forall p k n f g q, refresher p k n f -> p_gs q = p_gs p -> refresher (to k n g q) k n g.
Proof. intros p k n f g q H E. unfold refresher, to. cbn [p_gs]. rewrite E, nth_set, Nat.eqb_refl. unfold refresher in H. now rewrite H. Qed.

(** A refresh that has looked at all keys ends. *)
Lemma finish : forall m es p k n, after m es p -> p_dead p = false -> refresher p k n FTest ->
  exists es' p', after m (es ++ es') p' /\ p_dead p' = false /\ p_locked p' n = false /\ p_jwts p' = p_jwts p /\ p_docs p' = p_docs p.
Proof.
  intros m es p k n H Hl Hk.
  assert (Tail : forall es1 p1, after m es1 p1 -> p_dead p1 = false -> refresher p1 k n FCount ->
    exists es' p', after m (es1 ++ es') p' /\ p_dead p' = false /\ p_locked p' n = false /\ p_jwts p' = p_jwts p1 /\ p_docs p' = p_docs p1).
  { intros es1 p1 H1 L1 K1. set (p2 := to k n FRelease (with_count n (S (p_count p1 n)) p1)).
    assert (E2 : process_step (li_env (dm_listener m)) (dm_lib m) (dm_new m) (li_config (dm_listener m)) p1 (Load k None) = Some p2).
    { unfold process_step. rewrite L1. unfold load. unfold refresher in K1. rewrite K1. reflexivity. }
    assert (H2 := after_snoc _ _ _ _ _ H1 E2). assert (K2 : refresher p2 k n FRelease) by exact (to_at _ _ _ _ _ _ K1 eq_refl).
    set (p3 := to k n FEnd (with_lock n false p2)).
    assert (E3 : process_step (li_env (dm_listener m)) (dm_lib m) (dm_new m) (li_config (dm_listener m)) p2 (Load k None) = Some p3).
    { unfold process_step. assert (L2 : p_dead p2 = false) by exact L1. rewrite L2. unfold load. unfold refresher in K2. rewrite K2. reflexivity. }
    assert (H3 := after_snoc _ _ _ _ _ H2 E3). exists [Load k None; Load k None], p3. rewrite <- app_assoc in H3. split; [exact H3|]. split; [exact L1|].
    split; [|now split]. unfold p3, to, with_lock, set_at. cbn [p_locked]. now rewrite String.eqb_refl. }
  destruct (Nat.ltb 0 (p_count p n)) eqn:Ec.
  - set (p1 := to k n (FSleep (p_now p + slow_wait)) p).
    assert (E1 : process_step (li_env (dm_listener m)) (dm_lib m) (dm_new m) (li_config (dm_listener m)) p (Load k None) = Some p1).
    { unfold process_step. rewrite Hl. unfold load. unfold refresher in Hk. rewrite Hk, Ec. reflexivity. }
    assert (H1 := after_snoc _ _ _ _ _ H E1). assert (K1 : refresher p1 k n (FSleep (p_now p + slow_wait))) by exact (to_at _ _ _ _ _ _ Hk eq_refl).
    set (p2 := Process (p_now p1 + slow_wait) (p_jwts p1) (p_locked p1) (p_count p1) (p_gs p1) (p_visits p1) (p_dead p1) (p_starts p1) (p_docs p1)).
    assert (E2 : process_step (li_env (dm_listener m)) (dm_lib m) (dm_new m) (li_config (dm_listener m)) p1 (Wait slow_wait) = Some p2).
    { unfold process_step. assert (L1 : p_dead p1 = false) by exact Hl. rewrite L1. reflexivity. }
    assert (H2 := after_snoc _ _ _ _ _ H1 E2). assert (K2 : refresher p2 k n (FSleep (p_now p + slow_wait))) by exact K1.
    set (p3 := to k n FCount p2).
    assert (E3 : process_step (li_env (dm_listener m)) (dm_lib m) (dm_new m) (li_config (dm_listener m)) p2 (Load k None) = Some p3).
    { unfold process_step. assert (L2 : p_dead p2 = false) by exact Hl. rewrite L2. unfold load. unfold refresher in K2. rewrite K2.
      assert (T : (p_now p + slow_wait <=? p_now p2)%Z = true) by (apply Z.leb_refl). rewrite T. reflexivity. }
    assert (H3 := after_snoc _ _ _ _ _ H2 E3). assert (K3 : refresher p3 k n FCount) by exact (to_at _ _ _ _ _ _ K2 eq_refl).
    destruct (Tail _ p3 H3 Hl K3) as (es' & p' & A & B). exists (([Load k None] ++ [Wait slow_wait] ++ [Load k None]) ++ es')%list, p'. split; [|exact B].
    rewrite !app_assoc in *. exact A.
  - set (p1 := to k n FCount p).
    assert (E1 : process_step (li_env (dm_listener m)) (dm_lib m) (dm_new m) (li_config (dm_listener m)) p (Load k None) = Some p1).
    { unfold process_step. rewrite Hl. unfold load. unfold refresher in Hk. rewrite Hk, Ec. reflexivity. }
    assert (H1 := after_snoc _ _ _ _ _ H E1). assert (K1 : refresher p1 k n FCount) by exact (to_at _ _ _ _ _ _ Hk eq_refl).
    destruct (Tail _ p1 H1 Hl K1) as (es' & p' & A & B). exists ([Load k None] ++ es')%list, p'. split; [|exact B]. rewrite app_assoc. exact A.
Qed.

Lemma upsert_new : forall j d x, ~ known j (jk_kid d) -> upsert (j_rsa j) (jk_kid d, KRsa x) = (j_rsa j ++ [(jk_kid d, KRsa x)])%list.
Proof.
  intros j d x H. unfold upsert. destruct (existsb (fun k => String.eqb (fst k) (fst (jk_kid d, KRsa x))) (j_rsa j)) eqn:E; [|reflexivity].
  exfalso. apply existsb_exists in E. destruct E as ([kid k] & Hin & Heq). apply String.eqb_eq in Heq. cbn [fst] in Heq. subst kid.
  apply H. exists k. unfold keys. apply in_or_app. now left.
Qed.

(** A request that names a kid nobody publishes makes the key published at the moment one more. *)
Lemma one_more : forall m es p i ch r n j0 j token sigs kid d x,
  after m es p -> p_dead p = false -> p_locked p n = false -> defined m n j0 -> now_is p n j ->
  ch_now ch = unix (p_now p) -> proxied_request (li_config (dm_listener m)) i -> sound_request (li_env (dm_listener m)) (i_req i) ->
  select_route (c_routes (li_config (dm_listener m))) (q_raw_uri (i_req i)) = Some r -> r_jwt r = n -> n <> "" -> j_url j0 <> "" ->
  bearer (authorization i) token -> lib_signatures (dm_lib m) token = Some (S sigs) -> KidSpec.names_kid token kid -> kid <> "" -> ~ known j kid ->
  In (j_alg j0) rsa_algs -> jk_alg d = j_alg j0 -> jk_raw d = Some (KRsa x) -> ~ known j (jk_kid d) ->
  exists es' p' j', after m (es ++ es') p' /\ p_dead p' = false /\ p_locked p' n = false /\ now_is p' n j' /\
    List.length (keys j') = S (List.length (keys j)) /\ (forall a, known j' a -> known j a \/ a = jk_kid d) /\ since p' n = [d] :: since p n.
Proof.
  intros m es p i ch r n j0 j token sigs kid d x H Hl Hfree Hd Hj Hn Hp Hs Hr Hrn Hne Hu Hb Hsig Hname Hkne Hunk Halg Hda Hraw Hnew.
  assert (Hsign : In (j_alg j0) signing). { unfold rsa_algs in Halg. cbn [In] in Halg |- *. unfold signing. cbn [In]. tauto. }
  destruct (now_reached _ _ _ _ _ H Hj) as (j0' & docs & Hd' & R). assert (j0' = j0) as -> by (unfold defined in *; congruence).
  assert (Hrot : rotates (li_env (dm_listener m)) (dm_lib m) (config_at m p) ch i = Some n).
  { apply rotates_inv. split; [exact Hp|]. split; [apply validate_iff; [apply Hs|exact Hs]|]. exists r, j. split; [exact Hr|]. split; [now rewrite Hrn|]. split; [now symmetry|]. split; [exact Hj|].
    apply (refresh_exactly _ _ _ _ _ _ _ _ R). split; [exact Hsign|]. split; [exact Hu|]. exists token, sigs, kid. now repeat split. }
  assert (Ea : j_alg j = j_alg j0) by exact (fu_alg _ _ _ _ _ (reached_fit _ _ _ _ _ R)).
  destruct (process_step (li_env (dm_listener m)) (dm_lib m) (dm_new m) (li_config (dm_listener m)) p (Arrive i ch)) as [p1|] eqn:E1.
  2: { exfalso. unfold process_step in E1. rewrite Hl in E1. unfold arrive in E1. rewrite Hn, Z.eqb_refl in E1. discriminate E1. }
  assert (E1' := E1). unfold process_step in E1'. rewrite Hl in E1'.
  destruct (arrive_inv _ _ _ _ _ _ _ _ E1') as (_ & _ & Hg & Hn1 & Hj1 & Hl1 & _ & _ & Hdocs & Hd1). clear E1'. unfold config_at in Hrot. rewrite Hrot in Hg.
  set (k := length (p_gs p)) in *. assert (Hk1 : refresher p1 k n FTry). { unfold refresher. rewrite Hg, nth_error_app2, Nat.sub_diag by (unfold k; lia). reflexivity. }
  rewrite Hl in Hd1. assert (H1 := after_snoc _ _ _ _ _ H E1).
  set (p2 := to k n FFetch (with_lock n true (started n p1))).
  assert (E2 : process_step (li_env (dm_listener m)) (dm_lib m) (dm_new m) (li_config (dm_listener m)) p1 (Load k None) = Some p2).
  { unfold process_step. rewrite Hd1. unfold load. unfold refresher in Hk1. rewrite Hk1. rewrite Hl1, Hfree. reflexivity. }
  assert (H2 := after_snoc _ _ _ _ _ H1 E2).
  assert (Hk2 : refresher p2 k n FFetch) by exact (to_at _ _ _ _ _ _ Hk1 eq_refl).
  set (p3 := to k n (FInstall [d]) (fetched n (Some [d]) p2)).
  assert (E3 : process_step (li_env (dm_listener m)) (dm_lib m) (dm_new m) (li_config (dm_listener m)) p2 (Load k (Some [d])) = Some p3)
    by (refine (fetch_step m p2 k n [d] Hd1 Hk2 _); discriminate).
  assert (H3 := after_snoc _ _ _ _ _ H2 E3).
  assert (Hk3 : refresher p3 k n (FInstall [d])) by exact (to_at _ _ _ _ _ _ Hk2 eq_refl).
  assert (Hj3 : lookup n (p_jwts p3) = Some (Some j)) by (assert (Ep : p_jwts p3 = p_jwts p1) by reflexivity; rewrite Ep, Hj1; exact Hj).
  set (j' := counted (with_rsa (j_rsa j ++ [(jk_kid d, KRsa x)])%list j)).
  assert (Ei : install j d = Some (j', true)).
  { unfold install, load_jwks. cbn [load_keys]. assert (V : mem_str (jk_alg d) valid_alg = true) by (apply mem_str_In; rewrite Hda; unfold valid_alg; apply in_or_app; left; exact Hsign).
    assert (A : mem_str (jk_alg d) rsa_algs = true) by (apply mem_str_In; now rewrite Hda).
    rewrite V, Ea, Hda, String.eqb_refl. cbn [andb]. rewrite <- Hda, A, Hraw. rewrite (upsert_new j d x Hnew). reflexivity. }
  set (p4 := to k n (FInstall []) (with_jwt n j' p3)).
  assert (E4 : process_step (li_env (dm_listener m)) (dm_lib m) (dm_new m) (li_config (dm_listener m)) p3 (Load k None) = Some p4).
  { unfold process_step. assert (L3 : p_dead p3 = false) by exact Hd1. rewrite L3. unfold load. unfold refresher in Hk3. rewrite Hk3, Hj3, Ei. reflexivity. }
  assert (H4 := after_snoc _ _ _ _ _ H3 E4). assert (Hk4 : refresher p4 k n (FInstall [])) by exact (to_at _ _ _ _ _ _ Hk3 eq_refl).
  set (p5 := to k n FTest p4).
  assert (E5 : process_step (li_env (dm_listener m)) (dm_lib m) (dm_new m) (li_config (dm_listener m)) p4 (Load k None) = Some p5).
  { unfold process_step. assert (L4 : p_dead p4 = false) by exact Hd1. rewrite L4. unfold load. unfold refresher in Hk4. rewrite Hk4. reflexivity. }
  assert (H5 := after_snoc _ _ _ _ _ H4 E5). assert (Hk5 : refresher p5 k n FTest) by exact (to_at _ _ _ _ _ _ Hk4 eq_refl).
  destruct (finish m _ p5 k n H5 Hd1 Hk5) as (es' & p' & A & B & C & D & F).
  exists ([Arrive i ch] ++ [Load k None] ++ [Load k (Some [d])] ++ [Load k None] ++ [Load k None] ++ es')%list, p', j'.
  split; [rewrite !app_assoc in *; exact A|]. split; [exact B|]. split; [exact C|].
  split. { unfold now_is. rewrite D. assert (Ep : p_jwts p5 = insert n (Some j') (p_jwts p3)) by reflexivity. rewrite Ep, lookup_insert, String.eqb_refl. reflexivity. }
  assert (Ek : keys j' = ((j_rsa j ++ [(jk_kid d, KRsa x)]) ++ j_ec j ++ j_secret j)%list) by reflexivity.
  split. { rewrite Ek. unfold keys. rewrite !app_length. cbn [List.length]. lia. }
  split. { intros a (key & Ha). rewrite Ek in Ha. apply in_app_or in Ha. destruct Ha as [Ha|Ha].
    - apply in_app_or in Ha. destruct Ha as [Ha|[Ha|[]]]; [left; exists key; unfold keys; apply in_or_app; now left|]. right. now injection Ha as <-.
    - left. exists key. unfold keys. apply in_or_app. now right. }
  unfold since. rewrite F. assert (Ed : p_docs p5 = (n, Some [d]) :: p_docs p1) by reflexivity. rewrite Ed, Hdocs. cbn [flat_map fst snd]. rewrite String.eqb_refl. reflexivity.
Qed.

(** Names for keys: i letters after a "y" *)
Fixpoint xs (i : nat) : string := match i with O => "" | S i => "x" ++ xs i end.
Definition kid_nr (i : nat) : string := "y" ++ xs i.

Lemma kid_nr_inj : forall a b, kid_nr a = kid_nr b -> a = b.
Proof.
  intros a b H. injection H as H. revert b H. induction a as [|a IH]; intros [|b] H; try discriminate H; [reflexivity|]. injection H as H. now rewrite (IH b H).
Qed.

Lemma grow : forall m i mk r n j0 j1 p1 token kid,
  after m [] p1 -> p_dead p1 = false -> p_locked p1 n = false -> since p1 n = [] -> now_is p1 n j1 -> (forall a, known j1 a -> a <> kid /\ forall b, a <> kid_nr b) -> (forall b, kid <> kid_nr b) ->
  defined m n j0 -> (forall t, ch_now (mk t) = t) -> proxied_request (li_config (dm_listener m)) i -> sound_request (li_env (dm_listener m)) (i_req i) ->
  select_route (c_routes (li_config (dm_listener m))) (q_raw_uri (i_req i)) = Some r -> r_jwt r = n -> n <> "" -> j_url j0 <> "" ->
  bearer (authorization i) token -> lib_signatures (dm_lib m) token = Some 1 -> KidSpec.names_kid token kid -> kid <> "" -> In (j_alg j0) rsa_algs ->
  forall N, exists es p j, after m es p /\ p_dead p = false /\ p_locked p n = false /\ now_is p n j /\
    N + List.length (keys j1) = List.length (keys j) /\ (forall a, known j a -> known j1 a \/ exists b, b < N /\ a = kid_nr b) /\ (forall doc, In doc (since p n) -> List.length doc = 1).
Proof.
  intros m i mk r n j0 j1 p1 token kid K1 K2 K3 K3' K5 K6 K7 K4 Hmk K8 K9 K10 K10' Hne Hu K11 K12 K13 Hkne Halg.
  induction N as [|N (es & p & j & A & B & C & D & F & G & I)].
  - exists [], p1, j1. split; [exact K1|]. split; [exact K2|]. split; [exact K3|]. split; [exact K5|]. split; [reflexivity|].
    split; [intros a Ha; now left|]. intros doc Hd. rewrite K3' in Hd. destruct Hd.
  - assert (U9 : ~ known j kid). { intros H. destruct (G _ H) as [H'|(b & _ & H')]; [now apply (K6 _ H')|exact (K7 b H')]. }
    assert (UN : ~ known j (kid_nr N)). { intros H. destruct (G _ H) as [H'|(b & Hb & H')]; [exact (proj2 (K6 _ H') N eq_refl)|]. apply kid_nr_inj in H'. lia. }
    destruct (one_more m es p i (mk (unix (p_now p))) r n j0 j token 0 kid (Jwk (kid_nr N) (j_alg j0) (Some (KRsa 1))) 1
      A B C K4 D (Hmk _) K8 K9 K10 K10' Hne Hu K11 K12 K13 Hkne U9 Halg eq_refl eq_refl UN)
      as (es' & p' & j' & A' & B' & C' & D' & F' & G' & I').
    exists (es ++ es')%list, p', j'. split; [exact A'|]. split; [exact B'|]. split; [exact C'|]. split; [exact D'|]. split; [lia|]. split.
    + intros a Ha. destruct (G' a Ha) as [Ha'|Ha']; [|right; exists N; split; [lia|exact Ha']]. destruct (G a Ha') as [E|(b & Hb & E)]; [now left|right; exists b; split; [lia|exact E]].
    + intros doc Hd. rewrite I' in Hd. destruct Hd as [<-|Hd]; [reflexivity|exact (I doc Hd)].
Qed.

Definition admin_route : route := match select_route (c_routes (li_config (dm_listener daemon0))) "/admin" with Some r => r | None => ssrf_route end.

Lemma daemon0_start : after daemon0 [] (state_after []).
Proof. apply reaches. vm_compute. reflexivity. Qed.
Lemma daemon0_keys : forall a, known (auth_after []) a -> a <> "k9" /\ forall b, a <> kid_nr b.
Proof.
  intros a (key & Ha). assert (T : forallb (fun e => String.eqb (fst e) "k1") (keys (auth_after [])) = true) by (vm_compute; reflexivity).
  rewrite forallb_forall in T. apply T in Ha. apply String.eqb_eq in Ha. cbn [fst] in Ha. subst a. split; [discriminate|]. intros b. discriminate.
Qed.
Lemma daemon0_one : List.length (keys (auth_after [])) = 1.
Proof. vm_compute. reflexivity. Qed.
Lemma daemon0_sound : sound_request (li_env (dm_listener daemon0)) (i_req (with_token "/admin" old_k9)).
Proof. split; [discriminate|]. split; [now left|]. intros [E _]. now apply E. Qed.
Lemma daemon0_proxied : proxied_request (li_config (dm_listener daemon0)) (with_token "/admin" old_k9).
Proof. vm_compute. reflexivity. Qed.
Lemma daemon0_admin : select_route (c_routes (li_config (dm_listener daemon0))) (q_raw_uri (i_req (with_token "/admin" old_k9))) = Some admin_route.
Proof. vm_compute. reflexivity. Qed.
Lemma daemon0_bearer : bearer (authorization (with_token "/admin" old_k9)) old_k9.
Proof. apply bearer_of; repeat (split; [discriminate|]); exact I. Qed.
Lemma daemon0_signed : lib_signatures (dm_lib daemon0) old_k9 = Some 1.
Proof. vm_compute. reflexivity. Qed.
Lemma daemon0_live : p_dead (state_after []) = false.
Proof. vm_compute. reflexivity. Qed.
Lemma daemon0_free : p_locked (state_after []) "auth" = false.
Proof. vm_compute. reflexivity. Qed.
Lemma daemon0_since : since (state_after []) "auth" = [].
Proof. vm_compute. reflexivity. Qed.
Lemma daemon0_now : now_is (state_after []) "auth" (auth_after []).
Proof. vm_compute. reflexivity. Qed.
Lemma daemon0_defined : defined daemon0 "auth" rs256.
Proof. reflexivity. Qed.
Lemma admin_route_jwt : r_jwt admin_route = "auth".
Proof. vm_compute. reflexivity. Qed.

Lemma growth : forall N, exists es p j, after daemon0 es p /\ now_is p "auth" j /\ (forall doc, In doc (since p "auth") -> List.length doc = 1) /\ N < List.length (keys j).
Proof.
  intros N. destruct (grow daemon0 (with_token "/admin" old_k9) chance_at admin_route "auth" rs256 (auth_after []) (state_after []) old_k9 "k9"
    daemon0_start daemon0_live daemon0_free daemon0_since daemon0_now daemon0_keys ltac:(intros b; discriminate) daemon0_defined (fun t => eq_refl)
    daemon0_proxied daemon0_sound daemon0_admin admin_route_jwt ltac:(discriminate) ltac:(discriminate) daemon0_bearer daemon0_signed k9_named ltac:(discriminate) ltac:(now left) N)
    as (es & p & j & A & B & C & D & F & G & I).
  exists es, p, j. split; [exact A|]. split; [exact D|]. split; [exact I|]. rewrite daemon0_one in F. lia.
Qed.
