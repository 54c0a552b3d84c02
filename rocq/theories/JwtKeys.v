(** Lemmas for Thm_Jwt: key sets over boot and refreshes. *)
From Coq Require Import String Ascii List Bool ZArith NArith Lia.
From Verif Require Import GoStr NumberSpec NumberProofs Jwt JwtSpec JwtProofs.
Import ListNotations.
Local Open Scope string_scope.

(** * Loading a document *)

Lemma hmac_none_not : forall alg, mem_str alg valid_alg = true -> mem_str alg rsa_algs = false -> mem_str alg ec_algs = false ->
  In alg hmac_algs \/ alg = "none".
Proof.
  intros alg H1 H2 H3. apply mem_str_In in H1. unfold valid_alg, valid_alg_no_none in H1. cbn [In app] in H1.
  each_alg H1; try discriminate; cbn; auto.
Qed.

(** The last key decides about the error. *)
Lemma load_keys_ok : forall ks j err j', load_keys j ks err = Some (j', false) ->
  (forall d, In d ks -> jk_alg d = j_alg j) /\
  (forall d, In d ks -> In (j_alg j) ec_algs -> exists b n, jk_raw d = Some (KEc b n)) /\
  ((ks = [] /\ err = false) \/ exists ks' d k, ks = (ks' ++ [d])%list /\ jk_raw d = Some k /\ fits (j_alg j) k /\ forall s, k <> KSecret s).
Proof.
  induction ks as [|d ks IH]; intros j err j' H; cbn [load_keys] in H.
  - injection H as _ He. split; [intros d []|]. split; [intros d []|]. now left.
  - destruct (mem_str (jk_alg d) valid_alg && String.eqb (j_alg j) (jk_alg d)) eqn:Halg; [|discriminate].
    apply andb_true_iff in Halg. destruct Halg as [Hv Halg]. apply String.eqb_eq in Halg. symmetry in Halg.
    assert (Go : forall j1 e1, j_alg j1 = j_alg j -> load_keys j1 ks e1 = Some (j', false) ->
      (In (j_alg j) ec_algs -> exists b n, jk_raw d = Some (KEc b n)) ->
      (e1 = false -> exists k, jk_raw d = Some k /\ fits (j_alg j) k /\ forall s, k <> KSecret s) ->
      (forall x, In x (d :: ks) -> jk_alg x = j_alg j) /\
      (forall x, In x (d :: ks) -> In (j_alg j) ec_algs -> exists b n, jk_raw x = Some (KEc b n)) /\
      ((d :: ks = [] /\ err = false) \/ exists ks' x k, d :: ks = (ks' ++ [x])%list /\ jk_raw x = Some k /\ fits (j_alg j) k /\ forall s, k <> KSecret s)).
    { intros j1 e1 Ej Hl Hec Hok. destruct (IH _ _ _ Hl) as [A [B C]]. rewrite Ej in *. split; [|split].
      - intros x [<-|Hx]; auto.
      - intros x [<-|Hx]; auto.
      - right. destruct C as [[-> ->]|[ks' [x [k [-> C]]]]].
        + destruct (Hok eq_refl) as [k Hk]. exists [], d, k. auto.
        + exists (d :: ks'), x, k. auto. }
    destruct (mem_str (jk_alg d) rsa_algs) eqn:Hr.
    + assert (Hne : ~ In (j_alg j) ec_algs).
      { intros He. rewrite Halg in Hr. clear - He Hr. remember (j_alg j) as a. clear Heqa. unfold ec_algs in He. cbn [In] in He. each_alg He; discriminate. }
      apply mem_str_In in Hr. rewrite Halg in Hr.
      destruct (jk_raw d) as [[n|b n|s|n]|] eqn:Hraw.
      1: eapply Go; [|exact H|tauto|]; [reflexivity|].
      1: intros _; exists (KRsa n); split; [reflexivity|]; split; [now apply rsa_fits|discriminate].
      all: eapply Go; [|exact H|tauto|discriminate]; reflexivity.
    + destruct (mem_str (jk_alg d) ec_algs) eqn:He.
      * apply mem_str_In in He. destruct (jk_raw d) as [[n|b n|s|n]|] eqn:Hraw; try discriminate.
        destruct (bit_size_ok (jk_alg d) b) eqn:Hb.
        -- eapply Go; [|exact H|eauto|]; [reflexivity|]. intros _. exists (KEc b n). split; [reflexivity|].
           split; [rewrite <- Halg; now apply ec_fits|discriminate].
        -- eapply Go; [|exact H|eauto|discriminate]. reflexivity.
      * eapply Go; [|exact H| |discriminate]; [reflexivity|]. rewrite Halg in He. intros He'. apply mem_str_In in He'. congruence.
Qed.

Lemma load_keys_total : forall ks j err, (forall d, In d ks -> jk_alg d = j_alg j) ->
  (In (j_alg j) rsa_algs \/ (In (j_alg j) ec_algs /\ forall d, In d ks -> exists b n, jk_raw d = Some (KEc b n))) ->
  exists j' e, load_keys j ks err = Some (j', e) /\
    forall ks' d k, ks = (ks' ++ [d])%list -> jk_raw d = Some k -> fits (j_alg j) k -> e = false.
Proof.
  induction ks as [|d ks IH]; intros j err Ha Ht; cbn [load_keys].
  - exists j, err. split; [reflexivity|]. intros ks' d k H. destruct ks'; discriminate.
  - rewrite (Ha d) by now left. rewrite String.eqb_refl, andb_true_r.
    assert (Go : forall j1 e1, j_alg j1 = j_alg j -> (forall k, jk_raw d = Some k -> fits (j_alg j) k -> e1 = false) ->
      exists j' e, load_keys j1 ks e1 = Some (j', e) /\
        forall ks' x k, d :: ks = (ks' ++ [x])%list -> jk_raw x = Some k -> fits (j_alg j) k -> e = false).
    { intros j1 e1 Ej Hok. destruct (IH j1 e1) as [j' [e [H1 H2]]].
      - intros x Hx. rewrite Ej. apply Ha. now right.
      - rewrite Ej. destruct Ht as [Ht|[Ht1 Ht2]]; [now left|right; split; [assumption|]]. intros x Hx. apply Ht2. now right.
      - exists j', e. split; [assumption|]. rewrite Ej in H2. intros ks' x k Hk Hx Hf. destruct ks' as [|y ks'].
        + injection Hk as -> ->. cbn [load_keys] in H1. injection H1 as _ <-. eapply Hok; eassumption.
        + injection Hk as -> ->. eapply H2; eauto. }
    destruct Ht as [Ht|[Ht1 Ht2]].
    + assert (mem_str (j_alg j) valid_alg = true) as ->.
      { clear - Ht. remember (j_alg j) as a. clear Heqa. unfold rsa_algs in Ht. cbn [In] in Ht. each_alg Ht; reflexivity. }
      assert (Hr := Ht). apply mem_str_In in Hr. rewrite Hr.
      assert (Hnf : forall b n, ~ fits (j_alg j) (KEc b n)).
      { intros b n Hf. apply ec_fits in Hf. destruct Hf as [Hf _]. clear - Hf Hr. remember (j_alg j) as a. clear Heqa.
        unfold ec_algs in Hf. cbn [In] in Hf. each_alg Hf; discriminate. }
      assert (Hns : forall s, ~ fits (j_alg j) (KSecret s)).
      { intros s Hf. apply secret_fits in Hf. clear - Hf Hr. remember (j_alg j) as a. clear Heqa.
        unfold hmac_algs in Hf. cbn [In] in Hf. each_alg Hf; discriminate. }
      destruct (jk_raw d) as [[n|b n|s|n]|] eqn:Hraw.
      * apply Go; [reflexivity|]. reflexivity.
      * apply Go; [reflexivity|]. intros k Hk Hf. injection Hk as <-. elim (Hnf _ _ Hf).
      * apply Go; [reflexivity|]. intros k Hk Hf. injection Hk as <-. elim (Hns _ Hf).
      * apply Go; [reflexivity|]. intros k Hk Hf. injection Hk as <-. elim Hf.
      * apply Go; [reflexivity|]. discriminate.
    + assert (mem_str (j_alg j) valid_alg = true /\ mem_str (j_alg j) rsa_algs = false) as [-> ->].
      { clear - Ht1. remember (j_alg j) as a. clear Heqa. unfold ec_algs in Ht1. cbn [In] in Ht1. each_alg Ht1; split; reflexivity. }
      assert (He := Ht1). apply mem_str_In in He. rewrite He.
      destruct (Ht2 d (or_introl eq_refl)) as [b [n Hraw]]. rewrite Hraw.
      destruct (bit_size_ok (j_alg j) b) eqn:Hb.
      * apply Go; reflexivity.
      * apply Go; [reflexivity|]. rewrite Hraw. intros k Hk Hf. injection Hk as <-. apply ec_fits in Hf. destruct Hf. congruence.
Qed.

Lemma load_ok_iff : forall doc j, (exists j', load_jwks doc j = Some (j', false)) <-> exists ks, doc = Some ks /\ serves (j_alg j) ks.
Proof.
  intros doc j. split.
  - intros [j' H]. unfold load_jwks in H. destruct doc as [[|d ks]|]; [discriminate| |discriminate].
    destruct (load_keys j (d :: ks) false) as [[j1 e1]|] eqn:E; [|discriminate]. injection H as _ ->.
    exists (d :: ks). split; [reflexivity|]. destruct (load_keys_ok _ _ _ _ E) as [A [B C]].
    split; [exact A|]. split; [exact B|]. destruct C as [[C _]|C]; [discriminate|exact C].
  - intros [ks [-> [A [B [ks' [d [k [Hk [Hr [Hf Hs]]]]]]]]]].
    assert (Ht : In (j_alg j) rsa_algs \/ (In (j_alg j) ec_algs /\ forall d, In d ks -> exists b n, jk_raw d = Some (KEc b n))).
    { destruct k as [n|b n|s|n]; [left; now apply rsa_fits in Hf| |elim (Hs s); reflexivity|elim Hf].
      right. apply ec_fits in Hf. destruct Hf as [Hf _]. split; [assumption|]. intros x Hx. now apply B. }
    destruct (load_keys_total ks j false A Ht) as [j' [e [H1 H2]]]. rewrite (H2 ks' d k Hk Hr Hf) in H1.
    exists (counted j'). unfold load_jwks. destruct ks as [|x ks]; [destruct ks'; discriminate|]. now rewrite H1.
Qed.

(** * C48 *)

Lemma acceptable_spec : forall pem kid doc j, (exists j', validate_jwt_def pem kid doc j = ROk j') <-> acceptable pem doc j.
Proof.
  intros pem kid doc j. destruct (with_default_fields j) as [D1 [D2 [D3 [D4 [D5 [D6 [D7 D8]]]]]]].
  assert (Hsf : forall k, stands_for pem (with_default j) k <-> stands_for pem j k).
  { intros k; split; intros Hk; destruct Hk;
      [rewrite D3; constructor|eapply sf_cert; eauto|eapply sf_public; eauto|eapply sf_rsa; eauto|
       rewrite <- D3; constructor|eapply sf_cert; eauto|eapply sf_public; eauto|eapply sf_rsa; eauto]. }
  split.
  - intros [j' H]. apply validate_spec in H; [|discriminate]. destruct H as [Hn [Hs Hv]].
    split; [exact Hn|]. split; [exact Hs|]. inversion Hv as [Ha Hk Hu|r Ha Hk Hr|r Ha Hk Hu Hr]; subst.
    + left. auto.
    + right; left. split; [assumption|]. split; [assumption|]. symmetry in Hr. rewrite <- D2 in Hr, Ha.
      apply parse_key_spec in Hr; [|assumption|now rewrite D3]. destruct Hr as [k [H1 [H2 _]]]. exists k.
      rewrite D2 in H2. split; [now apply Hsf|assumption].
    + destruct (load_jwks doc (with_default j)) as [[j2 [|]]|] eqn:E; try discriminate.
      assert (Hex : exists j2, load_jwks doc (with_default j) = Some (j2, false)) by (now exists j2).
      apply load_ok_iff in Hex. destruct Hex as [ks [-> Hsv]]. rewrite D2 in Hsv. destruct Ha as [Ha|Ha].
      * right; right. repeat (split; [assumption|]). exists ks. auto.
      * exfalso. rewrite Ha in Hsv. destruct Hsv as [_ [_ [? [? [k [_ [_ [Hf Hns]]]]]]]].
        destruct k as [n|b n|s|n]; [apply rsa_fits in Hf|apply ec_fits in Hf; destruct Hf as [Hf _]|elim (Hns s); reflexivity|elim Hf];
          unfold rsa_algs, ec_algs in Hf; cbn [In] in Hf; repeat (destruct Hf as [Hf|Hf]; [discriminate|]); exact Hf.
  - intros [Hn [Hs Hc]]. destruct Hc as [[Ha [Hk Hu]]|[[Ha [Hk [k [H1 H2]]]]|[Ha [Hk [Hu Hd]]]]].
    + exists (with_default j). apply validate_complete; auto. now apply v_none.
    + rewrite <- D2 in Ha, H2. destruct (parse_key_complete pem kid (with_default j) k) as [j' Hj]; auto; [now rewrite D3|now apply Hsf|].
      exists j'. apply validate_complete; auto. rewrite D2 in *. now apply v_key.
    + rewrite <- D2 in Hd. apply load_ok_iff in Hd. destruct Hd as [j' Hj].
      exists j'. apply validate_complete; auto. apply v_url; auto. now rewrite Hj.
Qed.

(** * Invariants *)

Definition sorted_keys (j : jwt) : Prop :=
  (forall kid k, In (kid, k) (j_rsa j) -> exists n, k = KRsa n) /\
  (forall kid k, In (kid, k) (j_ec j) -> exists b n, k = KEc b n) /\
  (forall kid k, In (kid, k) (j_secret j) -> exists s, k = KSecret s) /\
  (forall kid k, In (kid, k) (keys j) -> fits (j_alg j) k).

Lemma in_keys : forall j p, In p (keys j) <-> In p (j_rsa j) \/ In p (j_ec j) \/ In p (j_secret j).
Proof. intros j p. unfold keys. rewrite !in_app_iff. tauto. Qed.

Lemma blank_sorted : forall j, blank j -> sorted_keys j.
Proof.
  intros j [H1 [H2 H3]]. unfold sorted_keys, keys. rewrite H1, H2, H3.
  repeat split; intros kid k [].
Qed.

Lemma loaded_sorted : forall ks j j', loaded ks j j' -> sorted_keys j -> sorted_keys j'.
Proof.
  intros ks j j' [A1 [A2 [A3 [A4 [A5 [A6 [[a [A7 A8]] [b [A9 A10]]]]]]]]] [S1 [S2 [S3 S4]]].
  assert (R : forall kid k, In (kid, k) (j_rsa j') -> exists n, k = KRsa n).
  { intros kid k H. rewrite A7 in H. apply in_app_or in H. destruct H as [H|H]; [eauto|]. apply (A8 _ _ H). }
  assert (E : forall kid k, In (kid, k) (j_ec j') -> exists b n, k = KEc b n).
  { intros kid k H. rewrite A9 in H. apply in_app_or in H. destruct H as [H|H]; [eauto|]. apply (A10 _ _ H). }
  split; [exact R|]. split; [exact E|]. split; [rewrite A6; exact S3|].
  intros kid k H. rewrite A2. apply in_keys in H. destruct H as [H|[H|H]].
  - rewrite A7 in H. apply in_app_or in H. destruct H as [H|H]; [apply (S4 kid k), in_keys; auto|]. apply (A8 _ _ H).
  - rewrite A9 in H. apply in_app_or in H. destruct H as [H|H]; [apply (S4 kid k), in_keys; auto|]. apply (A10 _ _ H).
  - rewrite A6 in H. apply (S4 kid k), in_keys; auto.
Qed.

Lemma sorted_keys_for : forall j, sorted_keys j -> In (j_alg j) signing -> keys_for (j_alg j) j = keys j.
Proof.
  intros j [S1 [S2 [S3 S4]]] Ha.
  assert (R : ~ In (j_alg j) rsa_algs -> j_rsa j = []).
  { intros H. destruct (j_rsa j) as [|[kid k] l] eqn:E; [reflexivity|]. exfalso. apply H.
    destruct (S1 kid k) as [n ->]; [now left|]. apply (rsa_fits _ n). apply (S4 kid). apply in_keys. left. rewrite E. now left. }
  assert (C : ~ In (j_alg j) ec_algs -> j_ec j = []).
  { intros H. destruct (j_ec j) as [|[kid k] l] eqn:E; [reflexivity|]. exfalso. apply H.
    destruct (S2 kid k) as [b [n ->]]; [now left|]. apply (ec_fits _ b n). apply (S4 kid). apply in_keys. right; left. rewrite E. now left. }
  assert (D : ~ In (j_alg j) hmac_algs -> j_secret j = []).
  { intros H. destruct (j_secret j) as [|[kid k] l] eqn:E; [reflexivity|]. exfalso. apply H.
    destruct (S3 kid k) as [s ->]; [now left|]. apply (secret_fits _ s). apply (S4 kid). apply in_keys. right; right. rewrite E. now left. }
  unfold keys, keys_for.
  destruct (mem_str (j_alg j) rsa_algs) eqn:Hr.
  - rewrite C, D; [now rewrite app_nil_r| |];
      intros H; clear - H Hr; remember (j_alg j) as a; clear Heqa; unfold ec_algs, hmac_algs in H; cbn [In] in H; each_alg H; discriminate.
  - assert (Hr' : ~ In (j_alg j) rsa_algs) by (intros H; apply mem_str_In in H; congruence). rewrite (R Hr').
    destruct (mem_str (j_alg j) ec_algs) eqn:He.
    + rewrite D; [now rewrite app_nil_r|].
      intros H; clear - H He; remember (j_alg j) as a; clear Heqa; unfold hmac_algs in H; cbn [In] in H; each_alg H; discriminate.
    + assert (He' : ~ In (j_alg j) ec_algs) by (intros H; apply mem_str_In in H; congruence). now rewrite (C He').
Qed.

(** Loading appends. *)
Lemma loaded_keys : forall ks j j', loaded ks j j' -> forall kid k, In (kid, k) (keys j') ->
  In (kid, k) (keys j) \/ exists d, In d ks /\ jk_alg d = j_alg j /\ jk_kid d = kid /\ jk_raw d = Some k.
Proof.
  intros ks j j' [A1 [A2 [A3 [A4 [A5 [A6 [[a [A7 A8]] [b [A9 A10]]]]]]]]] kid k H.
  apply in_keys in H. destruct H as [H|[H|H]].
  - rewrite A7 in H. apply in_app_or in H. destruct H as [H|H]; [left; apply in_keys; auto|]. right. apply (A8 _ _ H).
  - rewrite A9 in H. apply in_app_or in H. destruct H as [H|H]; [left; apply in_keys; auto|]. right. apply (A10 _ _ H).
  - rewrite A6 in H. left. apply in_keys. auto.
Qed.

(** The one set in use is extended at its end. *)
Lemma loaded_extends : forall ks j j', loaded ks j j' -> sorted_keys j -> In (j_alg j) signing ->
  exists a, keys j' = (keys j ++ a)%list /\ forall kid k, In (kid, k) a -> ~ known j kid.
Proof.
  intros ks j j' HL HS Ha. assert (HS' := loaded_sorted _ _ _ HL HS).
  assert (Ea : j_alg j' = j_alg j) by apply HL.
  assert (Ha' : In (j_alg j') signing) by now rewrite Ea.
  assert (Hk := sorted_keys_for _ HS Ha). assert (Hk' := sorted_keys_for _ HS' Ha'). rewrite Ea in Hk'.
  destruct HL as [A1 [A2 [A3 [A4 [A5 [A6 [[a [A7 A8]] [b [A9 A10]]]]]]]]].
  unfold known. rewrite <- Hk, <- Hk'. unfold keys_for. destruct (mem_str (j_alg j) rsa_algs); [|destruct (mem_str (j_alg j) ec_algs)].
  - exists a. split; [assumption|]. intros kid k H [k' Hk1]. eapply (A8 _ _ H). exact Hk1.
  - exists b. split; [assumption|]. intros kid k H [k' Hk1]. eapply (A10 _ _ H). exact Hk1.
  - exists []. rewrite app_nil_r. split; [assumption|]. intros kid k [].
Qed.

(** What holds of a definition in use. *)
Record fit_for_use (pem : option pem_block * string) (kid0 : string) (j0 : jwt) (docs : list (list jwk)) (j : jwt) : Prop := FitForUse {
  fu_alg : j_alg j = j_alg j0;
  fu_key : j_key j = j_key j0;
  fu_skew : j_skew j = if String.eqb (j_skew j0) "" then "120" else j_skew j0;
  fu_fine : skew_fine j0;
  fu_known : In (j_alg j0) signing \/ j_alg j0 = "none";
  fu_sorted : sorted_keys j;
  fu_some : In (j_alg j0) signing -> keys j <> [];
  fu_source : forall kid k, In (kid, k) (keys j) ->
    (j_key j0 <> "" /\ stands_for pem j0 k /\ kid = kid0) \/ published docs (j_alg j0) kid k }.

Lemma known_of_load : forall ks j j', loaded ks j j' -> keys j <> [] -> keys j' <> [].
Proof.
  intros ks j j' [A1 [A2 [A3 [A4 [A5 [A6 [[a [A7 A8]] [b [A9 A10]]]]]]]]] H.
  unfold keys in *. rewrite A6, A7, A9. intros E.
  apply H. rewrite <- !app_assoc in E. apply app_eq_nil in E. destruct E as [-> E]. apply app_eq_nil in E. destruct E as [_ E].
  apply app_eq_nil in E. destruct E as [-> E]. apply app_eq_nil in E. destruct E as [_ ->]. reflexivity.
Qed.

Lemma load_keys_nonempty : forall ks j err j', load_keys j ks err = Some (j', false) -> ks <> [] -> keys j' <> [].
Proof.
  induction ks as [|d ks IH]; intros j err j' H Hne; [contradiction|]. cbn [load_keys] in H.
  destruct (mem_str (jk_alg d) valid_alg && String.eqb (j_alg j) (jk_alg d)) eqn:Halg; [|discriminate].
  assert (Hup : forall l kp, upsert l kp <> []) by exact upsert_nonempty.
  assert (Go : forall j1 e1, load_keys j1 ks e1 = Some (j', false) -> (e1 = false -> keys j1 <> []) -> keys j' <> []).
  { intros j1 e1 Hl Hj. destruct ks as [|x ks].
    - cbn [load_keys] in Hl. injection Hl as <- ->. auto.
    - eapply IH; [exact Hl|discriminate]. }
  destruct (mem_str (jk_alg d) rsa_algs).
  - destruct (jk_raw d) as [[n|b n|s|n]|]; (eapply Go; [exact H|]); try discriminate.
    intros _ E. unfold keys in E. cbn [j_rsa with_rsa] in E. apply app_eq_nil in E. destruct E as [E _]. elim (Hup _ _ E).
  - destruct (mem_str (jk_alg d) ec_algs).
    + destruct (jk_raw d) as [[n|b n|s|n]|]; try discriminate.
      destruct (bit_size_ok (jk_alg d) b); (eapply Go; [exact H|]); try discriminate.
      intros _ E. unfold keys in E. cbn [j_ec j_rsa j_secret with_ec] in E. apply app_eq_nil in E. destruct E as [_ E]. apply app_eq_nil in E. destruct E as [E _]. elim (Hup _ _ E).
    + eapply Go; [exact H|discriminate].
Qed.

Lemma reached_fit : forall pem kid0 j0 docs j, reached pem kid0 j0 docs j -> fit_for_use pem kid0 j0 docs j.
Proof.
  intros pem kid0 j0 docs j H. induction H as [doc j Hb H|docs j doc j' err H IH Hu Hl].
  - destruct (with_default_fields j0) as [D1 [D2 [D3 [D4 [D5 [D6 [D7 D8]]]]]]].
    assert (Hblank : blank (with_default j0)) by (unfold blank; rewrite D5, D6, D7; exact Hb).
    assert (Hempty : keys (with_default j0) = []).
    { unfold keys. destruct Hblank as [-> [-> ->]]. reflexivity. }
    apply validate_spec in H; [|discriminate]. destruct H as [Hn [Hs Hv]].
    inversion Hv as [Ha Hk Hur E|r Ha Hk Hr|r Ha Hk Hur Hr]; subst.
    + constructor; auto.
      * now apply blank_sorted.
      * rewrite Ha. intros Hin. unfold signing in Hin. cbn [In] in Hin. repeat (destruct Hin as [Hin|Hin]; [discriminate|]). elim Hin.
      * rewrite Hempty. intros kid k [].
    + symmetry in Hr. rewrite <- D2 in Hr. apply parse_key_spec in Hr; [|now rewrite D2|now rewrite D3].
      destruct Hr as [k [H1 [H2 Hj]]].
      assert (Hsf : stands_for pem j0 k).
      { destruct H1; [rewrite D3; constructor|eapply sf_cert; eauto|eapply sf_public; eauto|eapply sf_rsa; eauto]. }
      destruct Hblank as [B1 [B2 B3]].
      assert (Hkeys : keys j = [(kid0, k)] /\ sorted_keys j /\ j_alg j = j_alg j0 /\ j_key j = j_key j0 /\ j_skew j = j_skew (with_default j0)).
      { rewrite D2 in H2. destruct k as [n|b n|s|n]; [| | |elim H2]; subst j; unfold sorted_keys, keys;
          cbn [with_rsa with_ec with_secret j_rsa j_ec j_secret j_alg j_key j_skew]; rewrite ?B1, ?B2, ?B3, ?D2, ?D3; cbn;
          (split; [reflexivity|]); (split; [|auto]); (repeat split); intros kid k; try tauto;
          (intros [Hin|[]]; injection Hin as <- <-); eauto. }
      destruct Hkeys as [K1 [K2 [K3 [K4 K5]]]]. constructor; auto.
      * now rewrite K5.
      * intros _. rewrite K1. discriminate.
      * rewrite K1. intros kid k' [Hin|[]]. injection Hin as <- <-. left. auto.
    + destruct (load_jwks doc (with_default j0)) as [[j2 [|]]|] eqn:E; try discriminate. injection Hr as <-.
      assert (HL := load_jwks_loaded _ _ _ _ E). assert (HS := loaded_sorted _ _ _ HL (blank_sorted _ Hblank)).
      assert (HL' := HL). destruct HL' as [A1 [A2 [A3 [A4 [A5 _]]]]].
      constructor.
      * now rewrite A2.
      * now rewrite A3.
      * now rewrite A5.
      * assumption.
      * assumption.
      * assumption.
      * intros _. unfold load_jwks in E. destruct doc as [[|d ks]|]; [discriminate| |discriminate].
        destruct (load_keys (with_default j0) (d :: ks) false) as [[j1 e1]|] eqn:E1; [|discriminate]. injection E as <- ->.
        assert (N := load_keys_nonempty _ _ _ _ E1 ltac:(discriminate)). exact N.
      * intros kid k Hin. right. destruct (loaded_keys _ _ _ HL kid k Hin) as [Hin'|[d [d1 [d2 [d3 d4]]]]].
        -- rewrite Hempty in Hin'. destruct Hin'.
        -- rewrite Hk. cbn [String.eqb]. unfold published, delivered. destruct doc as [ks|]; [|destruct d1].
           exists ks, d. rewrite <- D2. split; [now left|auto].
  - destruct IH as [I1 I2 I3 I4 I5 I6 I7 I8]. assert (HL := load_jwks_loaded _ _ _ _ Hl).
    assert (HL' := HL). destruct HL' as [A1 [A2 [A3 [A4 [A5 _]]]]].
    constructor; auto.
    + now rewrite A2.
    + now rewrite A3.
    + now rewrite A5.
    + eapply loaded_sorted; eassumption.
    + intros Ha. eapply known_of_load; [exact HL|auto].
    + intros kid k Hin. destruct (loaded_keys _ _ _ HL kid k Hin) as [Hin'|[d [d1 [d2 [d3 d4]]]]].
      * destruct (I8 _ _ Hin') as [Hc|[ks [x [x1 x2]]]]; [now left|]. right. exists ks, x. split; [apply in_or_app; now right|exact x2].
      * right. destruct doc as [ks|]; [|destruct d1]. exists ks, d. rewrite <- I1. split; [now left|auto].
Qed.

Lemma reached_keys : forall pem kid0 j0 docs j, reached pem kid0 j0 docs j -> In (j_alg j0) signing -> keys_for (j_alg j) j = keys j.
Proof.
  intros pem kid0 j0 docs j H Ha. apply reached_fit in H. destruct H as [I1 I2 I3 I4 I5 I6 I7 I8].
  apply sorted_keys_for; [assumption|now rewrite I1].
Qed.

(** * C44, C45, C47 *)

Lemma reached_extends : forall pem kid0 j0 docs j doc j' err, reached pem kid0 j0 docs j -> load_jwks doc j = Some (j', err) ->
  j_alg j' = j_alg j0 /\ j_secret j' = j_secret j /\
  exists a, keys j' = (keys j ++ a)%list /\
    forall kid k, In (kid, k) a -> ~ known j kid /\ fits (j_alg j0) k /\ (forall s, k <> KSecret s) /\ published (delivered doc) (j_alg j0) kid k.
Proof.
  intros pem kid0 j0 docs j doc j' err H Hl. apply reached_fit in H. destruct H as [I1 I2 I3 I4 I5 I6 I7 I8].
  assert (HL := load_jwks_loaded _ _ _ _ Hl). assert (HS' := loaded_sorted _ _ _ HL I6).
  assert (HL' := HL). destruct HL' as [A1 [A2 [A3 [A4 [A5 [A6 _]]]]]].
  split; [congruence|]. split; [assumption|].
  destruct I5 as [Ha|Ha].
  - rewrite <- I1 in Ha. destruct (loaded_extends _ _ _ HL I6 Ha) as [a [E1 E2]]. exists a. split; [assumption|].
    intros kid k Hin. assert (Hk := E2 _ _ Hin). split; [assumption|].
    assert (Hin' : In (kid, k) (keys j')) by (rewrite E1; apply in_or_app; now right).
    assert (Hf : fits (j_alg j0) k) by (rewrite <- I1, <- A2; apply HS' in Hin'; assumption). split; [assumption|].
    destruct (loaded_keys _ _ _ HL kid k Hin') as [Ho|[d [d1 [d2 [d3 d4]]]]]; [elim Hk; now exists k|].
    split.
    + intros s ->. apply in_keys in Hin'. destruct HS' as [R [C [_ _]]]. destruct Hin' as [Hin'|[Hin'|Hin']].
      * destruct (R _ _ Hin'). discriminate.
      * destruct (C _ _ Hin') as [? [? ?]]. discriminate.
      * rewrite A6 in Hin'. apply Hk. exists (KSecret s). apply in_keys. auto.
    + destruct doc as [ks|]; [|destruct d1]. exists ks, d. rewrite <- I1. split; [now left|auto].
  - exists []. rewrite app_nil_r. split; [|intros kid k []].
    destruct HL as [_ [_ [_ [_ [_ [_ [[a [A7 A8]] [b [A9 A10]]]]]]]]].
    assert (a = []) as ->.
    { destruct a as [|[kid k] a]; [reflexivity|]. exfalso. destruct (A8 kid k) as [[n ->] [Hf _]]; [now left|].
      rewrite I1, Ha in Hf. apply rsa_fits in Hf. unfold rsa_algs in Hf. cbn [In] in Hf. repeat (destruct Hf as [Hf|Hf]; [discriminate|]). exact Hf. }
    assert (b = []) as ->.
    { destruct b as [|[kid k] b]; [reflexivity|]. exfalso. destruct (A10 kid k) as [[bb [n ->]] [Hf _]]; [now left|].
      rewrite I1, Ha in Hf. apply ec_fits in Hf. destruct Hf as [Hf _]. unfold ec_algs in Hf. cbn [In] in Hf. repeat (destruct Hf as [Hf|Hf]; [discriminate|]). exact Hf. }
    unfold keys. now rewrite A6, A7, A9, !app_nil_r.
Qed.

Lemma first_for_app : forall kid k ks a, first_for kid k ks -> first_for kid k (ks ++ a)%list.
Proof. intros kid k ks a H. induction H; cbn [app]; now constructor. Qed.

Lemma first_for_find : forall kid k ks, find_key ks kid = Some k <-> first_for kid k ks.
Proof.
  intros kid k ks. induction ks as [|[kid' k'] ks IH]; cbn [find_key]; split; intros H.
  - discriminate.
  - inversion H.
  - destruct (String.eqb_spec kid' kid) as [->|Hne]; [injection H as ->; constructor|].
    constructor; [assumption|]. now apply IH.
  - inversion H as [ks' E|kid1 k1 ks1 Hne Hf E]; subst.
    + now rewrite String.eqb_refl.
    + destruct (String.eqb_spec kid' kid) as [->|_]; [contradiction|]. now apply IH.
Qed.

Lemma known_kid_kept : forall pem kid0 j0 docs j doc j' err kid, reached pem kid0 j0 docs j -> load_jwks doc j = Some (j', err) ->
  known j kid -> (forall k, In (kid, k) (keys j') <-> In (kid, k) (keys j)) /\ find_key (keys j') kid = find_key (keys j) kid.
Proof.
  intros pem kid0 j0 docs j doc j' err kid H Hl Hk.
  destruct (reached_extends _ _ _ _ _ _ _ _ H Hl) as [_ [_ [a [E1 E2]]]]. split.
  - intros k. rewrite E1, in_app_iff. split; [|now left]. intros [Hin|Hin]; [assumption|]. destruct (E2 _ _ Hin). contradiction.
  - destruct (find_key (keys j) kid) as [k|] eqn:E.
    + apply first_for_find. rewrite E1. apply first_for_app, first_for_find, E.
    + exfalso. destruct Hk as [k Hk]. revert Hk E. generalize (keys j). induction k0 as [|[kid' k'] l IH]; cbn [find_key In]; [tauto|].
      destruct (String.eqb_spec kid' kid) as [->|Hne]; [discriminate|]. intros [Hin|Hin]; [congruence|auto].
Qed.

Lemma load_keys_all : forall ks j err j' e, load_keys j ks err = Some (j', e) -> NoDup (map jk_kid ks) ->
  (forall d, In d ks -> ~ known j (jk_kid d)) -> (forall d, In d ks -> jk_alg d = j_alg j) ->
  forall d k, In d ks -> jk_raw d = Some k -> fits (j_alg j) k -> (forall s, k <> KSecret s) -> In (jk_kid d, k) (keys j').
Proof.
  induction ks as [|d ks IH]; intros j err j' e H Hnd Hnew Halg x k Hx Hraw Hf Hs; [destruct Hx|]. cbn [load_keys] in H.
  cbn [map] in Hnd. apply NoDup_cons_iff in Hnd. destruct Hnd as [Hn1 Hn2].
  rewrite (Halg d) in H by now left. rewrite String.eqb_refl, andb_true_r in H.
  assert (Hkeep : forall j1 e1 p, load_keys j1 ks e1 = Some (j', e) -> In p (keys j1) -> In p (keys j')).
  { intros j1 e1 p Hl Hp. apply load_keys_loaded in Hl. destruct Hl as [_ [_ [_ [_ [_ [A6 [[a [A7 _]] [b [A9 _]]]]]]]]].
    apply in_keys. apply in_keys in Hp. rewrite A6, A7, A9, !in_app_iff. tauto. }
  assert (Hval : mem_str (j_alg j) valid_alg = true).
  { clear - Hf Hs. destruct k as [n|b n|s|n]; [apply rsa_fits in Hf|apply ec_fits in Hf; destruct Hf as [Hf _]|elim (Hs s); reflexivity|elim Hf];
      remember (j_alg j) as a; clear Heqa; unfold rsa_algs, ec_algs in Hf; cbn [In] in Hf; each_alg Hf; reflexivity. }
  rewrite Hval in H.
  (* the keys after d *)
  assert (Go : forall j1 e1, load_keys j1 ks e1 = Some (j', e) -> j_alg j1 = j_alg j ->
    (forall y, In y ks -> ~ known j1 (jk_kid y)) -> In x ks -> In (jk_kid x, k) (keys j')).
  { intros j1 e1 Hl Ej Hk1 Hin. eapply (IH j1 e1 j' e); eauto; rewrite Ej; auto. intros y Hy. apply Halg. now right. }
  assert (Hold : forall y, In y ks -> ~ known j (jk_kid y)) by (intros y Hy; apply Hnew; now right).
  destruct (mem_str (j_alg j) rsa_algs) eqn:Hr.
  - assert (Hk : forall n, forall y, In y ks -> ~ known (with_rsa (upsert (j_rsa j) (jk_kid d, KRsa n)) j) (jk_kid y)).
    { intros n y Hy [k1 Hk1]. apply in_keys in Hk1. cbn [with_rsa j_rsa j_ec j_secret] in Hk1.
      destruct (upsert_grows (j_rsa j) (jk_kid d, KRsa n)) as [a [Ea Ha]]. rewrite Ea in Hk1.
      destruct Hk1 as [Hk1|Hk1]; [apply in_app_or in Hk1; destruct Hk1 as [Hk1|Hk1]|].
      - apply (Hold y Hy). exists k1. apply in_keys. auto.
      - destruct (Ha _ Hk1) as [Ep _]. injection Ep as Ep _. apply Hn1. rewrite <- Ep. now apply in_map.
      - apply (Hold y Hy). exists k1. apply in_keys. auto. }
    destruct Hx as [<-|Hx].
    + rewrite Hraw in H. apply mem_str_In in Hr. destruct k as [n|b n|s|n].
      * eapply Hkeep; [exact H|]. apply in_keys. left. cbn [with_rsa j_rsa]. rewrite upsert_new; [apply in_or_app; right; now left|].
        intros k0 Hin. apply (Hnew d (or_introl eq_refl)). exists k0. apply in_keys. now left.
      * exfalso. apply ec_fits in Hf. destruct Hf as [Hf _]. clear - Hf Hr. remember (j_alg j) as a. clear Heqa.
        unfold ec_algs in Hf. cbn [In] in Hf. unfold rsa_algs in Hr. cbn [In] in Hr.
        repeat (destruct Hf as [Hf|Hf]; [subst a; repeat (destruct Hr as [Hr|Hr]; [discriminate|]); exact Hr|]). exact Hf.
      * elim (Hs s). reflexivity.
      * elim Hf.
    + destruct (jk_raw d) as [[n|b n|s|n]|]; (eapply Go; [exact H|reflexivity| |exact Hx]); auto.
  - destruct (mem_str (j_alg j) ec_algs) eqn:He.
    + assert (Hk : forall b n, forall y, In y ks -> ~ known (with_ec (upsert (j_ec j) (jk_kid d, KEc b n)) j) (jk_kid y)).
      { intros b n y Hy [k1 Hk1]. apply in_keys in Hk1. cbn [with_ec j_rsa j_ec j_secret] in Hk1.
        destruct (upsert_grows (j_ec j) (jk_kid d, KEc b n)) as [a [Ea Ha]]. rewrite Ea in Hk1.
        destruct Hk1 as [Hk1|[Hk1|Hk1]]; [|apply in_app_or in Hk1; destruct Hk1 as [Hk1|Hk1]|].
        - apply (Hold y Hy). exists k1. apply in_keys. auto.
        - apply (Hold y Hy). exists k1. apply in_keys. auto.
        - destruct (Ha _ Hk1) as [Ep _]. injection Ep as Ep _. apply Hn1. rewrite <- Ep. now apply in_map.
        - apply (Hold y Hy). exists k1. apply in_keys. auto. }
      destruct (jk_raw d) as [[n|b n|s|n]|] eqn:Hd; try discriminate. destruct Hx as [<-|Hx].
      * rewrite Hd in Hraw. injection Hraw as <-. assert (Hf' := Hf). apply ec_fits in Hf'. destruct Hf' as [_ Hb]. rewrite Hb in H.
        eapply Hkeep; [exact H|]. apply in_keys. right; left. cbn [with_ec j_ec]. rewrite upsert_new; [apply in_or_app; right; now left|].
        intros k0 Hin. apply (Hnew d (or_introl eq_refl)). exists k0. apply in_keys. auto.
      * destruct (bit_size_ok (j_alg j) b); (eapply Go; [exact H|reflexivity| |exact Hx]); auto.
    + exfalso. destruct k as [n|b n|s|n]; [apply rsa_fits in Hf|apply ec_fits in Hf; destruct Hf as [Hf _]|elim (Hs s); reflexivity|elim Hf];
        apply mem_str_In in Hf; congruence.
Qed.

Lemma all_usable : forall j ks j', load_jwks (Some ks) j = Some (j', false) -> fresh_kids j ks ->
  forall d k, In d ks -> jk_raw d = Some k -> fits (j_alg j) k -> (forall s, k <> KSecret s) -> In (jk_kid d, k) (keys j').
Proof.
  intros j ks j' H [F1 F2] d k Hd Hraw Hf Hs.
  unfold load_jwks in H. destruct ks as [|d0 ks]; [discriminate|].
  destruct (load_keys j (d0 :: ks) false) as [[j1 e1]|] eqn:E; [|discriminate]. injection H as <- ->.
  destruct (load_keys_ok _ _ _ _ E) as [A _].
  exact (load_keys_all _ _ _ _ _ E F1 F2 A d k Hd Hraw Hf Hs).
Qed.

(** * C65: panics *)

Lemma load_crash_iff : forall ks j err, load_keys j ks err = None <->
  exists a d b, ks = (a ++ d :: b)%list /\ In (j_alg j) ["ES256"; "ES384"; "ES512"] /\ (forall x, In x (a ++ [d])%list -> jk_alg x = j_alg j) /\
    (forall x, In x a -> exists b n, jk_raw x = Some (KEc b n)) /\ (forall b n, jk_raw d <> Some (KEc b n)).
Proof.
  induction ks as [|d ks IH]; intros j err; cbn [load_keys].
  - split; [discriminate|]. intros [[|? a] [d [b [H _]]]]; discriminate.
  - destruct (mem_str (jk_alg d) valid_alg && String.eqb (j_alg j) (jk_alg d)) eqn:Halg.
    2:{ split; [discriminate|]. intros [a [x [b [H1 [H2 [H3 [H4 H5]]]]]]]. exfalso.
        assert (jk_alg d = j_alg j) as E.
        { apply H3. destruct a; injection H1 as -> _; now left. }
        rewrite E, String.eqb_refl, andb_true_r in Halg.
        clear - H2 Halg. remember (j_alg j) as y. clear Heqy. cbn [In] in H2. each_alg H2; discriminate. }
    apply andb_true_iff in Halg. destruct Halg as [Hv Halg]. apply String.eqb_eq in Halg. symmetry in Halg. rewrite Halg.
    assert (Hhead : forall j1 e1, j_alg j1 = j_alg j -> (In (j_alg j) ec_algs -> exists b n, jk_raw d = Some (KEc b n)) ->
      (load_keys j1 ks e1 = None <->
       exists a x b, d :: ks = (a ++ x :: b)%list /\ In (j_alg j) ["ES256"; "ES384"; "ES512"] /\ (forall y, In y (a ++ [x])%list -> jk_alg y = j_alg j) /\
         (forall y, In y a -> exists b n, jk_raw y = Some (KEc b n)) /\ (forall b n, jk_raw x <> Some (KEc b n)))).
    { intros j1 e1 Ej Hd. rewrite (IH j1 e1), Ej. split.
      - intros [a [x [b [H1 [H2 [H3 [H4 H5]]]]]]]. exists (d :: a), x, b. split; [now rewrite H1|]. split; [assumption|].
        split; [intros y [<-|Hy]; auto|]. split; [|assumption]. intros y [<-|Hy]; auto.
      - intros [[|y a] [x [b [H1 [H2 [H3 [H4 H5]]]]]]].
        + injection H1 as -> _. destruct (Hd H2) as [b0 [n E]]. elim (H5 _ _ E).
        + injection H1 as -> ->. exists a, x, b. split; [reflexivity|]. split; [assumption|].
          split; [intros z Hz; apply H3; now right|]. split; [|assumption]. intros z Hz. apply H4. now right. }
    destruct (mem_str (j_alg j) rsa_algs) eqn:Hr.
    + assert (Hne : In (j_alg j) ec_algs -> exists b n, jk_raw d = Some (KEc b n)).
      { intros H. exfalso. clear - H Hr. remember (j_alg j) as y. clear Heqy. unfold ec_algs in H. cbn [In] in H. each_alg H; discriminate. }
      destruct (jk_raw d) as [[n|b n|s|n]|]; apply Hhead; auto.
    + destruct (mem_str (j_alg j) ec_algs) eqn:He.
      * assert (He' := He). apply mem_str_In in He'.
        assert (Hc : (forall b n, jk_raw d <> Some (KEc b n)) ->
          exists a x b, d :: ks = (a ++ x :: b)%list /\ In (j_alg j) ["ES256"; "ES384"; "ES512"] /\ (forall y, In y (a ++ [x])%list -> jk_alg y = j_alg j) /\
         (forall y, In y a -> exists b n, jk_raw y = Some (KEc b n)) /\ (forall b n, jk_raw x <> Some (KEc b n))).
        { intros H. exists [], d, ks. split; [reflexivity|]. split; [exact He'|]. split; [intros y [<-|[]]; assumption|]. split; [intros y []|assumption]. }
        destruct (jk_raw d) as [[n|b n|s|n]|] eqn:Hd.
        2: destruct (bit_size_ok (j_alg j) b); apply Hhead; eauto.
        all: split; [intros _; apply Hc; discriminate|reflexivity].
      * apply Hhead; [reflexivity|]. intros H. apply mem_str_In in H. congruence.
Qed.

(** * Theorems over definitions in use *)

Lemma skew_configured_one : forall s z z', skew_configured s z -> skew_configured s z' -> z = z'.
Proof.
  intros s z z' [[H1 H2]|[H1 H2]] [[H1' H2']|[H1' H2']]; [congruence|contradiction|contradiction|exact (int64_text_one _ _ _ H2 H2')].
Qed.

Lemma reached_skew : forall pem kid0 j0 docs j, reached pem kid0 j0 docs j ->
  exists skew, skew_is j skew /\ (0 <= skew)%Z /\
    skew_configured (j_skew j0) skew.
Proof.
  intros pem kid0 j0 docs j H. apply reached_fit in H. destruct H as [I1 I2 I3 I4 I5 I6 I7 I8].
  unfold skew_is. rewrite I3. destruct (String.eqb_spec (j_skew j0) "") as [E|E].
  - exists 120%Z. split; [apply atoi_iff; reflexivity|]. split; [lia|left; split; [exact E|reflexivity]].
  - destruct I4 as [I4|[z [Hz H0]]]; [contradiction|]. exists z. split; [exact Hz|]. split; [exact H0|right; split; [exact E|exact Hz]].
Qed.

Lemma accepted_exact : forall pem kid0 j0 docs j L now auth token n, reached pem kid0 j0 docs j -> In (j_alg j0) signing -> honest L ->
  bearer auth token -> lib_signatures L token = Some (S n) ->
  (fst (validate_jwt L now j auth) = Valid <->
   (exists kid k c, In (kid, k) (keys j) /\ lib_verify L (j_alg j0) k token = Some c) /\ fst (validate_jwt L now (unsigned j) auth) = Valid).
Proof.
  intros pem kid0 j0 docs j L now auth token n H Ha HL Hb Hn.
  assert (Hk := reached_keys _ _ _ _ _ H Ha). apply reached_fit in H. destruct H as [I1 I2 I3 I4 I5 I6 I7 I8].
  rewrite <- I1 in *. rewrite (verdict_unsigned L now (unsigned j) auth token Hb) by
    (cbn [unsigned j_alg]; unfold signing; cbn [In]; intros Hin; repeat (destruct Hin as [Hin|Hin]; [discriminate|]); exact Hin).
  destruct (verdict_signed L now j auth token Hb Ha) as [_ [_ H3]]. destruct (H3 n Hn) as [H4 H5]. rewrite Hk in *.
  cbn [fst]. change (skew_of (unsigned j)) with (skew_of j).
  change (exists kid k c, In (kid, k) (keys j) /\ lib_verify L (j_alg j) k token = Some c) with (usable L (j_alg j) token (keys j)).
  destruct (usable_dec L (j_alg j) token (keys j)) as [Hu|Hu].
  - rewrite (H4 Hu). assert (Hu' := Hu). destruct Hu' as [kid [k [c [_ Hv]]]]. rewrite (HL _ _ _ _ Hv). tauto.
  - rewrite (H5 Hu). split; [discriminate|tauto].
Qed.

Lemma accepted_moderate : forall pem kid0 j0 docs j L now auth token n skew c, reached pem kid0 j0 docs j -> In (j_alg j0) signing -> honest L ->
  bearer auth token -> lib_signatures L token = Some (S n) -> skew_is j skew -> moderate now skew -> lib_parse L token = Some c -> dated c ->
  (fst (validate_jwt L now j auth) = Valid <->
   (exists kid k c, In (kid, k) (keys j) /\ lib_verify L (j_alg j0) k token = Some c) /\ in_time now skew c).
Proof.
  intros pem kid0 j0 docs j L now auth token n skew c H Ha HL Hb Hn Hs HM Hp Hd.
  assert (Hk := reached_keys _ _ _ _ _ H Ha). apply reached_fit in H. destruct H as [I1 I2 I3 I4 I5 I6 I7 I8].
  rewrite <- I1 in *. split.
  - intros Hv. split; [rewrite <- Hk; eapply valid_usable; eassumption|].
    destruct HM as [M1 [M2 M3]]. eapply accepted_in_time; eauto. lia.
  - intros [[kid [k [c' [Hin Hv]]]] Ht]. assert (E := HL _ _ _ _ Hv). rewrite Hp in E. injection E as <-.
    rewrite <- Hk in Hin. eapply usable_valid; eauto.
Qed.

Lemma accepted_key : forall pem kid0 j0 docs j L now auth token, reached pem kid0 j0 docs j -> In (j_alg j0) signing ->
  bearer auth token -> fst (validate_jwt L now j auth) = Valid ->
  exists kid k c, In (kid, k) (keys j) /\ lib_verify L (j_alg j0) k token = Some c /\ fits (j_alg j0) k /\
    ((j_key j0 <> "" /\ stands_for pem j0 k) \/ published docs (j_alg j0) kid k).
Proof.
  intros pem kid0 j0 docs j L now auth token H Ha Hb Hv.
  assert (Hk := reached_keys _ _ _ _ _ H Ha). apply reached_fit in H. destruct H as [I1 I2 I3 I4 I5 I6 I7 I8].
  rewrite <- I1 in Ha. destruct (valid_usable L now j auth token Hb Ha Hv) as [kid [k [c [H1 H2]]]]. rewrite Hk in H1.
  exists kid, k, c. split; [assumption|]. rewrite I1 in H2. split; [assumption|]. split.
  - rewrite <- I1. destruct I6 as [_ [_ [_ S4]]]. eapply S4. exact H1.
  - destruct (I8 _ _ H1) as [[? [? _]]|?]; auto.
Qed.

Lemma no_signature : forall pem kid0 j0 docs j L now auth token, reached pem kid0 j0 docs j -> bearer auth token ->
  lib_signatures L token = Some 0 -> fst (validate_jwt L now j auth) = Valid -> j_alg j0 = "none".
Proof.
  intros pem kid0 j0 docs j L now auth token H Hb Hn Hv.
  apply reached_fit in H. destruct H as [I1 I2 I3 I4 I5 I6 I7 I8]. destruct I5 as [Ha|Ha]; [|assumption].
  exfalso. rewrite <- I1 in Ha. destruct (verdict_signed L now j auth token Hb Ha) as [_ [H2 _]]. rewrite (H2 Hn) in Hv. discriminate.
Qed.

Lemma other_algs_irrelevant : forall pem kid0 j0 docs j L L' now auth, reached pem kid0 j0 docs j ->
  (forall t, lib_signatures L t = lib_signatures L' t) -> (forall t, lib_parse L t = lib_parse L' t) ->
  (forall k t, fits (j_alg j0) k -> lib_verify L (j_alg j0) k t = lib_verify L' (j_alg j0) k t) ->
  fst (validate_jwt L now j auth) = fst (validate_jwt L' now j auth).
Proof.
  intros pem kid0 j0 docs j L L' now auth H E1 E2 E3.
  destruct (split " " auth) as [|s [|token r]] eqn:Hs.
  1,2: unfold validate_jwt; rewrite Hs; reflexivity.
  assert (Hb := split_bearer _ _ _ _ Hs). destruct (signing_dec (j_alg j)) as [Ha|Ha].
  - assert (F := reached_fit _ _ _ _ _ H). destruct F as [I1 I2 I3 I4 I5 I6 I7 I8].
    assert (Hk := reached_keys _ _ _ _ _ H ltac:(rewrite <- I1; exact Ha)).
    destruct (verdict_signed L now j auth token Hb Ha) as [H1 [H2 H3]].
    destruct (verdict_signed L' now j auth token Hb Ha) as [G1 [G2 G3]].
    rewrite <- E1 in G1, G2, G3. rewrite Hk in *.
    assert (Hfit : forall kid k, In (kid, k) (keys j) -> lib_verify L (j_alg j) k token = lib_verify L' (j_alg j) k token).
    { intros kid k Hin. rewrite I1. apply E3. rewrite <- I1. destruct I6 as [_ [_ [_ S4]]]. eapply S4. exact Hin. }
    destruct (lib_signatures L token) as [[|n]|] eqn:Hn.
    + now rewrite H2, G2.
    + destruct (H3 n eq_refl) as [H4 H5], (G3 n eq_refl) as [G4 G5].
      destruct (usable_dec L (j_alg j) token (keys j)) as [Hu|Hu].
      * assert (Hu' : usable L' (j_alg j) token (keys j)).
        { destruct Hu as [kid [k [c [Hu1 Hu2]]]]. exists kid, k, c. split; [assumption|]. now rewrite <- (Hfit _ _ Hu1). }
        now rewrite (H4 Hu), (G4 Hu'), E2.
      * assert (Hu' : ~ usable L' (j_alg j) token (keys j)).
        { intros [kid [k [c [Hu1 Hu2]]]]. apply Hu. exists kid, k, c. split; [assumption|]. now rewrite (Hfit _ _ Hu1). }
        now rewrite (H5 Hu), (G5 Hu').
    + now rewrite H1, G1.
  - rewrite (verdict_unsigned L now j auth token Hb Ha), (verdict_unsigned L' now j auth token Hb Ha), E2. reflexivity.
Qed.

Lemma in_time_of : forall pem kid0 j0 docs j L now auth token skew c, reached pem kid0 j0 docs j -> bearer auth token -> skew_is j skew -> (0 <= now)%Z ->
  fst (validate_jwt L now j auth) = Valid -> lib_parse L token = Some c -> dated c -> in_time now skew c.
Proof.
  intros pem kid0 j0 docs j L now auth token skew c H Hb Hs Hn Hv Hp Hd.
  destruct (reached_skew _ _ _ _ _ H) as [z [Hz [H0 _]]]. assert (z = skew) as -> by exact (int64_text_one _ _ _ Hz Hs).
  exact (accepted_in_time L now j auth token skew c Hb Hs H0 Hn Hv Hp Hd).
Qed.

Lemma dates_not_rejected : forall pem kid0 j0 docs j L now auth token n skew kid k c, reached pem kid0 j0 docs j -> In (j_alg j0) signing -> honest L ->
  bearer auth token -> lib_signatures L token = Some (S n) -> In (kid, k) (keys j) -> lib_verify L (j_alg j0) k token = Some c ->
  skew_is j skew -> moderate now skew -> in_time now skew c -> fst (validate_jwt L now j auth) = Valid.
Proof.
  intros pem kid0 j0 docs j L now auth token n skew kid k c H Ha HL Hb Hn Hin Hv Hs HM Ht.
  assert (Hk := reached_keys _ _ _ _ _ H Ha). apply reached_fit in H. destruct H as [I1 I2 I3 I4 I5 I6 I7 I8].
  rewrite <- I1 in *. rewrite <- Hk in Hin. eapply usable_valid; eauto.
Qed.

Lemma crash_exactly : forall pem kid0 j0 docs j L now auth, reached pem kid0 j0 docs j -> honest L ->
  (fst (validate_jwt L now j auth) = Crash <-> In (j_alg j0) signing /\ exists token, bearer auth token /\ lib_signatures L token = None).
Proof.
  intros pem kid0 j0 docs j L now auth H HL. apply reached_fit in H. destruct H as [I1 I2 I3 I4 I5 I6 I7 I8]. rewrite <- I1.
  split.
  - intros Hc. destruct (signing_dec (j_alg j)) as [Ha|Ha]; [|elim (unsigned_no_crash L now j auth Ha Hc)].
    split; [assumption|]. now apply (crash_iff L now j auth HL Ha).
  - intros [Ha Ht]. now apply (crash_iff L now j auth HL Ha).
Qed.

Lemma not_valid_401 : forall pem kid0 j0 docs j L now auth, reached pem kid0 j0 docs j -> honest L ->
  (forall token, bearer auth token -> lib_signatures L token <> None) -> fst (validate_jwt L now j auth) <> Valid ->
  fst (validate_jwt L now j auth) = Invalid.
Proof.
  intros pem kid0 j0 docs j L now auth H HL Ht Hv. destruct (fst (validate_jwt L now j auth)) eqn:E; [contradiction|reflexivity|].
  exfalso. apply (crash_exactly _ _ _ _ _ _ _ _ H HL) in E. destruct E as [_ [token [Hb Hn]]]. elim (Ht _ Hb Hn).
Qed.

Lemma new_kid : forall pem kid0 j0 docs j ks j' d k, reached pem kid0 j0 docs j -> load_jwks (Some ks) j = Some (j', false) -> fresh_kids j ks ->
  In d ks -> jk_raw d = Some k -> fits (j_alg j0) k -> (forall s, k <> KSecret s) -> find_key (keys j') (jk_kid d) = Some k.
Proof.
  intros pem kid0 j0 docs j ks j' d k H Hl HF Hd Hraw Hf Hs. assert (F := reached_fit _ _ _ _ _ H). destruct F as [I1 I2 I3 I4 I5 I6 I7 I8].
  rewrite <- I1 in Hf. assert (Hin := all_usable _ _ _ Hl HF d k Hd Hraw Hf Hs).
  destruct (reached_extends _ _ _ _ _ _ _ _ H Hl) as [_ [_ [a [E1 E2]]]]. destruct HF as [N1 N2].
  assert (Hall : forall x, In (jk_kid d, x) (keys j') -> x = k).
  { intros x Hx. rewrite E1 in Hx. apply in_app_or in Hx. destruct Hx as [Hx|Hx]; [elim (N2 d Hd); now exists x|].
    destruct (E2 _ _ Hx) as [_ [_ [_ [doc [e [Hdoc [He [_ [He1 He2]]]]]]]]]. destruct Hdoc as [<-|[]].
    assert (e = d) as ->; [|congruence]. clear - N1 Hd He He1.
    induction ks as [|y ks IH]; [destruct Hd|]. cbn [map] in N1. apply NoDup_cons_iff in N1. destruct N1 as [N1 N2].
    destruct Hd as [->|Hd], He as [->|He]; auto.
    - elim N1. rewrite <- He1. now apply in_map.
    - elim N1. rewrite He1. now apply in_map. }
  destruct (find_key (keys j') (jk_kid d)) as [x|] eqn:E.
  - f_equal. apply Hall. now apply find_key_in.
  - exfalso. revert Hin E. generalize (keys j'). induction k0 as [|[kid' k'] l IH]; cbn [find_key In]; [tauto|].
    destruct (String.eqb_spec kid' (jk_kid d)) as [->|Hne]; [discriminate|]. intros [Hin|Hin]; [congruence|auto].
Qed.

Lemma accepted_result : forall pem kid doc j j', blank j -> validate_jwt_def pem kid doc j = ROk j' ->
  j_alg j' = j_alg j /\ (In (j_alg j) signing -> keys j' <> []) /\ (forall kid k, In (kid, k) (keys j') -> fits (j_alg j) k) /\
  j_skew j' = (if String.eqb (j_skew j) "" then "120" else j_skew j).
Proof.
  intros pem kid doc j j' Hb H. assert (R := reached_boot pem kid j doc j' Hb H). apply reached_fit in R.
  destruct R as [I1 I2 I3 I4 I5 I6 I7 I8]. repeat split; auto. rewrite <- I1. destruct I6 as [_ [_ [_ S4]]]. exact S4.
Qed.

Lemma key_no_panic : forall pem kid doc j, pem_contract pem j -> j_key j <> "" -> validate_jwt_def pem kid doc j <> RPanic.
Proof.
  intros pem kid doc j Hp Hk H. destruct (validate_spec pem kid doc j RPanic H ltac:(discriminate)) as [_ [_ Hv]].
  inversion Hv as [|r Ha _ Hr|r Ha Hk' _ _]; subst; [|contradiction].
  unfold parse_key in Hr. unfold pem_contract in Hp.
  assert (Hn : fst pem = None -> String.eqb (snd pem) "" = false) by (intros E; rewrite (Hp E); now apply String.eqb_neq).
  destruct (mem_str (j_alg j) rsa_algs); [|destruct (mem_str (j_alg j) hmac_algs); [|destruct (mem_str (j_alg j) ec_algs)]].
  - destruct (fst pem) as [b|]; [|rewrite (Hn eq_refl) in Hr; discriminate].
    destruct (String.eqb (snd pem) ""); cbn [negb] in Hr; [|discriminate].
    destruct (mem_str (pb_type b) _); cbn [negb] in Hr; [|discriminate].
    destruct (String.eqb (pb_type b) "CERTIFICATE"); [destruct (pb_cert b) as [[]|]|destruct (pb_pkix b) as [[]|]]; discriminate.
  - destruct (String.eqb _ _); discriminate.
  - destruct (fst pem) as [b|]; [|rewrite (Hn eq_refl) in Hr; discriminate].
    destruct (String.eqb (snd pem) ""); cbn [negb] in Hr; [|discriminate].
    destruct (mem_str (pb_type b) _); cbn [negb] in Hr; [|discriminate].
    destruct (String.eqb (pb_type b) "CERTIFICATE"); [destruct (pb_cert b) as [[]|]|destruct (pb_pkix b) as [[]|]]; try discriminate;
      destruct (bit_size_ok _ _); discriminate.
  - destruct (String.eqb (j_alg j) "none"); [destruct (String.eqb _ _)|]; discriminate.
Qed.

Lemma refresh_crash : forall doc j, load_jwks doc j = None <->
  exists ks a d b, doc = Some ks /\ ks = (a ++ d :: b)%list /\ In (j_alg j) ["ES256"; "ES384"; "ES512"] /\ (forall x, In x (a ++ [d])%list -> jk_alg x = j_alg j) /\
    (forall x, In x a -> exists b n, jk_raw x = Some (KEc b n)) /\ (forall b n, jk_raw d <> Some (KEc b n)).
Proof.
  intros doc j. unfold load_jwks. destruct doc as [[|d0 ks]|].
  - split; [discriminate|]. intros [ks [[|? a] [d [b [E1 [E2 _]]]]]]; injection E1 as <-; discriminate.
  - assert (HL := load_crash_iff (d0 :: ks) j false). destruct (load_keys j (d0 :: ks) false) as [[j1 e1]|].
    + split; [discriminate|]. intros [ks' [a [d [b [E1 E2]]]]]. injection E1 as <-. exfalso.
      assert (Some (j1, e1) = None) as X; [|discriminate]. apply HL. now exists a, d, b.
    + split; [|reflexivity]. intros _. destruct HL as [HL _]. destruct (HL eq_refl) as [a [d [b E]]]. exists (d0 :: ks), a, d, b. auto.
  - split; [discriminate|]. intros [ks [a [d [b [E1 _]]]]]. discriminate.
Qed.
