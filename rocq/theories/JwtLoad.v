(** Lemmas for Thm_JwtLoad. *)
From Coq Require Import String Ascii List Bool ZArith NArith.
From Verif Require Import GoStr Jwt JwtSpec JwtProofs JwtKeys JwtLoadSpec.
Import ListNotations.
Local Open Scope string_scope.

Lemma find_upsert : forall ks kid k q, find_key (upsert ks (kid, k)) q =
  match find_key ks q with Some x => Some x | None => if String.eqb kid q then Some k else None end.
Proof.
  intros ks kid k q. unfold upsert. cbn [fst].
  assert (A : forall l : keyset, find_key (l ++ [(kid, k)])%list q = match find_key l q with Some x => Some x | None => if String.eqb kid q then Some k else None end).
  { induction l as [|[a x] l IH]; cbn [app find_key]; [reflexivity|]. destruct (String.eqb a q); [reflexivity|exact IH]. }
  destruct (existsb (fun p => String.eqb (fst p) kid) ks) eqn:E; [|apply A].
  destruct (find_key ks q) eqn:F; [reflexivity|]. destruct (String.eqb_spec kid q) as [Q|N]; [|reflexivity]. exfalso. subst q.
  revert F E. clear. induction ks as [|[a x] ks IH]; cbn [find_key existsb fst]; [discriminate|].
  destruct (String.eqb a kid); [discriminate|]. exact IH.
Qed.

(** The keys in use, whatever the algorithm *)
Notation used j := (keys_for (j_alg j) j).

Lemma in_alg : forall alg l, mem_str alg l = true <-> In alg l.
Proof. intros alg l. apply mem_str_In. Qed.

Lemma entry_dec : forall alg d, (exists k, usable_entry alg d k) \/ forall k, ~ usable_entry alg d k.
Proof.
  intros alg d. destruct (String.eqb_spec (jk_alg d) alg) as [E|E]; [|right; intros k [H _]; contradiction].
  destruct (jk_raw d) as [k|] eqn:R; [|right; intros k [_ [H _]]; congruence].
  destruct k as [n|b n|s|n].
  - destruct (mem_str alg rsa_algs) eqn:M.
    + left. exists (KRsa n). split; [exact E|]. split; [exact R|]. split; [|discriminate]. apply rsa_fits. now apply in_alg.
    + right. intros k [_ [H [F _]]]. rewrite R in H. injection H as <-. apply rsa_fits in F. apply in_alg in F. congruence.
  - destruct (mem_str alg ec_algs) eqn:M; [destruct (bit_size_ok alg b) eqn:B|].
    + left. exists (KEc b n). split; [exact E|]. split; [exact R|]. split; [|discriminate]. apply ec_fits. split; [now apply in_alg|exact B].
    + right. intros k [_ [H [F _]]]. rewrite R in H. injection H as <-. apply ec_fits in F. destruct F. congruence.
    + right. intros k [_ [H [F _]]]. rewrite R in H. injection H as <-. apply ec_fits in F. destruct F as [F _]. apply in_alg in F. congruence.
  - right. intros k [_ [H [_ F]]]. rewrite R in H. injection H as <-. exact (F s eq_refl).
  - right. intros k [_ [H [F _]]]. rewrite R in H. injection H as <-. exact F.
Qed.

Lemma entry_one : forall alg d k k', usable_entry alg d k -> usable_entry alg d k' -> k = k'.
Proof. intros alg d k k' [_ [A _]] [_ [B _]]. congruence. Qed.

(** An entry for the algorithm is added if it can be used, unless there is something under its kid. *)
Definition adds (j j1 : jwt) (d : jwk) : Prop :=
  j_alg j1 = j_alg j /\
  forall kid k, find_key (used j1) kid = Some k <->
    find_key (used j) kid = Some k \/ (find_key (used j) kid = None /\ jk_kid d = kid /\ usable_entry (j_alg j) d k).

Lemma adds_nothing : forall j d, (forall k, ~ usable_entry (j_alg j) d k) -> adds j j d.
Proof.
  intros j d N. split; [reflexivity|]. intros kid k. split; [intros H; now left|]. intros [H|[_ [_ H]]]; [exact H|exfalso; exact (N k H)].
Qed.

Lemma adds_upsert : forall j j1 d x, j_alg j1 = j_alg j -> used j1 = upsert (used j) (jk_kid d, x) -> usable_entry (j_alg j) d x -> adds j j1 d.
Proof.
  intros j j1 d x A U X. split; [exact A|]. intros kid k. rewrite U, find_upsert. split.
  - destruct (find_key (used j) kid) as [y|] eqn:F; [intros H; left; exact H|].
    destruct (String.eqb_spec (jk_kid d) kid) as [E|E]; [|discriminate]. intros H. injection H as <-. right. auto.
  - intros [H|[F [E H]]].
    + rewrite H. reflexivity.
    + rewrite F. destruct (String.eqb_spec (jk_kid d) kid); [|contradiction]. f_equal. exact (entry_one _ _ _ _ X H).
Qed.

Lemma signing_valid : forall alg, In alg signing -> mem_str alg valid_alg = true.
Proof. intros alg H. unfold signing in H. cbn [In] in H. repeat (destruct H as [<-|H]; [reflexivity|]). destruct H. Qed.

Lemma rsa_not_ec : forall alg, mem_str alg rsa_algs = true -> mem_str alg ec_algs = false.
Proof. intros alg H. apply in_alg in H. unfold rsa_algs in H. cbn [In] in H. repeat (destruct H as [<-|H]; [reflexivity|]). destruct H. Qed.

Lemma load_keys_step : forall j d ks err r, In (j_alg j) signing -> jk_alg d = j_alg j -> load_keys j (d :: ks) err = Some r ->
  exists j1 e1, adds j j1 d /\ load_keys j1 ks e1 = Some r.
Proof.
  intros j d ks err r Sg E H. cbn [load_keys] in H. rewrite E, (signing_valid _ Sg), String.eqb_refl in H. cbn [andb] in H.
  destruct (mem_str (j_alg j) rsa_algs) eqn:R.
  - destruct (jk_raw d) as [[n|b n|s|n]|] eqn:W.
    + eexists _, _. split; [|exact H]. apply (adds_upsert _ _ _ (KRsa n)); [reflexivity| |].
      * unfold keys_for. cbn [with_rsa j_alg j_rsa]. rewrite R. reflexivity.
      * split; [exact E|]. split; [exact W|]. split; [apply rsa_fits; now apply in_alg|discriminate].
    + exists j, true. split; [|exact H]. apply adds_nothing. intros k [_ [K [F _]]]. rewrite W in K. injection K as <-.
      apply ec_fits in F. destruct F as [F _]. apply in_alg in F. rewrite (rsa_not_ec _ R) in F. discriminate.
    + exists j, true. split; [|exact H]. apply adds_nothing. intros k [_ [K [_ F]]]. rewrite W in K. injection K as <-. exact (F s eq_refl).
    + exists j, true. split; [|exact H]. apply adds_nothing. intros k [_ [K [F _]]]. rewrite W in K. injection K as <-. exact F.
    + exists j, true. split; [|exact H]. apply adds_nothing. intros k [_ [K _]]. congruence.
  - destruct (mem_str (j_alg j) ec_algs) eqn:C.
    + destruct (jk_raw d) as [[n|b n|s|n]|] eqn:W; try discriminate. destruct (bit_size_ok (j_alg j) b) eqn:B.
      * eexists _, _. split; [|exact H]. apply (adds_upsert _ _ _ (KEc b n)); [reflexivity| |].
        -- unfold keys_for. cbn [with_ec j_alg j_rsa j_ec]. rewrite R, C. reflexivity.
        -- split; [exact E|]. split; [exact W|]. split; [apply ec_fits; split; [now apply in_alg|exact B]|discriminate].
      * exists j, true. split; [|exact H]. apply adds_nothing. intros k [_ [K [F _]]]. rewrite W in K. injection K as <-.
        apply ec_fits in F. destruct F. congruence.
    + exists j, true. split; [|exact H]. apply adds_nothing. intros k [_ [_ [F NS]]]. destruct k as [n|b n|s|n].
      * apply rsa_fits in F. apply in_alg in F. congruence.
      * apply ec_fits in F. destruct F as [F _]. apply in_alg in F. congruence.
      * exact (NS s eq_refl).
      * exact F.
Qed.

Lemma load_keys_used : forall ks j err j' e, In (j_alg j) signing -> load_keys j ks err = Some (j', e) ->
  forall kid k, find_key (used j') kid = Some k <->
    find_key (used j) kid = Some k \/ (find_key (used j) kid = None /\ first_entry (j_alg j) kid k ks).
Proof.
  induction ks as [|d ks IH]; intros j err j' e Sg H kid k.
  - cbn [load_keys] in H. injection H as <- _. split; [intros F; now left|]. intros [F|[_ F]]; [exact F|inversion F].
  - destruct (String.eqb_spec (jk_alg d) (j_alg j)) as [E|E].
    + destruct (load_keys_step _ _ _ _ _ Sg E H) as [j1 [e1 [[A U] L]]]. rewrite <- A in Sg.
      assert (FE : first_entry (j_alg j1) kid k ks <-> first_entry (j_alg j) kid k ks) by (now rewrite A).
      rewrite (IH _ _ _ _ Sg L kid k), FE, (U kid k). split.
      * intros [[F|[N [K X]]]|[N F]].
        -- now left.
        -- right. split; [exact N|]. now apply fe_here.
        -- right. assert (N0 : find_key (used j) kid = None).
           { destruct (find_key (used j) kid) as [x|] eqn:Q; [|reflexivity]. assert (W : find_key (used j1) kid = Some x) by (apply U; now left). congruence. }
           split; [exact N0|]. apply fe_later; [exact E| |exact F]. intros K k' X.
           assert (W : find_key (used j1) kid = Some k') by (apply U; right; auto). congruence.
      * intros [F|[N F]]; [left; now left|]. inversion F as [d0 ks0 X K|d0 ks0 A0 X F0]; subst.
        -- left. right. auto.
        -- destruct (find_key (used j1) kid) as [x|] eqn:Q.
           ++ exfalso. apply U in Q. destruct Q as [Q|[_ [K Q]]]; [congruence|]. exact (X K x Q).
           ++ right. split; [reflexivity|exact F0].
    + cbn [load_keys] in H. assert (M : mem_str (jk_alg d) valid_alg && String.eqb (j_alg j) (jk_alg d) = false).
      { apply andb_false_iff. right. apply String.eqb_neq. congruence. }
      rewrite M in H. injection H as <- _. split; [intros F; now left|]. intros [F|[_ F]]; [exact F|]. exfalso.
      inversion F as [d0 ks0 [X _] _|d0 ks0 X _ _]; subst; congruence.
Qed.

Lemma find_none_known : forall j kid, find_key (keys j) kid = None <-> ~ known j kid.
Proof.
  intros j kid. unfold known. induction (keys j) as [|[a x] l IH]; cbn [find_key In].
  - split; [intros _ [k []]|reflexivity].
  - destruct (String.eqb_spec a kid) as [->|N].
    + split; [discriminate|]. intros H. exfalso. apply H. exists x. now left.
    + rewrite IH. split; intros H [k K]; apply H; exists k; [destruct K as [K|K]; [congruence|exact K]|now right].
Qed.

Lemma load_exactly : forall pem kid0 j0 docs j ks j' err, reached pem kid0 j0 docs j -> In (j_alg j0) signing -> j_url j <> "" ->
  load_jwks (Some ks) j = Some (j', err) -> forall kid k, find_key (keys j') kid = Some k <->
    find_key (keys j) kid = Some k \/ (~ known j kid /\ first_entry (j_alg j0) kid k ks).
Proof.
  intros pem kid0 j0 docs j ks j' err R Sg Url H kid k.
  assert (R' := reached_refresh pem kid0 j0 docs j (Some ks) j' err R Url H).
  assert (Hk := reached_keys _ _ _ _ _ R Sg). assert (Hk' := reached_keys _ _ _ _ _ R' Sg).
  destruct (reached_fit _ _ _ _ _ R) as [A _]. rewrite <- find_none_known, <- Hk, <- Hk', <- A. rewrite <- A in Sg.
  unfold load_jwks in H. destruct ks as [|d ks].
  - injection H as <- _. change (used (counted j)) with (used j). split; [intros F; now left|]. intros [F|[_ F]]; [exact F|inversion F].
  - destruct (load_keys j (d :: ks) false) as [[j1 e1]|] eqn:L; [|discriminate]. injection H as <- _.
    change (used (counted j1)) with (used j1). exact (load_keys_used _ _ _ _ _ Sg L kid k).
Qed.
