From Coq Require Import String Ascii List Bool ZArith Permutation Sorted Lia.
From Verif Require Import GoStr Regex RegexSpec RegexProofs RegexGrammar RegexGrammarProofs Policy PolicyProofs Config Routing ConfigSpec.
Import ListNotations.
Local Open Scope string_scope.

Lemma add_slash_slashed : forall p, add_slash p = slashed p.
Proof.
  intros [|c p]; [reflexivity|]. unfold add_slash, slashed. cbn [String.prefix].
  destruct (Ascii.ascii_dec "/" c) as [<-|n].
  - now rewrite Ascii.eqb_refl, prefix_empty.
  - destruct (Ascii.eqb_spec c "/"); [congruence | reflexivity].
Qed.

Lemma all_ok_spec : forall A B (f : A -> option B) l ys,
  all_ok f l = Some ys <-> Forall2 (fun x y => f x = Some y) l ys.
Proof.
  intros A B f. induction l as [|x l IH]; intros ys; cbn [all_ok].
  - split; intros H; [injection H as <-; constructor | now inversion H].
  - destruct (f x) as [y|] eqn:E.
    + destruct (all_ok f l) as [zs|] eqn:E2.
      * split; intros H.
        -- injection H as <-. constructor; [assumption | now apply IH].
        -- inversion H as [|? y' ? ys' H1 H2]; subst. rewrite E in H1. injection H1 as ->.
           apply IH in H2. congruence.
      * split; intros H; [discriminate|]. inversion H as [|? y' ? ys' H1 H2]; subst. apply IH in H2. discriminate.
    + split; intros H; [discriminate|]. inversion H as [|? y' ? ys' H1 H2]; subst. congruence.
Qed.

Lemma all_ok_some : forall A B (f : A -> option B) l,
  (forall x, In x l -> f x <> None) -> exists ys, all_ok f l = Some ys.
Proof.
  intros A B f. induction l as [|x l IH]; intros H; cbn [all_ok]; [now exists []|].
  destruct (f x) as [y|] eqn:E; [|exfalso; apply (H x); [now left | assumption]].
  destruct IH as [ys ->]; [intros z Hz; apply H; now right | now exists (y :: ys)].
Qed.

Lemma Forall2_In_l : forall A B (R : A -> B -> Prop) l ys x, Forall2 R l ys -> In x l -> exists y, In y ys /\ R x y.
Proof.
  intros A B R l ys x H. induction H as [|a b l ys Hab H IH]; intros Hin; [contradiction|].
  destruct Hin as [->|Hin]; [exists b; split; [now left | assumption]|].
  destruct (IH Hin) as [y [H1 H2]]. exists y. split; [now right | assumption].
Qed.

Lemma Forall2_In_r : forall A B (R : A -> B -> Prop) l ys y, Forall2 R l ys -> In y ys -> exists x, In x l /\ R x y.
Proof.
  intros A B R l ys y H. induction H as [|a b l ys Hab H IH]; intros Hin; [contradiction|].
  destruct Hin as [->|Hin]; [exists a; split; [now left | assumption]|].
  destruct (IH Hin) as [x [H1 H2]]. exists x. split; [now right | assumption].
Qed.

Section BootProofs.
  Variable J : Type.
  Variable jv : string -> J -> option J.
  Variable srt : list route -> list route.
  Notation boot := (boot J jv srt).

  Definition jwt_step (e : string * option J) : option (string * option J) :=
    match snd e with
    | Some j => match jv (fst e) j with Some j' => Some (fst e, Some j') | None => None end
    | None => None
    end.

  (** The pieces of a successful boot. *)
  Lemma boot_inv : forall c c', boot c = Some c' ->
    exists jm rs,
      all_ok jwt_step (c_jwt c) = Some jm /\
      all_ok compile_route (c_routes c) = Some rs /\
      forallb transform_ok rs = true /\
      forallb (jwt_known jm) (map (fun r => with_path (add_slash (r_path r)) r) rs) = true /\
      c' = Cfg (insert "default" default_policy (c_policies c))
               (srt (map (fun r => with_path (add_slash (r_path r)) r) rs)) jm
               (c_resources (reapply_names (reapply_schemes c)))
               (default_down (c_down c)) (default_up (c_up c)).
  Proof.
    intros c c' H. unfold Config.boot, bind, validate_jwts in H. cbn [c_jwt reapply_names reapply_schemes with_resources] in H.
    change (all_ok _ (c_jwt c)) with (all_ok jwt_step (c_jwt c)) in H.
    destruct (all_ok jwt_step (c_jwt c)) as [jm|] eqn:E1; [|discriminate].
    unfold compile_paths in H. cbn [c_routes reapply_names reapply_schemes with_resources] in H.
    destruct (all_ok compile_route (c_routes c)) as [rs|] eqn:E2; [|discriminate].
    unfold compile_transforms in H. cbn [c_routes with_routes] in H.
    destruct (forallb transform_ok rs) eqn:E3; [|discriminate].
    unfold validate_routes in H. cbn [c_routes c_jwt with_routes] in H.
    destruct (forallb (jwt_known jm) _) eqn:E4; [|discriminate].
    injection H as <-. exists jm, rs. repeat split; assumption.
  Qed.

  Lemma boot_intro : forall c jm rs,
    all_ok jwt_step (c_jwt c) = Some jm ->
    all_ok compile_route (c_routes c) = Some rs ->
    forallb transform_ok rs = true ->
    forallb (jwt_known jm) (map (fun r => with_path (add_slash (r_path r)) r) rs) = true ->
    boot c <> None.
  Proof.
    intros c jm rs E1 E2 E3 E4. unfold Config.boot, bind, validate_jwts. cbn [c_jwt reapply_names reapply_schemes with_resources].
    change (all_ok _ (c_jwt c)) with (all_ok jwt_step (c_jwt c)). rewrite E1.
    unfold compile_paths. cbn [c_routes reapply_names reapply_schemes with_resources]. rewrite E2.
    unfold compile_transforms. cbn [c_routes with_routes]. rewrite E3.
    unfold validate_routes. cbn [c_routes c_jwt with_routes]. rewrite E4. discriminate.
  Qed.

  Lemma compile_route_spec : forall r r', compile_route r = Some r' ->
    exists x, re_compile ("^" ++ r_path r) = Some x /\ r' = with_regex x r.
  Proof.
    intros r r' H. unfold compile_route in H.
    destruct (re_compile ("^" ++ r_path r)) as [x|]; [|discriminate]. injection H as <-. now exists x.
  Qed.

  Lemma booted_intro : forall r0 x, re_compile ("^" ++ r_path r0) = Some x ->
    booted_from r0 (with_path (add_slash (r_path r0)) (with_regex x r0)).
  Proof.
    intros r0 x H. unfold booted_from. cbn. rewrite add_slash_slashed. repeat split. assumption.
  Qed.

  Lemma boot_routes_from : forall c c', sorts_routes srt -> boot c = Some c' ->
    forall r, In r (c_routes c') -> exists r0, In r0 (c_routes c) /\ booted_from r0 r.
  Proof.
    intros c c' Hs H r Hin. destruct (boot_inv c c' H) as [jm [rs [E1 [E2 [E3 [E4 ->]]]]]].
    cbn [c_routes] in Hin. destruct (Hs (map (fun r => with_path (add_slash (r_path r)) r) rs)) as [HP _].
    apply (Permutation_in _ HP) in Hin. apply in_map_iff in Hin. destruct Hin as [r1 [<- Hin]].
    apply all_ok_spec in E2. destruct (Forall2_In_r _ _ _ _ _ _ E2 Hin) as [r0 [H0 H1]].
    destruct (compile_route_spec _ _ H1) as [x [Hx ->]].
    exists r0. split; [assumption | exact (booted_intro r0 x Hx)].
  Qed.

  Lemma boot_routes_all : forall c c', sorts_routes srt -> boot c = Some c' ->
    forall r0, In r0 (c_routes c) -> exists r, In r (c_routes c') /\ booted_from r0 r.
  Proof.
    intros c c' Hs H r0 Hin. destruct (boot_inv c c' H) as [jm [rs [E1 [E2 [E3 [E4 ->]]]]]].
    cbn [c_routes]. destruct (Hs (map (fun r => with_path (add_slash (r_path r)) r) rs)) as [HP _].
    apply all_ok_spec in E2. destruct (Forall2_In_l _ _ _ _ _ _ E2 Hin) as [r1 [H1 H2]].
    destruct (compile_route_spec _ _ H2) as [x [Hx ->]].
    exists (with_path (add_slash (r_path r0)) (with_regex x r0)). split; [|exact (booted_intro r0 x Hx)].
    apply (Permutation_in _ (Permutation_sym HP)). apply in_map_iff. exists (with_regex x r0). now split.
  Qed.

  Lemma boot_sorted : forall c c', sorts_routes srt -> boot c = Some c' ->
    StronglySorted (fun a b => String.length (r_path b) <= String.length (r_path a))%nat (c_routes c').
  Proof.
    intros c c' Hs H. destruct (boot_inv c c' H) as [jm [rs [E1 [E2 [E3 [E4 ->]]]]]]. apply Hs.
  Qed.

  Lemma route_matches_compiled : forall r0 uri x, re_compile ("^" ++ r_path r0) = Some x ->
    (route_matches r0 uri <-> match_string x uri = true).
  Proof.
    intros r0 uri x Hx. destruct (compile_only_written _ _ Hx) as [y [Hy E]].
    rewrite (compiled_matches _ y x uri Hy Hx). unfold route_matches. split.
    - intros [z [Hz H]]. now apply (written_unique z y _ Hz Hy).
    - intros H. eauto.
  Qed.

  Lemma match_booted : forall r0 r uri, booted_from r0 r -> r_regex r <> None ->
    (match_uri r uri = true <-> route_matches r0 uri).
  Proof.
    intros r0 r uri (_ & _ & _ & _ & _ & Hx) Hn. unfold match_uri.
    destruct (r_regex r) as [x|]; [|congruence]. now rewrite (route_matches_compiled _ _ _ Hx).
  Qed.

  Lemma booted_regex : forall c c' r, sorts_routes srt -> boot c = Some c' -> In r (c_routes c') -> r_regex r <> None.
  Proof.
    intros c c' r Hs H Hin. destruct (boot_inv c c' H) as [jm [rs [E1 [E2 [E3 [E4 ->]]]]]].
    cbn [c_routes] in Hin. destruct (Hs (map (fun r => with_path (add_slash (r_path r)) r) rs)) as [HP _].
    apply (Permutation_in _ HP) in Hin. apply in_map_iff in Hin. destruct Hin as [r1 [<- Hin]].
    apply all_ok_spec in E2. destruct (Forall2_In_r _ _ _ _ _ _ E2 Hin) as [r0 [H0 H1]].
    destruct (compile_route_spec _ _ H1) as [x [Hx ->]]. discriminate.
  Qed.

  Lemma find_sorted : forall (f : route -> bool) l r,
    StronglySorted (fun a b => String.length (r_path b) <= String.length (r_path a))%nat l ->
    List.find f l = Some r -> forall r', In r' l -> f r' = true ->
    (String.length (r_path r') <= String.length (r_path r))%nat.
  Proof.
    intros f. induction l as [|a l IH]; intros r Hs Hf r' Hin Hr'; [discriminate|].
    apply StronglySorted_inv in Hs. destruct Hs as [Hs Ha]. cbn [List.find] in Hf.
    destruct (f a) eqn:E.
    - injection Hf as <-. destruct Hin as [->|Hin]; [lia|]. rewrite Forall_forall in Ha. now apply Ha.
    - destruct Hin as [->|Hin]; [congruence | now apply IH].
  Qed.

  Lemma select_longest : forall c c' uri r, sorts_routes srt -> boot c = Some c' ->
    select_route (c_routes c') uri = Some r ->
    (exists r0, In r0 (c_routes c) /\ booted_from r0 r /\ route_matches r0 uri) /\
    forall r0, In r0 (c_routes c) -> route_matches r0 uri ->
      (String.length (slashed (r_path r0)) <= String.length (r_path r))%nat.
  Proof.
    intros c c' uri r Hs Hb Hsel. pose proof (boot_sorted c c' Hs Hb) as Hsort.
    destruct (List.find_some _ _ Hsel) as [Hin Hm]. split.
    - destruct (boot_routes_from c c' Hs Hb r Hin) as [r0 [H0 H1]]. exists r0. split; [assumption|]. split; [assumption|].
      apply (match_booted r0 r uri H1 (booted_regex c c' r Hs Hb Hin)). assumption.
    - intros r0 H0 Hr0. destruct (boot_routes_all c c' Hs Hb r0 H0) as [r1 [H1 H2]].
      destruct H2 as [Hp H2']. rewrite <- Hp.
      eapply find_sorted; [exact Hsort | exact Hsel | exact H1 |].
      apply (match_booted r0 r1 uri (conj Hp H2') (booted_regex c c' r1 Hs Hb H1)). assumption.
  Qed.

  Lemma select_none : forall c c' uri, sorts_routes srt -> boot c = Some c' ->
    (select_route (c_routes c') uri = None <-> forall r0, In r0 (c_routes c) -> ~ route_matches r0 uri).
  Proof.
    intros c c' uri Hs Hb. split.
    - intros Hn r0 H0 Hr0. destruct (boot_routes_all c c' Hs Hb r0 H0) as [r1 [H1 H2]].
      pose proof (List.find_none _ _ Hn r1 H1) as Hf. cbv beta in Hf.
      apply (match_booted r0 r1 uri H2 (booted_regex c c' r1 Hs Hb H1)) in Hr0. congruence.
    - intros H. destruct (select_route (c_routes c') uri) as [r|] eqn:E; [|reflexivity]. exfalso.
      destruct (select_longest c c' uri r Hs Hb E) as [[r0 [H0 [_ H1]]] _]. now apply (H r0).
  Qed.

  Lemma literal_route : forall c c' r uri, sorts_routes srt -> boot c = Some c' -> In r (c_routes c') ->
    forall r0, In r0 (c_routes c) -> booted_from r0 r -> literal (r_path r0) = true ->
    (match_uri r uri = true <-> exists rest, uri = r_path r0 ++ rest).
  Proof.
    intros c c' r uri Hs Hb Hin r0 H0 Hbf Hl.
    pose proof (booted_regex c c' r Hs Hb Hin) as Hn.
    destruct Hbf as (_ & _ & _ & _ & _ & Hx). unfold match_uri.
    destruct (r_regex r) as [x|]; [|congruence].
    rewrite (caret_literal_match _ _ _ Hl Hx). apply prefix_spec.
  Qed.

  (** A literal path without a leading slash never matches a request. *)
  Lemma no_slash_never : forall r0 uri, literal (r_path r0) = true -> r_path r0 <> "" ->
    (forall t, r_path r0 <> "/" ++ t) -> (exists t, uri = "/" ++ t) -> ~ route_matches r0 uri.
  Proof.
    intros r0 uri Hl He Hs [t ->] Hm. pose proof Hm as [y [Hy _]].
    pose proof (compile_written _ _ Hy) as Hx. pose proof (proj1 (route_matches_compiled _ _ _ Hx) Hm) as Ho.
    rewrite (caret_literal_match _ _ _ Hl Hx) in Ho. apply prefix_spec in Ho. destruct Ho as [u Ho].
    destruct (r_path r0) as [|c p]; [congruence|]. cbn in Ho. injection Ho as <- _. now apply (Hs p).
  Qed.

  Lemma route_reads : forall r0 uri z, written z ("^" ++ r_path r0) -> (route_matches r0 uri <-> found z uri).
  Proof.
    intros r0 uri z Hz. unfold route_matches. split.
    - intros [y [Hy H]]. now apply (written_unique y z _ Hy Hz).
    - intros H. eauto.
  Qed.

  Lemma anchored_route : forall r0 uri x, written x (r_path r0) -> (forall a b, x <> XAlt a b) ->
    (route_matches r0 uri <-> leads x uri).
  Proof.
    intros r0 uri x Hx Ha. rewrite (route_reads _ _ _ (written_caret _ _ Hx)).
    replace (anchored x) with (XSeq XStart x) by (destruct x; try reflexivity; now elim (Ha x1 x2)).
    apply found_start.
  Qed.

  Lemma alternation_route : forall r0 uri a b, written (XAlt a b) (r_path r0) ->
    (route_matches r0 uri <-> leads a uri \/ found b uri).
  Proof.
    intros r0 uri a b Hx. rewrite (route_reads _ _ _ (written_caret _ _ Hx)). cbn [anchored].
    rewrite found_alt, found_start. reflexivity.
  Qed.

  Lemma operator_route : forall r0 uri o n h p x, r_path r0 = o ++ p -> operator o n h -> written x p ->
    (route_matches r0 uri <-> match x with XAlt a b => loosely n a uri \/ found b uri | _ => loosely n x uri end).
  Proof.
    intros r0 uri o n h p x Hp Ho Hx. pose proof (written_operator _ _ _ _ _ Ho Hx) as Hz. rewrite <- Hp in Hz.
    rewrite (route_reads _ _ _ Hz). apply operator_order in Ho. unfold loosely.
    destruct x; cbn [loosened]; try exact (found_loose n h _ uri Ho).
    rewrite found_alt, found_loose by assumption. reflexivity.
  Qed.

  Lemma route_cases : forall r0 z, written z ("^" ++ r_path r0) ->
    (exists x, written x (r_path r0)) \/
    exists o n h p x, r_path r0 = o ++ p /\ operator o n h /\ written x p.
  Proof.
    intros r0 z H. apply written_caret_inv in H. destruct H as [H|(o & n & h & q & x & Ho & E & H)]; [now left|].
    right. exists o, n, h, q, x. auto.
  Qed.

  (** ** Validity *)
  Lemma prefix_slash : forall s, String.prefix "/" s = true <-> exists t, s = "/" ++ t.
  Proof. intros s. apply prefix_spec. Qed.

  Lemma lookup_In : forall A k (m : smap A), (exists v, lookup k m = Some v) <-> In k (map fst m).
  Proof.
    intros A k. induction m as [|[k' v'] m IH]; cbn [lookup map fst].
    - split; [intros [v H]; discriminate | contradiction].
    - destruct (String.eqb_spec k' k) as [->|n].
      + split; [intros _; now left | intros _; now exists v'].
      + rewrite IH. split; [intros H; now right | intros [H|H]; [congruence | assumption]].
  Qed.

  Lemma jwt_step_keys : forall m m', Forall2 (fun x y => jwt_step x = Some y) m m' -> map fst m' = map fst m.
  Proof.
    intros m m' H. induction H as [|x y m m' Hxy H IH]; [reflexivity|]. cbn [map]. rewrite IH. f_equal.
    unfold jwt_step in Hxy. destruct x as [k [j|]]; cbn [fst snd] in *; [|discriminate].
    destruct (jv k j); [|discriminate]. injection Hxy as <-. reflexivity.
  Qed.

  Lemma jwt_known_spec : forall (m : smap (option J)) r, jwt_known m r = true <-> r_jwt r = "" \/ In (r_jwt r) (map fst m).
  Proof.
    intros m r. unfold jwt_known, has_jwt. rewrite negb_involutive, orb_true_iff, String.eqb_eq, <- lookup_In.
    destruct (lookup (r_jwt r) m) as [v|]; split; (intros [H|H]; [now left|]).
    - right. now exists v.
    - now right.
    - discriminate.
    - destruct H as [v H]. discriminate.
  Qed.

  Lemma boot_valid_iff : forall c, boot c <> None <-> valid_config jv c.
  Proof.
    intros c. split.
    - intros H. destruct (boot c) as [c'|] eqn:Hb; [|congruence].
      destruct (boot_inv c c' Hb) as [jm [rs [E1 [E2 [E3 [E4 _]]]]]].
      apply all_ok_spec in E1, E2.
      assert (Hr : forall r, In r (c_routes c) -> exists x, re_compile ("^" ++ r_path r) = Some x /\ In (with_regex x r) rs).
      { intros r Hin. destruct (Forall2_In_l _ _ _ _ _ _ E2 Hin) as [r1 [H1 H2]].
        destruct (compile_route_spec _ _ H2) as [x [Hx ->]]. now exists x. }
      rewrite forallb_forall in E3, E4. repeat split.
      + intros r Hin. destruct (Hr r Hin) as [x [Hx _]]. apply compiles_iff. eauto.
      + intros r Hin. destruct (Hr r Hin) as [x [_ Hx]]. specialize (E3 _ Hx). unfold transform_ok in E3. cbn in E3.
        apply orb_true_iff in E3. destruct E3 as [E3|E3]; [left; now apply String.eqb_eq | right; now apply prefix_slash].
      + intros r Hin. destruct (Hr r Hin) as [x [_ Hx]].
        assert (Hk : jwt_known jm (with_path (add_slash (r_path r)) (with_regex x r)) = true).
        { apply E4. apply in_map_iff. exists (with_regex x r). now split. }
        apply jwt_known_spec in Hk. rewrite (jwt_step_keys _ _ E1) in Hk. exact Hk.
      + intros name j Hin. destruct (Forall2_In_l _ _ _ _ _ _ E1 Hin) as [y [_ Hy]].
        unfold jwt_step in Hy. cbn [fst snd] in Hy. destruct j as [d|]; [|discriminate].
        exists d. split; [reflexivity|]. destruct (jv name d); [discriminate | discriminate Hy].
    - intros (V1 & V2 & V3 & V4).
      destruct (all_ok_some _ _ jwt_step (c_jwt c)) as [jm E1].
      { intros [name j] Hin. destruct (V4 name j Hin) as [d [-> Hd]]. unfold jwt_step. cbn [fst snd].
        destruct (jv name d); congruence. }
      destruct (all_ok_some _ _ compile_route (c_routes c)) as [rs E2].
      { intros r Hin. unfold compile_route. specialize (V1 r Hin). apply compiles_iff in V1.
        destruct V1 as [x ->]. discriminate. }
      pose proof E1 as F1. pose proof E2 as F2. apply all_ok_spec in F1, F2.
      eapply boot_intro; [exact E1 | exact E2 | |].
      + apply forallb_forall. intros r Hin. destruct (Forall2_In_r _ _ _ _ _ _ F2 Hin) as [r0 [H0 H1]].
        destruct (compile_route_spec _ _ H1) as [x [Hx ->]]. unfold transform_ok. cbn.
        destruct (V2 r0 H0) as [E|E]; [rewrite E; reflexivity | apply prefix_slash in E; rewrite E; apply orb_true_r].
      + apply forallb_forall. intros r Hin. apply in_map_iff in Hin. destruct Hin as [r1 [<- Hin]].
        destruct (Forall2_In_r _ _ _ _ _ _ F2 Hin) as [r0 [H0 H1]].
        destruct (compile_route_spec _ _ H1) as [x [Hx ->]]. apply jwt_known_spec. cbn.
        rewrite (jwt_step_keys _ _ F1). now apply V3.
  Qed.

  (** ** Defaults *)
  Lemma or_default_filled : forall v d, filled v d (or_default v d).
  Proof. intros v d. unfold or_default, filled. destruct (Z.eqb_spec v 0); [now left | now right]. Qed.

  Lemma down_filled : forall d, let d' := default_down d in
    filled (d_read_timeout d) 120 (d_read_timeout d') /\
    filled (d_roundtrip_timeout d) 240 (d_roundtrip_timeout d') /\
    filled (d_idle_timeout d) 120 (d_idle_timeout d') /\
    filled (d_max_body d) 2097152 (d_max_body d') /\
    d_mode d' = (if String.eqb (d_mode d) "" then "HTTP" else to_upper (d_mode d)) /\
    filled (d_port d) (if String.eqb (to_upper (d_mode d)) "TLS" then 443 else 8080) (d_port d') /\
    d_cert d' = d_cert d /\ d_key d' = d_key d.
  Proof.
    intros d. cbv zeta. unfold default_down. cbn [d_read_timeout d_roundtrip_timeout d_idle_timeout d_max_body d_mode d_port d_cert d_key].
    repeat split; try apply or_default_filled.
    unfold tls_mode. cbn [d_mode]. destruct (String.eqb_spec (d_mode d) "") as [E|E].
    - rewrite E. apply or_default_filled.
    - rewrite to_upper_idem. apply or_default_filled.
  Qed.

  Lemma up_filled : forall u, let u' := default_up u in
    filled (up_pool u) 32768 (up_pool u') /\ filled (up_idle_timeout u) 120 (up_idle_timeout u') /\
    filled (up_socket_timeout u) 3 (up_socket_timeout u') /\ filled (up_read_timeout u) 120 (up_read_timeout u') /\
    filled (up_max_attempts u) 1 (up_max_attempts u') /\ up_skip_verify u' = up_skip_verify u.
  Proof.
    intros u. cbv zeta. unfold default_up. cbn [up_pool up_idle_timeout up_socket_timeout up_read_timeout up_max_attempts up_skip_verify].
    repeat split; apply or_default_filled.
  Qed.

  Lemma boot_connection : forall c c', boot c = Some c' ->
    c_down c' = default_down (c_down c) /\ c_up c' = default_up (c_up c).
  Proof. intros c c' H. destruct (boot_inv c c' H) as [jm [rs [_ [_ [_ [_ ->]]]]]]. now split. Qed.

  Lemma boot_policies : forall c c', boot c = Some c' -> c_policies c' = insert "default" default_policy (c_policies c).
  Proof. intros c c' H. destruct (boot_inv c c' H) as [jm [rs [_ [_ [_ [_ ->]]]]]]. reflexivity. Qed.

  Lemma boot_resources : forall c c', boot c = Some c' ->
    c_resources c' = c_resources (reapply_names (reapply_schemes c)).
  Proof. intros c c' H. destruct (boot_inv c c' H) as [jm [rs [_ [_ [_ [_ ->]]]]]]. reflexivity. Qed.
End BootProofs.

Lemma or_default_idem : forall v d, d <> 0%Z -> or_default (or_default v d) d = or_default v d.
Proof. intros v d H. unfold or_default. destruct (Z.eqb_spec v 0); destruct (Z.eqb_spec d 0); destruct (Z.eqb_spec v 0); congruence. Qed.

Lemma default_up_idem : forall u, default_up (default_up u) = default_up u.
Proof.
  intros u. unfold default_up. cbn [up_pool up_idle_timeout up_socket_timeout up_read_timeout up_max_attempts up_skip_verify].
  now rewrite !or_default_idem by discriminate.
Qed.

Lemma default_down_idem : forall d, default_down (default_down d) = default_down d.
Proof.
  intros d. destruct d as [rt rtt it mb mode port cert key]. unfold default_down.
  cbn [d_read_timeout d_roundtrip_timeout d_idle_timeout d_max_body d_mode d_port d_cert d_key].
  rewrite !or_default_idem by discriminate. unfold tls_mode. cbn [d_mode].
  set (m := if String.eqb mode "" then "HTTP" else to_upper mode).
  assert (Hm : String.eqb m "" = false /\ to_upper m = m).
  { unfold m. destruct (String.eqb_spec mode "") as [E|E]; [split; reflexivity|]. split; [|apply to_upper_idem].
    destruct mode; [congruence | reflexivity]. }
  destruct Hm as [Hm1 Hm2]. rewrite Hm1, !Hm2.
  destruct (String.eqb m "TLS"); rewrite or_default_idem by discriminate; reflexivity.
Qed.

(* ------------------------------------------------------------------ *)
(** * Schemes *)

Lemma norm_scheme_spec : forall s,
  (known_scheme s -> norm_scheme s = "http" \/ norm_scheme s = "https") /\
  (known_scheme s -> (norm_scheme s = "https" <-> exists a b, s = a ++ "https" ++ b)) /\
  (~ known_scheme s -> norm_scheme s = s) /\
  norm_scheme (norm_scheme s) = norm_scheme s.
Proof.
  intros s.
  assert (C : norm_scheme s = "http" /\ known_scheme s /\ (~ exists a b, s = a ++ "https" ++ b) \/
              norm_scheme s = "https" /\ known_scheme s /\ (exists a b, s = a ++ "https" ++ b) \/
              norm_scheme s = s /\ ~ known_scheme s).
  { unfold norm_scheme, known_scheme. destruct (String.eqb_spec s "") as [->|Hne].
    - left. split; [reflexivity|]. split; [now left|]. intros [a [b H]]. destruct a; discriminate.
    - destruct (contains s "https") eqn:E1.
      + right. left. apply contains_spec in E1. split; [reflexivity|]. split; [|assumption].
        right. destruct E1 as [a [b ->]]. exists a, ("s" ++ b). reflexivity.
      + assert (N1 : ~ exists a b, s = a ++ "https" ++ b) by (intros H; apply contains_spec in H; congruence).
        destruct (contains s "http") eqn:E2.
        * left. apply contains_spec in E2. split; [reflexivity|]. split; [now right | assumption].
        * right. right. split; [reflexivity|]. intros [H|H]; [congruence|]. apply contains_spec in H. congruence. }
  destruct C as [(E & K & N)|[(E & K & N)|(E & K)]]; rewrite E.
  - split; [intros _; now left|]. split; [intros _; split; [discriminate | intros H; now apply N in H]|].
    split; [intros H; now apply H in K | reflexivity].
  - split; [intros _; now right|]. split; [intros _; split; [intros _; exact N | reflexivity]|].
    split; [intros H; now apply H in K | reflexivity].
  - split; [intros H; now apply K in H|]. split; [intros H; now apply K in H|]. split; [reflexivity | exact E].
Qed.

Lemma map_lookup : forall A B (f : string -> A -> B) k (m : smap A),
  lookup k (map (fun e => (fst e, f (fst e) (snd e))) m) = option_map (f k) (lookup k m).
Proof.
  intros A B f k. induction m as [|[k' v] m IH]; [reflexivity|]. cbn [map lookup fst snd].
  destruct (String.eqb_spec k' k) as [->|n]; [reflexivity | exact IH].
Qed.

(** What happens to the resource [name] at boot. *)
Lemma resources_lookup : forall J (c : config J) name,
  lookup name (c_resources (reapply_names (reapply_schemes c))) =
  option_map (option_map (map (fun m => RM name (rm_labels m)
     (Url (norm_scheme (u_scheme (rm_url m))) (u_host (rm_url m)) (u_port (rm_url m))))))
   (lookup name (c_resources c)).
Proof.
  intros J c name. unfold reapply_names, reapply_schemes. cbn [c_resources with_resources].
  rewrite (map_lookup _ _ (fun k => option_map (map (fun m => RM k (rm_labels m) (rm_url m))))).
  rewrite (map_lookup _ _ (fun k => option_map (map (fun m => RM (rm_name m) (rm_labels m)
     (Url (norm_scheme (u_scheme (rm_url m))) (u_host (rm_url m)) (u_port (rm_url m))))))).
  destruct (lookup name (c_resources c)) as [[ms|]|]; [|reflexivity|reflexivity].
  cbn [option_map]. now rewrite map_map.
Qed.

Lemma boot_schemes : forall J jv srt (c c' : config J) name ms', boot J jv srt c = Some c' ->
  lookup name (c_resources c') = Some (Some ms') ->
  exists ms, lookup name (c_resources c) = Some (Some ms) /\
    Forall2 (fun m m' => rm_labels m' = rm_labels m /\ rm_name m' = name /\
                         u_host (rm_url m') = u_host (rm_url m) /\ u_port (rm_url m') = u_port (rm_url m) /\
                         u_scheme (rm_url m') = norm_scheme (u_scheme (rm_url m))) ms ms'.
Proof.
  intros J jv srt c c' name ms' Hb Hl. rewrite (boot_resources _ _ _ _ _ Hb), resources_lookup in Hl.
  destruct (lookup name (c_resources c)) as [[ms|]|]; [|discriminate|discriminate].
  cbn [option_map] in Hl. injection Hl as <-. exists ms. split; [reflexivity|].
  induction ms as [|m ms IH]; [constructor | constructor; [repeat split | exact IH]].
Qed.

(* ------------------------------------------------------------------ *)
(** * Policies *)

Lemma lookup_insert : forall A k k' (v : A) m, lookup k (insert k' v m) = if String.eqb k' k then Some v else lookup k m.
Proof.
  intros A k k' v. induction m as [|[k1 v1] m IH]; cbn [insert lookup]; [reflexivity|].
  destruct (String.eqb_spec k1 k') as [->|n]; cbn [lookup].
  - destruct (String.eqb_spec k' k); reflexivity.
  - destruct (String.eqb_spec k1 k) as [->|n1]; [|exact IH].
    destruct (String.eqb_spec k' k); [congruence | reflexivity].
Qed.

(* ------------------------------------------------------------------ *)
(** * Mapping *)

Lemma first_labelled_some : forall label ms u, first_labelled label ms = Some u <->
  exists pre m post, ms = (pre ++ m :: post)%list /\ In label (rm_labels m) /\ rm_url m = u /\
    forall m', In m' pre -> ~ In label (rm_labels m').
Proof.
  intros label ms u. split.
  - revert u. induction ms as [|m ms IH]; intros u H; cbn [first_labelled] in H; [discriminate|].
    destruct (mem_str label (rm_labels m)) eqn:E.
    + injection H as <-. exists [], m, ms. apply mem_str_In in E. repeat split; auto.
    + destruct (IH u H) as [pre [m1 [post [-> [H1 [H2 H3]]]]]]. exists (m :: pre), m1, post. repeat split; auto.
      intros m' [<-|Hin]; [|now apply H3]. rewrite <- mem_str_In. congruence.
  - intros [pre [m [post [-> [H1 [H2 H3]]]]]]. induction pre as [|a pre IH]; cbn [List.app first_labelled].
    + apply mem_str_In in H1. now rewrite H1, H2.
    + destruct (mem_str label (rm_labels a)) eqn:E.
      * apply mem_str_In in E. exfalso. apply (H3 a); [now left | assumption].
      * apply IH. intros m' Hin. apply H3. now right.
Qed.

Lemma first_labelled_none : forall label ms, first_labelled label ms = None <->
  forall m, In m ms -> ~ In label (rm_labels m).
Proof.
  intros label. induction ms as [|m ms IH]; cbn [first_labelled].
  - split; [intros _ m [] | reflexivity].
  - destruct (mem_str label (rm_labels m)) eqn:E.
    + split; [discriminate|]. intros H. exfalso. apply (H m); [now left | now apply mem_str_In].
    + rewrite IH. split.
      * intros H m' [<-|Hin]; [rewrite <- mem_str_In; congruence | now apply H].
      * intros H m' Hin. apply H. now right.
Qed.

Lemma map_url_mapped : forall J choose (c : config J) r u label,
  map_url choose c r = Mapped u label <->
  exists ms, lookup (r_resource r) (c_resources c) = Some (Some ms) /\
  ((r_policy r = "" /\ label = "default" /\ exists m post, ms = m :: post /\ rm_url m = u) \/
   (r_policy r <> "" /\
    label = choose (match lookup (r_policy r) (c_policies c) with Some p => p | None => [] end) /\
    exists pre m post, ms = (pre ++ m :: post)%list /\ In label (rm_labels m) /\ rm_url m = u /\
      forall m', In m' pre -> ~ In label (rm_labels m'))).
Proof.
  intros J choose c r u label. unfold map_url.
  destruct (lookup (r_resource r) (c_resources c)) as [[ms|]|].
  2,3: split; [discriminate | intros [ms [H _]]; discriminate].
  destruct (String.eqb_spec (r_policy r) "") as [E|E]; cbn [negb].
  - split.
    + destruct ms as [|m ms]; [discriminate|]. intros H. injection H as <- <-.
      exists (m :: ms). split; [reflexivity|]. left. repeat split; auto. now exists m, ms.
    + intros [ms' [H [[_ [-> [m [post [-> <-]]]]]|[H1 _]]]]; [|congruence]. injection H as ->. reflexivity.
  - set (l := choose _). split.
    + destruct (first_labelled l ms) as [u'|] eqn:F; [|discriminate]. intros H. injection H as <- <-.
      exists ms. split; [reflexivity|]. right. repeat split; auto. now apply first_labelled_some.
    + intros [ms' [H [[H1 _]|[_ [-> H1]]]]]; [congruence|]. injection H as ->.
      apply first_labelled_some in H1. now rewrite H1.
Qed.

Lemma map_url_unmapped : forall J choose (c : config J) r,
  map_url choose c r = Unmapped <->
  (forall ms, lookup (r_resource r) (c_resources c) = Some (Some ms) ->
     r_policy r <> "" /\
     forall m, In m ms ->
       ~ In (choose (match lookup (r_policy r) (c_policies c) with Some p => p | None => [] end)) (rm_labels m)).
Proof.
  intros J choose c r. unfold map_url.
  destruct (lookup (r_resource r) (c_resources c)) as [[ms|]|].
  2,3: split; [intros _ ms H; discriminate | reflexivity].
  destruct (String.eqb_spec (r_policy r) "") as [E|E]; cbn [negb].
  - split; [destruct ms; discriminate|]. intros H. destruct (H ms eq_refl). congruence.
  - set (l := choose _). split.
    + destruct (first_labelled l ms) as [u'|] eqn:F; [discriminate|]. intros _ ms' H. injection H as <-.
      split; [assumption|]. now apply first_labelled_none.
    + intros H. destruct (H ms eq_refl) as [_ H1]. apply first_labelled_none in H1. now rewrite H1.
Qed.

(* ------------------------------------------------------------------ *)
(** * Upstream URLs *)

Lemma resolve_plain : forall r u uri, r_transform r = "" ->
  resolve_upstream_uri r u uri = u_scheme u ++ "://" ++ u_host u ++ ":" ++ itoa (u_port u) ++ uri.
Proof.
  intros r u uri H. unfold resolve_upstream_uri, url_string. rewrite H. cbn [String.eqb].
  now rewrite !append_assoc.
Qed.

Lemma resolve_transform : forall r u rest, r_transform r <> "" ->
  resolve_upstream_uri r u (r_path r ++ rest) =
  url_string u ++ (if String.eqb (r_transform r) "/" then "" else r_transform r) ++ rest.
Proof.
  intros r u rest H. unfold resolve_upstream_uri. destruct (String.eqb_spec (r_transform r) ""); [congruence|].
  now rewrite replace_first_prefix.
Qed.

Lemma has_char_app : forall c a b, has_char c (a ++ b) = has_char c a || has_char c b.
Proof. intros c. induction a as [|d a IH]; intros b; cbn [append has_char]; [reflexivity | now rewrite IH, orb_assoc]. Qed.

Lemma itoa_digits : forall n c, has_char c (itoa n) = true -> N_in 48 57 (N_of_ascii c) = true.
Proof.
  intros n c. unfold itoa.
  assert (D : forall d, has_char c (DecimalString.NilEmpty.string_of_uint d) = true -> N_in 48 57 (N_of_ascii c) = true).
  { induction d as [|d IH|d IH|d IH|d IH|d IH|d IH|d IH|d IH|d IH|d IH]; cbn [DecimalString.NilEmpty.string_of_uint has_char];
      [discriminate|..]; intros H; apply orb_true_iff in H;
      (destruct H as [H|H]; [apply Ascii.eqb_eq in H; subst c; reflexivity | now apply IH]). }
  intros H. apply (D (N.to_uint n)). unfold DecimalString.NilZero.string_of_uint in H.
  destruct (N.to_uint n) eqn:E; try exact H. exfalso. destruct n as [|p]; [discriminate|].
  cbn in E. eapply DecimalPos.Unsigned.to_uint_nonnil. exact E.
Qed.

Lemma no_char_itoa : forall n c, N_in 48 57 (N_of_ascii c) = false -> has_char c (itoa n) = false.
Proof. intros n c H. destruct (has_char c (itoa n)) eqn:E; [|reflexivity]. apply itoa_digits in E. congruence. Qed.

(** The URI part handed to the upstream starts like a path. *)
Lemma replaced_path : forall uri p t, (exists x, uri = "/" ++ x) -> (exists x, p = "/" ++ x) ->
  (exists x, t = "/" ++ x) -> exists x, replace_first uri p t = "/" ++ x.
Proof.
  intros uri p t [x ->] [y ->] [z ->].
  change ("/" ++ x) with (String "/" x). cbn [replace_first].
  destruct (String.prefix _ _); [cbn; eexists; reflexivity | cbn; eexists; reflexivity].
Qed.

Lemma replace_not_prefix : forall c x p t, String.prefix p (String c x) = false ->
  exists y, replace_first (String c x) p t = String c y.
Proof. intros c x p t H. cbn [replace_first]. rewrite H. eexists. reflexivity. Qed.

Lemma upstream_part : forall r uri,
  (exists x, uri = "/" ++ x) -> (exists x, r_path r = "/" ++ x) ->
  r_transform r = "" \/ (exists x, r_transform r = "/" ++ x) ->
  (r_transform r = "/" -> safe_removal (r_path r) uri) ->
  exists part, ends_authority part /\ forall u, resolve_upstream_uri r u uri = url_string u ++ part.
Proof.
  intros r uri Hu Hp Ht Hs. unfold resolve_upstream_uri.
  assert (Hsl : forall x, ends_authority ("/" ++ x)).
  { intros x. right. exists "/"%char, x. split; [now left | reflexivity]. }
  destruct (String.eqb_spec (r_transform r) "") as [E|E].
  - exists uri. split; [destruct Hu as [x ->]; apply Hsl | reflexivity].
  - destruct Ht as [Ht|Ht]; [congruence|].
    destruct (String.eqb_spec (r_transform r) "/") as [E1|E1].
    + exists (replace_first uri (r_path r) ""). split; [|reflexivity].
      destruct (String.prefix (r_path r) uri) eqn:F.
      * apply prefix_spec in F. destruct F as [rest ->]. rewrite replace_first_prefix. apply (Hs E1 rest eq_refl).
      * destruct Hu as [x ->]. destruct (replace_not_prefix "/" x (r_path r) "" F) as [y Hy].
        change ("/" ++ x) with (String "/" x). rewrite Hy. apply (Hsl y).
    + exists (replace_first uri (r_path r) (r_transform r)). split; [|reflexivity].
      destruct (replaced_path uri (r_path r) (r_transform r) Hu Hp Ht) as [y ->]. apply Hsl.
Qed.

(** ** Reading the host and port is unambiguous *)
Lemma split_first : forall c a b a' b', a ++ String c b = a' ++ String c b' ->
  has_char c a = false -> has_char c a' = false -> a = a' /\ b = b'.
Proof.
  intros c. induction a as [|x a IH]; intros b a' b' H Ha Ha'; destruct a' as [|y a']; cbn in H.
  - injection H as ->. now split.
  - injection H as <- ->. cbn [has_char] in Ha'. rewrite Ascii.eqb_refl in Ha'. discriminate.
  - injection H as -> <-. cbn [has_char] in Ha. rewrite Ascii.eqb_refl in Ha. discriminate.
  - injection H as <- H. cbn [has_char] in Ha, Ha'. apply orb_false_iff in Ha, Ha'.
    destruct (IH b a' b' H) as [-> ->]; [tauto | tauto | now split].
Qed.

Lemma auth_unique : forall a b a' b', a ++ b = a' ++ b' ->
  no_chars delims a -> no_chars delims a' -> ends_authority b -> ends_authority b' -> a = a' /\ b = b'.
Proof.
  induction a as [|x a IH]; intros b a' b' H Ha Ha' Hb Hb'; destruct a' as [|y a']; cbn in H.
  - now split.
  - exfalso. destruct Hb as [Hb|[c [t [Hc Hb]]]]; rewrite Hb in H; [discriminate|]. injection H as -> _.
    specialize (Ha' _ Hc). cbn [has_char] in Ha'. rewrite Ascii.eqb_refl in Ha'. discriminate.
  - exfalso. destruct Hb' as [Hb'|[c [t [Hc Hb']]]]; rewrite Hb' in H; [discriminate|]. injection H as -> _.
    specialize (Ha _ Hc). cbn [has_char] in Ha. rewrite Ascii.eqb_refl in Ha. discriminate.
  - injection H as <- H. destruct (IH b a' b' H) as [-> ->]; try assumption; [| |now split].
    + intros c Hc. specialize (Ha c Hc). cbn [has_char] in Ha. apply orb_false_iff in Ha. tauto.
    + intros c Hc. specialize (Ha' c Hc). cbn [has_char] in Ha'. apply orb_false_iff in Ha'. tauto.
Qed.

Lemma split_last : forall c a b a' b', a ++ String c b = a' ++ String c b' ->
  has_char c b = false -> has_char c b' = false -> a = a' /\ b = b'.
Proof.
  intros c. induction a as [|x a IH]; intros b a' b' H Hb Hb'; destruct a' as [|y a']; cbn in H.
  - injection H as ->. now split.
  - injection H as <- ->. rewrite has_char_app in Hb. cbn [has_char] in Hb.
    rewrite Ascii.eqb_refl, orb_true_r in Hb. discriminate.
  - injection H as -> <-. rewrite has_char_app in Hb'. cbn [has_char] in Hb'.
    rewrite Ascii.eqb_refl, orb_true_r in Hb'. discriminate.
  - injection H as <- H. destruct (IH b a' b' H Hb Hb') as [-> ->]. now split.
Qed.

Lemma host_port_unique : forall text hp hp', host_port text hp -> host_port text hp' -> hp = hp'.
Proof.
  intros text hp hp' (s & a & t & E & Hs & Ha & Ht & Hh & Hn) (s' & a' & t' & E' & Hs' & Ha' & Ht' & Hh' & Hn').
  rewrite E in E'. cbn [append] in E'.
  destruct (split_first ":" s ("//" ++ a ++ t) s' ("//" ++ a' ++ t') E' Hs Hs') as [_ E2].
  cbn in E2. injection E2 as E2.
  destruct (auth_unique a t a' t' E2 Ha Ha' Ht Ht') as [-> _].
  destruct Hh as [Hh|[us Hh]]; destruct Hh' as [Hh'|[us' Hh']].
  - congruence.
  - subst hp. rewrite Hh' in Hn. rewrite has_char_app in Hn. cbn in Hn. rewrite orb_true_r in Hn. discriminate.
  - subst hp'. rewrite Hh in Hn'. rewrite has_char_app in Hn'. cbn in Hn'. rewrite orb_true_r in Hn'. discriminate.
  - rewrite Hh in Hh'. cbn in Hh'. destruct (split_last "@" _ _ _ _ Hh' Hn Hn') as [_ E3]. exact E3.
Qed.

Lemma host_port_server : forall u part, plain_server u -> ends_authority part ->
  host_port (url_string u ++ part) (u_host u ++ ":" ++ itoa (u_port u)).
Proof.
  intros u part [Hs Hh] Hp. exists (u_scheme u), (u_host u ++ ":" ++ itoa (u_port u)), part.
  assert (Hx : forall c, In c ("@" :: delims)%char -> has_char c (u_host u ++ ":" ++ itoa (u_port u)) = false).
  { intros c Hc. rewrite !has_char_app, (Hh c Hc). cbn [has_char orb].
    destruct Hc as [<-|[<-|[<-|[<-|[]]]]]; cbn [orb Ascii.eqb]; rewrite no_char_itoa by reflexivity; reflexivity. }
  split; [unfold url_string; now rewrite !append_assoc|]. split; [assumption|].
  split; [intros c Hc; apply Hx; now right|]. split; [assumption|]. split; [now left|].
  apply Hx. now left.
Qed.

Lemma steer_partial : forall r u uri hp,
  plain_server u -> (exists x, uri = "/" ++ x) -> (exists x, r_path r = "/" ++ x) ->
  r_transform r = "" \/ (exists x, r_transform r = "/" ++ x) ->
  (r_transform r = "/" -> safe_removal (r_path r) uri) ->
  (host_port (resolve_upstream_uri r u uri) hp <-> hp = u_host u ++ ":" ++ itoa (u_port u)).
Proof.
  intros r u uri hp Hu H1 H2 H3 H4. destruct (upstream_part r uri H1 H2 H3 H4) as [part [Hp E]].
  rewrite E. pose proof (host_port_server u part Hu Hp) as Hs. split.
  - intros H. exact (host_port_unique _ _ _ H Hs).
  - intros ->. exact Hs.
Qed.

(** ** Counterexamples *)

Definition ssrf_route : route := Route "/mse6" (re_compile "^/mse6") "/" "mse6" "" "".
Definition ssrf_url : url := Url "http" "localhost" 60083.

Lemma steer_refuted :
  plain_server ssrf_url /\ transform_ok ssrf_route = true /\
  match_uri ssrf_route "/mse6@evil.com/x" = true /\
  host_port (resolve_upstream_uri ssrf_route ssrf_url "/mse6@evil.com/x") "evil.com" /\
  "evil.com" <> u_host ssrf_url ++ ":" ++ itoa (u_port ssrf_url).
Proof.
  split; [split; [reflexivity | intros c H; destruct H as [<-|[<-|[<-|[<-|[]]]]]; reflexivity]|].
  split; [reflexivity|]. split; [vm_compute; reflexivity|]. split; [|discriminate].
  exists "http", "localhost:60083@evil.com", "/x". split; [vm_compute; reflexivity|]. split; [reflexivity|].
  split; [intros c [<-|[<-|[<-|[]]]]; reflexivity|].
  split; [right; exists "/"%char, "x"; split; [now left | reflexivity]|].
  split; [right; exists "localhost:60083"; reflexivity | reflexivity].
Qed.

Definition regex_route : route := Route "/v[0-9]" (re_compile "^/v[0-9]") "/api" "mse6" "" "".

Lemma transform_refuted :
  match_uri regex_route "/v1/x?next=/v[0-9]" = true /\
  resolve_upstream_uri regex_route ssrf_url "/v1/x?next=/v[0-9]" =
    "http://localhost:60083/v1/x?next=/api".
Proof. split; vm_compute; reflexivity. Qed.

Definition alt_route : route := Route "/a|/b" None "" "mse6" "" "".

Lemma lit_seq : forall p, literal p = true -> exists x, sequence x p /\ of_rx x = lit p.
Proof.
  intros p H. pose proof (compile_literal p H) as E. apply compile_only_written in E.
  destruct E as [x [Hx E]]. destruct Hx as [x s Hx|x y s t _ _]; [eauto|].
  destruct (s ++ "|" ++ t) as [|c u]; discriminate.
Qed.

Lemma alt_written : exists a b, sequence a "/a" /\ sequence b "/b" /\ written (XAlt a b) (r_path alt_route) /\
  (forall s, leads a s <-> exists t, s = "/a" ++ t) /\ (forall s, leads b s <-> exists t, s = "/b" ++ t) /\
  (forall s, found b s <-> exists u t, s = u ++ "/b" ++ t).
Proof.
  destruct (lit_seq "/a" eq_refl) as [a [Ha Ea]]. destruct (lit_seq "/b" eq_refl) as [b [Hb Eb]].
  exists a, b. split; [assumption|]. split; [assumption|].
  split; [exact (w_alt a b "/a" "/b" Ha (w_one _ _ Hb))|].
  split; [|split].
  - intros s. rewrite <- (leads_prefix a "/a" s (w_one _ _ Ha)), Ea. split.
    + intros (m & post & -> & M). apply lit_matches in M. subst m. now exists post.
    + intros (t & ->). exists "/a", t. split; [reflexivity | now apply lit_matches].
  - intros s. rewrite <- (leads_prefix b "/b" s (w_one _ _ Hb)), Eb. split.
    + intros (m & post & -> & M). apply lit_matches in M. subst m. now exists post.
    + intros (t & ->). exists "/b", t. split; [reflexivity | now apply lit_matches].
  - intros s. rewrite <- (found_occurs b "/b" s (w_one _ _ Hb)), Eb. split.
    + intros (pre & m & post & -> & M). apply lit_matches in M. subst m. now exists pre, post.
    + intros (u & t & ->). exists u, "/b", t. split; [reflexivity | now apply lit_matches].
Qed.

Lemma leads_alt : forall a b s, leads (XAlt a b) s <-> leads a s \/ leads b s.
Proof.
  intros a b s. unfold leads. cbn [means]. split.
  - intros (m & post & E & [H|H]); [left|right]; eauto.
  - intros [(m & post & E & H)|(m & post & E & H)]; eauto 6.
Qed.

Lemma leads_unique : forall x y p, written x p -> written y p -> forall s, leads x s <-> leads y s.
Proof.
  intros x y p Hx Hy s. rewrite <- (leads_prefix x p s Hx), <- (leads_prefix y p s Hy).
  apply compile_written in Hx, Hy. rewrite Hx in Hy. injection Hy as ->. reflexivity.
Qed.

Lemma alt_unanchored :
  route_matches alt_route "/x?q=/b" /\
  exists x, written x (r_path alt_route) /\ ~ leads x "/x?q=/b".
Proof.
  destruct alt_written as (a & b & Ha & Hb & Hw & La & Lb & Fb). split.
  - apply (alternation_route alt_route _ a b Hw). right. apply Fb. now exists "/x?q=", "".
  - exists (XAlt a b). split; [assumption|]. intros H. apply leads_alt in H.
    destruct H as [H|H]; [apply La in H | apply Lb in H]; destruct H as [t H]; discriminate.
Qed.

Definition star_route : route := Route "*/b" None "" "mse6" "" "".

Lemma star_unanchored : route_matches star_route "/x?q=/b" /\ (forall x, ~ written x (r_path star_route)).
Proof.
  destruct alt_written as (a & b & Ha & Hb & Hw & La & Lb & Fb). split.
  - apply (operator_route star_route _ "*" 0 None "/b" b eq_refl op_star (w_one _ _ Hb)).
    assert (F : found b "/x?q=/b") by (apply Fb; now exists "/x?q=", "").
    unfold loosely. cbn [Nat.eqb]. destruct b; try exact F. now elim (sequence_not_alt _ _ Hb b1 b2).
  - intros x H. assert (E : exists r, re_compile "*/b" = Some r) by (apply compiles_iff; eauto).
    destruct E as [r E]. vm_compute in E. discriminate.
Qed.

Lemma boot_route_cases : forall J jv srt (c c' : config J) r0, boot J jv srt c = Some c' -> In r0 (c_routes c) ->
  (exists x, written x (r_path r0)) \/
  exists o n h p x, r_path r0 = o ++ p /\ operator o n h /\ written x p.
Proof.
  intros J jv srt c c' r0 Hb Hin.
  assert (Hv : valid_config jv c) by (apply (boot_valid_iff J jv srt); rewrite Hb; discriminate).
  destruct Hv as [Hv _]. destruct (Hv r0 Hin) as [z Hz]. exact (route_cases r0 z Hz).
Qed.

Lemma written_by : forall p r, re_compile p = Some r -> (forall a b, r <> RAlt a b) ->
  exists x, written x p /\ forall a b, x <> XAlt a b.
Proof.
  intros p r H Hr. apply compile_only_written in H. destruct H as [x [Hx ->]]. exists x. split; [assumption|].
  intros a b ->. exact (Hr _ _ eq_refl).
Qed.

Lemma anchor_cases : (exists x, written x "/v[0-9]+/(x|y)" /\ forall a b, x <> XAlt a b) /\
  (exists a b, written (XAlt a b) "/a|/b") /\ operator "{2,3}" 2 (Some 3).
Proof.
  split; [|split].
  - destruct (re_compile "/v[0-9]+/(x|y)") as [r|] eqn:E; [|vm_compute in E; discriminate].
    apply (written_by _ r E). vm_compute in E. injection E as <-. discriminate.
  - destruct alt_written as (a & b & _ & _ & H & _). eauto.
  - apply op_count.
    + apply (count_range "2" 2 "3" 3); (split; [discriminate|]; split; [split; [split; vm_compute; discriminate | exact I]|];
        split; [discriminate | reflexivity]).
    + split; lia.
Qed.

(** * Sources of the configuration *)

Lemma load_file : forall J parse cfile env env' files files', cfile <> "" -> files cfile = files' cfile ->
  load J parse cfile env files = load J parse cfile env' files'.
Proof.
  intros J parse cfile env env' files files' H E. unfold load.
  destruct (String.eqb_spec cfile ""); [congruence|]. cbn [negb]. now rewrite E.
Qed.

Lemma load_env : forall J parse env files files', env <> "" ->
  load J parse "" env files = load J parse "" env files'.
Proof. intros J parse env files files' H. unfold load. destruct (String.eqb_spec env ""); [congruence | reflexivity]. Qed.

Lemma load_inv : forall J parse cfile env files c, load J parse cfile env files = Some c ->
  c_routes c <> [] /\
  ((cfile <> "" /\ exists s, files cfile = Some s /\ c = parse s) \/
   (cfile = "" /\ env <> "" /\ c = parse env) \/
   (cfile = "" /\ env = "" /\ exists s, files "j8acfg.yml" = Some s /\ c = parse s)).
Proof.
  intros J parse cfile env files c H. unfold load, bind, accept in H.
  assert (K : forall c0, (if config_ok c0 then Some c0 else None) = Some c -> c_routes c <> [] /\ c = c0).
  { intros c0 E. unfold config_ok in E. destruct (c_routes c0) eqn:R; [discriminate|]. injection E as <-. rewrite R. now split. }
  destruct (String.eqb_spec cfile "") as [E|E]; cbn [negb] in H.
  - destruct (String.eqb_spec env "") as [E1|E1]; cbn [negb] in H.
    + unfold default_config_file in H. destruct (files "j8acfg.yml") as [s|]; [|discriminate]. destruct (K _ H) as [K1 ->].
      split; [assumption|]. right. right. repeat split; auto. now exists s.
    + destruct (K _ H) as [K1 ->]. split; [assumption|]. right. left. now repeat split.
  - destruct (files cfile) as [s|]; [|discriminate]. destruct (K _ H) as [K1 ->].
    split; [assumption|]. left. split; [assumption|]. now exists s.
Qed.

Lemma write_longer : forall d, (0 <= d_roundtrip_timeout d)%Z -> (d_roundtrip_timeout d <= 9223372035)%Z ->
  roundtrip_duration d = (d_roundtrip_timeout d * 1000000000)%Z /\
  (roundtrip_duration d < write_timeout d)%Z.
Proof.
  intros d H1 H2. unfold roundtrip_duration, write_timeout, seconds.
  rewrite !wrap64_id by (unfold int64_min, int64_max; rewrite ?wrap64_id by (unfold int64_min, int64_max; lia); lia). lia.
Qed.

(** * An instance of the sorting contract *)

Fixpoint ins_route (r : route) (l : list route) : list route :=
  match l with
  | [] => [r]
  | a :: l' => if (String.length (r_path a) <=? String.length (r_path r))%nat then r :: l else a :: ins_route r l'
  end.
Definition isort_routes (l : list route) : list route := fold_right ins_route [] l.

Lemma isort_sorts : sorts_routes isort_routes.
Proof.
  assert (P : forall r l, Permutation (ins_route r l) (r :: l)).
  { intros r. induction l as [|a l IH]; cbn [ins_route]; [apply Permutation_refl|].
    destruct (_ <=? _)%nat; [apply Permutation_refl|].
    eapply perm_trans; [apply perm_skip, IH | apply perm_swap]. }
  assert (S : forall r l, StronglySorted (fun a b => String.length (r_path b) <= String.length (r_path a))%nat l ->
                          StronglySorted (fun a b => String.length (r_path b) <= String.length (r_path a))%nat (ins_route r l)).
  { intros r. induction l as [|a l IH]; intros H; cbn [ins_route]; [repeat constructor|].
    apply StronglySorted_inv in H. destruct H as [H Ha].
    destruct (Nat.leb_spec (String.length (r_path a)) (String.length (r_path r))).
    - constructor; [now constructor|]. constructor; [assumption|]. rewrite Forall_forall in *. intros x Hx.
      specialize (Ha x Hx). lia.
    - constructor; [now apply IH|]. apply (Permutation_Forall (Permutation_sym (P r l))).
      constructor; [lia | assumption]. }
  intros l. induction l as [|r l [IHP IHS]]; cbn [isort_routes fold_right]; [split; constructor|].
  split; [eapply perm_trans; [apply P | now apply perm_skip] | now apply S].
Qed.

(** * A small configuration *)

Definition demo_config : config unit :=
  Cfg [("ab", [LW "green" f64_tenth; LW "blue" f64_tenth])]
      [Route "/todos" None "" "todos" "ab" ""; Route "/todos/admin" None "/adm" "todos" "" "jwt1"; Route "/" None "" "todos" "" ""]
      [("jwt1", Some tt)]
      [("todos", Some [RM "" ["green"] (Url "" "localhost" 8081); RM "" ["blue"] (Url "xhttpsx" "localhost" 8082)])]
      (Down 0 30 0 0 "tls" 0 "" "") (Upst 0 0 0 0 4 false).

Definition demo_validate : string -> unit -> option unit := fun _ j => Some j.

Lemma no_slash_boot : forall srt, sorts_routes srt ->
  let c := with_routes [Route "todos" None "" "todos" "" ""] demo_config in
  exists c', boot unit demo_validate srt c = Some c' /\
    select_route (c_routes c') "/todos" = None /\ map r_path (c_routes c') = ["/todos"].
Proof.
  intros srt Hs c. destruct (boot unit demo_validate srt c) as [c'|] eqn:Hb.
  - exists c'. split; [reflexivity|]. split.
    + apply (select_none _ _ _ _ _ "/todos" Hs Hb). intros r0 [<-|[]].
      apply no_slash_never; [reflexivity | discriminate | intros t H; discriminate | now exists "todos"].
    + destruct (boot_inv _ _ _ _ _ Hb) as [jm [rs [_ [E2 [_ [_ ->]]]]]]. vm_compute in E2. injection E2 as <-.
      cbn [c_routes]. destruct (Hs (map (fun r => with_path (add_slash (r_path r)) r)
        [with_regex (RCat RBol (RCat (chr "t") (RCat (chr "o") (RCat (chr "d") (RCat (chr "o") (RCat (chr "s") REps)))))) (Route "todos" None "" "todos" "" "")])) as [HP _].
      apply Permutation_sym in HP. cbn [map] in HP. apply Permutation_length_1_inv in HP.
      change (map _ [_]) with [with_path (add_slash (r_path (Route "todos" None "" "todos" "" "")))
        (with_regex (RCat RBol (RCat (chr "t") (RCat (chr "o") (RCat (chr "d") (RCat (chr "o") (RCat (chr "s") REps)))))) (Route "todos" None "" "todos" "" ""))].
      cbn [map]. etransitivity; [apply f_equal; exact HP|]. reflexivity.
  - exfalso. assert (H : boot unit demo_validate srt c <> None); [|congruence].
    apply boot_valid_iff. repeat split.
    + intros r [<-|[]]. vm_compute. discriminate.
    + intros r [<-|[]]. now left.
    + intros r [<-|[]]. now left.
    + intros name j [H|[]]. injection H as <- <-. exists tt. split; [reflexivity | discriminate].
Qed.

Lemma boot_down_filled : forall J jv srt (c c' : config J), boot J jv srt c = Some c' ->
  let d := c_down c in let d' := c_down c' in
  filled (d_read_timeout d) 120 (d_read_timeout d') /\
  filled (d_roundtrip_timeout d) 240 (d_roundtrip_timeout d') /\
  filled (d_idle_timeout d) 120 (d_idle_timeout d') /\
  filled (d_max_body d) 2097152 (d_max_body d') /\
  d_mode d' = (if String.eqb (d_mode d) "" then "HTTP" else to_upper (d_mode d)) /\
  filled (d_port d) (if String.eqb (to_upper (d_mode d)) "TLS" then 443 else 8080) (d_port d') /\
  d_cert d' = d_cert d /\ d_key d' = d_key d.
Proof.
  intros J jv srt c c' H. destruct (boot_connection _ _ _ _ _ H) as [E _]. cbv zeta. rewrite E. apply down_filled.
Qed.

Lemma boot_up_filled : forall J jv srt (c c' : config J), boot J jv srt c = Some c' ->
  let u := c_up c in let u' := c_up c' in
  filled (up_pool u) 32768 (up_pool u') /\ filled (up_idle_timeout u) 120 (up_idle_timeout u') /\
  filled (up_socket_timeout u) 3 (up_socket_timeout u') /\ filled (up_read_timeout u) 120 (up_read_timeout u') /\
  filled (up_max_attempts u) 1 (up_max_attempts u') /\ up_skip_verify u' = up_skip_verify u.
Proof.
  intros J jv srt c c' H. destruct (boot_connection _ _ _ _ _ H) as [_ E]. cbv zeta. rewrite E. apply up_filled.
Qed.

Lemma defaults_idem : forall J (c : config J),
  set_default_down (set_default_down c) = set_default_down c /\ set_default_up (set_default_up c) = set_default_up c.
Proof.
  intros J c. unfold set_default_down, set_default_up. cbn [c_policies c_routes c_jwt c_resources c_down c_up].
  now rewrite default_down_idem, default_up_idem.
Qed.

Lemma boot_schemes_spec : forall J jv srt (c c' : config J) name ms',
  boot J jv srt c = Some c' -> lookup name (c_resources c') = Some (Some ms') ->
  exists ms, lookup name (c_resources c) = Some (Some ms) /\
    Forall2 (fun m m' =>
      let s := u_scheme (rm_url m) in let s' := u_scheme (rm_url m') in
      (known_scheme s -> s' = "http" \/ s' = "https") /\
      (known_scheme s -> (s' = "https" <-> exists a b, s = a ++ "https" ++ b)) /\
      (~ known_scheme s -> s' = s) /\
      rm_labels m' = rm_labels m /\ rm_name m' = name /\
      u_host (rm_url m') = u_host (rm_url m) /\ u_port (rm_url m') = u_port (rm_url m)) ms ms'.
Proof.
  intros J jv srt c c' name ms' Hb Hl. destruct (boot_schemes _ _ _ _ _ _ _ Hb Hl) as [ms [H1 H2]].
  exists ms. split; [assumption|]. clear - H2. induction H2 as [|m m' ms ms' H H2 IH]; constructor; [|assumption].
  destruct H as (A & B & C & D & E). cbv zeta. rewrite E.
  destruct (norm_scheme_spec (u_scheme (rm_url m))) as (N1 & N2 & N3 & _). repeat split; try assumption; now apply N2.
Qed.

Lemma schemes_idem : forall J (c : config J), reapply_schemes (reapply_schemes c) = reapply_schemes c.
Proof.
  intros J c. unfold reapply_schemes, with_resources. cbn [c_policies c_routes c_jwt c_resources c_down c_up].
  f_equal. rewrite map_map. apply map_ext. intros [k [ms|]]; [|reflexivity]. cbn [fst snd option_map].
  f_equal. f_equal. rewrite map_map. apply map_ext. intros m. cbn [rm_url rm_name rm_labels u_scheme u_host u_port].
  now rewrite (proj2 (proj2 (proj2 (norm_scheme_spec (u_scheme (rm_url m)))))).
Qed.

Lemma default_policy_lost : exists (c c' : config unit) (p : fpolicy),
  boot unit demo_validate isort_routes c = Some c' /\
  lookup "default" (c_policies c) = Some p /\ lookup "default" (c_policies c') <> Some p.
Proof.
  exists (Cfg [("default", [LW "green" f64_one])] (c_routes demo_config) (c_jwt demo_config)
              (c_resources demo_config) (c_down demo_config) (c_up demo_config)).
  eexists. exists [LW "green" f64_one]. split; [vm_compute; reflexivity|]. split; [reflexivity | discriminate].
Qed.

Lemma policies_kept : forall J jv srt (c c' : config J) name, boot J jv srt c = Some c' ->
  (name <> "default" -> lookup name (c_policies c') = lookup name (c_policies c)) /\
  exists w, lookup "default" (c_policies c') = Some [LW "default" w] /\ w = f64_one.
Proof.
  intros J jv srt c c' name H. rewrite (boot_policies _ _ _ _ _ H). split.
  - intros Hn. rewrite lookup_insert. destruct (String.eqb_spec "default" name); [congruence | reflexivity].
  - exists f64_one. rewrite lookup_insert. now split.
Qed.

Lemma transform_literal : forall J jv srt (c c' : config J) r r0 u uri,
  sorts_routes srt -> boot J jv srt c = Some c' -> In r (c_routes c') -> In r0 (c_routes c) ->
  booted_from r0 r -> literal (r_path r0) = true -> (exists x, r_path r0 = "/" ++ x) ->
  r_transform r0 <> "" -> match_uri r uri = true ->
  exists rest, uri = r_path r0 ++ rest /\
    resolve_upstream_uri r u uri =
    u_scheme u ++ "://" ++ u_host u ++ ":" ++ itoa (u_port u) ++
    (if String.eqb (r_transform r0) "/" then "" else r_transform r0) ++ rest.
Proof.
  intros J jv srt c c' r r0 u uri Hs Hb Hr H0 Hbf Hl Hsl Ht Hm.
  apply (literal_route _ _ _ _ _ _ _ Hs Hb Hr r0 H0 Hbf Hl) in Hm. destruct Hm as [rest ->].
  exists rest. split; [reflexivity|]. destruct Hbf as (Hp & Htr & _).
  assert (E : slashed (r_path r0) = r_path r0) by (destruct Hsl as [x ->]; reflexivity).
  rewrite E in Hp. rewrite <- Hp, <- Htr in *. rewrite resolve_transform by assumption.
  unfold url_string. now rewrite !append_assoc.
Qed.
