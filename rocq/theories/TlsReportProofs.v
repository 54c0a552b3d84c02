(** Proofs for the claims about the report (C86). *)
From Coq Require Import String List Bool ZArith NArith Lia Arith.
From Verif Require Import GoStr Tls TlsSpec TlsProofs TlsReport TlsReportSpec.
Import ListNotations.
Local Open Scope Z_scope.

Lemma entries_nth : forall links n i es, entries n i links = Some es ->
  length es = length links /\
  forall j l, nth_error links j = Some l -> exists e, nth_error es j = Some e /\ entry_of n (i + j) l = Some e.
Proof.
  induction links as [|l links IH]; intros n i es H; cbn [entries] in H.
  - injection H as <-. split; [reflexivity|]. intros [|j] l H; discriminate.
  - destruct (entry_of n i l) as [e|] eqn:E; [|discriminate]. destruct (entries n (S i) links) as [es'|] eqn:F; [|discriminate].
    injection H as <-. destruct (IH _ _ _ F) as [H1 H2]. split; [cbn; now rewrite H1|].
    intros [|j] m H; cbn [nth_error] in *.
    + injection H as <-. exists e. split; [reflexivity|]. now rewrite Nat.add_0_r.
    + destruct (H2 j m H) as [e' [E1 E2]]. exists e'. split; [exact E1|]. now rewrite Nat.add_succ_r.
Qed.

Lemma report_levels : forall links, option_map snd (report links) = log_cert_stats links.
Proof.
  intros links. unfold report, log_cert_stats.
  assert (H : forall n i, match entries n i links with Some _ => true | None => false end =
    forallb (fun l => match format_serial (ct_serial (lk_cert l)) with Some _ => true | None => false end) links).
  { induction links as [|l links IH]; intros n i; [reflexivity|]. cbn [entries forallb]. rewrite <- (IH n (S i)). unfold entry_of.
    destruct (format_serial (ct_serial (lk_cert l))); [|reflexivity]. destruct (entries n (S i) links); reflexivity. }
  rewrite <- (H (length links) 0%nat). destruct (entries (length links) 0 links); reflexivity.
Qed.

(** What is known of a paragraph. *)
Lemma about_inv : forall chain i c now e, about chain i c now e -> exists links l,
  parse_tls_links chain = Some links /\ nth_error links i = Some l /\ (lk_earliest l = true <-> flagged_at links i) /\
  lk_cert l = c /\ lk_remaining l = time_sub (ct_not_after c) now /\ lk_total l = time_sub (ct_not_after c) (ct_not_before c) /\
  lk_browser l = time_sub (ct_not_before c + browser_expiry) now /\ lk_ca l = ct_ca c /\ entry_of (length chain) i l = Some e.
Proof.
  intros chain i c now e (links & es & levels & H1 & H2 & H3 & H4).
  assert (Hne : chain <> []) by (intros ->; destruct i; discriminate).
  destruct (parse_links_spec chain Hne) as (links' & k & P1 & P2 & P3 & _). rewrite H1 in P1. injection P1 as <-.
  assert (HL : length links = length chain).
  { assert (L1 : (length links <= length chain)%nat).
    { destruct (le_gt_dec (length links) (length chain)) as [|G]; [assumption|].
      exfalso. assert (X : nth_error links (length chain) <> None) by now apply nth_error_Some.
      apply X. rewrite P2. replace (nth_error (map new_link chain) (length chain)) with (@None link); [now destruct (Nat.eqb k (length chain))|].
      symmetry. apply nth_error_None. now rewrite map_length. }
    assert (L2 : (length chain <= length links)%nat).
    { destruct (le_gt_dec (length chain) (length links)) as [|G]; [assumption|].
      exfalso. assert (X : nth_error (map new_link chain) (length links) <> None) by (apply nth_error_Some; now rewrite map_length).
      apply X. assert (Y : nth_error links (length links) = None) by now apply nth_error_None. rewrite P2 in Y.
      destruct (Nat.eqb k (length links)); [|exact Y]. destruct (nth_error (map new_link chain) (length links)); [discriminate|reflexivity]. }
    lia. }
  unfold report in H2. destruct (entries (length links) 0 links) as [es'|] eqn:E; [|discriminate]. injection H2 as <- _.
  destruct (entries_nth _ _ _ _ E) as [_ E2].
  assert (HX : exists l, nth_error links i = Some l /\ (l = new_link (c, now) \/ l = flag_link (new_link (c, now)))).
  { rewrite P2, nth_error_map, H3. destruct (Nat.eqb k i); cbn [option_map]; eexists; split; try reflexivity; [right|left]; reflexivity. }
  destruct HX as (l & L1 & L2). destruct (E2 i l L1) as (e' & X1 & X2). rewrite H4 in X1. injection X1 as <-.
  cbn [Nat.add] in X2. rewrite HL in X2. exists links, l.
  split; [exact H1|]. split; [exact L1|]. split.
  { unfold flagged_at. split; [intros F; now exists l|]. intros (m & M1 & M2). rewrite L1 in M1. now injection M1 as <-. }
  destruct L2 as [-> | ->]; cbn [new_link flag_link lk_cert lk_remaining lk_total lk_browser lk_ca] in *; auto 10.
Qed.

Lemma range_sub : forall a b, in_range (a - b) -> time_sub a b = a - b.
Proof. intros a b H. unfold in_range in H. unfold time_sub, int64_min, int64_max. change (2 ^ 63) with 9223372036854775808 in H. lia. Qed.

Lemma entry_leaf : forall n i l e, entry_of n i l = Some e -> lk_ca l = false ->
  en_kind e = Site (ct_dns (lk_cert l)) (ct_not_before (lk_cert l)) (cn (ct_issuer (lk_cert l))) (lk_earliest l) (remarks_of l).
Proof. intros n i l e H C. unfold entry_of in H. destruct (format_serial _); [|discriminate]. injection H as <-. rewrite C. reflexivity. Qed.

Lemma entry_ca : forall n i l e, entry_of n i l = Some e -> lk_ca l = true ->
  en_kind e = Authority (is_root (lk_cert l)) (cn (ct_subject (lk_cert l))) (cn (ct_issuer (lk_cert l))).
Proof. intros n i l e H C. unfold entry_of in H. destruct (format_serial _); [|discriminate]. injection H as <-. rewrite C. reflexivity. Qed.

Lemma expiry_limit : browser_expiry = browser_limit.
Proof. reflexivity. Qed.

(** Too long a validity is pointed out exactly when it is one. *)
Lemma limit_said : forall chain i c now e days max, about chain i c now e -> in_range (ct_not_after c - ct_not_before c) ->
  (said e (AboveMax days max) <-> ct_ca c = false /\ too_long c /\ max = 398 /\ days * one_day <= ct_not_after c - ct_not_before c < (days + 1) * one_day).
Proof.
  intros chain i c now e days max H R. destruct (about_inv _ _ _ _ _ H) as (links & l & _ & _ & _ & Hc & _ & Ht & _ & Ha & He).
  rewrite (range_sub _ _ R) in Ht. unfold said. destruct (ct_ca c) eqn:C.
  - rewrite (entry_ca _ _ _ _ He Ha). split; [contradiction|]. intros [X _]. discriminate.
  - rewrite (entry_leaf _ _ _ _ He Ha). unfold remarks_of, too_long. rewrite Ht, expiry_limit.
    set (t := ct_not_after c - ct_not_before c). split.
    + intros X. apply in_app_or in X as [X|X].
      * destruct (Z.ltb_spec browser_limit t) as [L|L]; [|destruct X]. destruct X as [X|[]]. injection X as <- <-.
        split; [reflexivity|]. split; [exact L|]. split; [reflexivity|].
        unfold as_days, day. unfold browser_limit, one_day in L. rewrite Z.quot_div_nonneg by lia. unfold one_day.
        pose proof (Z.div_mod t 86400000000000 ltac:(lia)). pose proof (Z.mod_pos_bound t 86400000000000 ltac:(lia)). lia.
      * destruct X as [X|[]]. destruct (Z.ltb 0 (lk_browser l)); discriminate X.
    + intros (_ & L & -> & D). apply in_or_app. left. apply Z.ltb_lt in L as L'. rewrite L'. left.
      f_equal. unfold as_days, day. unfold browser_limit, one_day in *. rewrite Z.quot_div_nonneg by lia.
      symmetry. apply (Z.div_unique t 86400000000000 days (t - 86400000000000 * days)); lia.
Qed.

(** When the disruption is due, for certificates valid for too long. *)
Lemma disruption_said : forall chain i c now e, about chain i c now e -> ct_ca c = false -> too_long c ->
  in_range (ct_not_before c + browser_limit - now) ->
  (forall left, said e (Disruption left) <-> now < disrupted_at c /\ left = disrupted_at c - now) /\
  (forall since, said e (GraceExpired since) <-> disrupted_at c <= now /\ since = disrupted_at c - now).
Proof.
  intros chain i c now e H C L R. destruct (about_inv _ _ _ _ _ H) as (links & l & _ & _ & _ & Hc & _ & Ht & Hb & Ha & He).
  rewrite expiry_limit, (range_sub _ _ R) in Hb. rewrite C in Ha.
  assert (D : disrupted_at c = ct_not_before c + browser_limit) by (unfold disrupted_at, too_long in *; lia). rewrite D.
  unfold said. rewrite (entry_leaf _ _ _ _ He Ha). unfold remarks_of. rewrite Hb.
  assert (No : forall r, (forall d m, r <> AboveMax d m) ->
    (In r ((if browser_expiry <? lk_total l then [AboveMax (as_days (lk_total l)) (as_days browser_expiry)] else []) ++
      [if 0 <? ct_not_before c + browser_limit - now then Disruption (ct_not_before c + browser_limit - now) else GraceExpired (ct_not_before c + browser_limit - now)])%list <->
     (if 0 <? ct_not_before c + browser_limit - now then Disruption (ct_not_before c + browser_limit - now) else GraceExpired (ct_not_before c + browser_limit - now)) = r)).
  { intros r Hr. split.
    - intros X. apply in_app_or in X as [X|X].
      + destruct (browser_expiry <? lk_total l); [|destruct X]. destruct X as [X|[]]. subst r. exfalso. eapply Hr. reflexivity.
      + destruct X as [X|[]]. exact X.
    - intros X. apply in_or_app. right. left. exact X. }
  split; intros d; rewrite No by discriminate; destruct (Z.ltb_spec 0 (ct_not_before c + browser_limit - now)) as [G|G].
  - split; [intros X; injection X as <-; lia|intros [_ ->]; reflexivity].
  - split; [discriminate|lia].
  - split; [discriminate|lia].
  - split; [intros X; injection X as <-; lia|intros [_ ->]; reflexivity].
Qed.

(** Every certificate that is no authority gets one of the two sentences, whatever its validity. *)
Lemma always_said : forall chain i c now e, about chain i c now e -> ct_ca c = false -> in_range (ct_not_before c + browser_limit - now) ->
  if 0 <? ct_not_before c + browser_limit - now then said e (Disruption (ct_not_before c + browser_limit - now))
  else said e (GraceExpired (ct_not_before c + browser_limit - now)).
Proof.
  intros chain i c now e H C R. destruct (about_inv _ _ _ _ _ H) as (links & l & _ & _ & _ & Hc & _ & Ht & Hb & Ha & He).
  rewrite expiry_limit, (range_sub _ _ R) in Hb. rewrite C in Ha.
  unfold said. rewrite (entry_leaf _ _ _ _ He Ha). unfold remarks_of. rewrite Hb.
  destruct (0 <? ct_not_before c + browser_limit - now); apply in_or_app; right; left; reflexivity.
Qed.

(** The mark for the earliest certificate, if that is no authority. *)
Lemma earliest_said : forall chain i c now e, about chain i c now e ->
  (called_earliest e <-> ct_ca c = false /\ exists links, parse_tls_links chain = Some links /\ earliest_at links i).
Proof.
  intros chain i c now e H. destruct (about_inv _ _ _ _ _ H) as (links & l & Hl & Hi & Hf & Hc & Hr & Ht & Hb & Ha & He).
  assert (Hne : chain <> []). { intros ->. destruct H as (? & ? & ? & _ & _ & H & _). destruct i; discriminate. }
  destruct (earliest_flagged chain Hne) as (links' & k & E1 & E2 & E3 & E4). rewrite Hl in E1. injection E1 as <-.
  assert (U : forall a b, earliest_at links a -> earliest_at links b -> a = b).
  { intros a b (la & A1 & A2 & A3) (lb & B1 & B2 & B3). destruct (lt_eq_lt_dec a b) as [[G|G]|G]; [|exact G|]; exfalso.
    - specialize (B3 a la A1 G). specialize (A2 b lb B1). lia.
    - specialize (A3 b lb B1 G). specialize (B2 a la A1). lia. }
  unfold called_earliest. destruct (ct_ca c) eqn:C.
  - rewrite (entry_ca _ _ _ _ He Ha). split; [contradiction|]. intros [X _]. discriminate.
  - rewrite (entry_leaf _ _ _ _ He Ha). rewrite Hf, E4. split.
    + intros ->. split; [reflexivity|]. now exists links.
    + intros [_ (links' & L1 & L2)]. rewrite Hl in L1. injection L1 as <-. exact (U _ _ L2 E3).
Qed.

(** The rest of the paragraph. *)
Lemma paragraph : forall chain i c now e, about chain i c now e ->
  en_pos e = S i /\ en_of e = length chain /\ format_serial (ct_serial c) = Some (en_serial e) /\
  (in_range (ct_not_after c - now) -> en_remaining e = ct_not_after c - now) /\
  (ct_ca c = false -> exists m rs, en_kind e = Site (ct_dns c) (ct_not_before c) (cn (ct_issuer c)) m rs) /\
  (ct_ca c = true -> exists root, en_kind e = Authority root (cn (ct_subject c)) (cn (ct_issuer c)) /\ (root = true <-> cn (ct_issuer c) = cn (ct_subject c))).
Proof.
  intros chain i c now e H. destruct (about_inv _ _ _ _ _ H) as (links & l & Hl & Hi & Hf & Hc & Hr & Ht & Hb & Ha & He).
  assert (P : en_pos e = S i /\ en_of e = length chain /\ format_serial (ct_serial c) = Some (en_serial e) /\ en_remaining e = lk_remaining l).
  { unfold entry_of in He. rewrite Hc in He. destruct (format_serial (ct_serial c)) as [s|]; [|discriminate]. injection He as <-. cbn [en_pos en_of en_serial en_remaining].
    rewrite Nat.add_1_r. auto. }
  destruct P as (P1 & P2 & P3 & P4). split; [exact P1|]. split; [exact P2|]. split; [exact P3|]. split.
  { intros R. rewrite P4, Hr. now apply range_sub. }
  split; intros C; rewrite C in Ha.
  - rewrite (entry_leaf _ _ _ _ He Ha), Hc. eauto.
  - rewrite (entry_ca _ _ _ _ He Ha), Hc. eexists. split; [reflexivity|]. unfold is_root. rewrite C. cbn [andb].
    destruct (String.eqb_spec (cn (ct_issuer c)) (cn (ct_subject c))); split; congruence.
Qed.

(** * Cases *)

Local Open Scope string_scope.
Definition leaf (serial : N) (from days : Z) : cert :=
  Cert serial false (Name "Inter" "") (Name "site.example" "") ["site.example"] (from * day) ((from + days) * day).
Definition authority (serial : N) (subject issuer : string) (from days : Z) : cert :=
  Cert serial true (Name issuer "") (Name subject "") [] (from * day) ((from + days) * day).

(** A certificate for 90 days, on day 80, the authorities being valid for years. *)
Definition chain_90 : list (cert * Z) :=
  map (fun c => (c, (80 * day)%Z)) [leaf 4660 0 90; authority 4661 "Inter" "Root" 0 3000; authority 4662 "Root" "Root" 0 7000].

Lemma disruption_refuted : exists chain i c now e left, about chain i c now e /\ ct_ca c = false /\ ~ too_long c /\
  (now < ct_not_after c < now + left)%Z /\ said e (Disruption left).
Proof.
  exists chain_90, 0%nat, (leaf 4660 0 90), (80 * day)%Z. eexists _, (318 * day)%Z. split; [|split; [|split; [|split]]].
  - eexists _, _, _. split; [vm_compute; reflexivity|]. split; [vm_compute; reflexivity|]. split; [reflexivity|]. vm_compute. reflexivity.
  - reflexivity.
  - vm_compute. discriminate.
  - vm_compute. split; reflexivity.
  - left. vm_compute. reflexivity.
Qed.

(** An authority that expires first: a warning is logged, and no certificate is called the earliest. *)
Definition chain_ca : list (cert * Z) :=
  map (fun c => (c, (980 * day)%Z)) [leaf 4660 900 90; authority 4661 "Inter" "Root" 0 985; authority 4662 "Root" "Root" 0 7000].

Lemma earliest_refuted : exists chain links es, parse_tls_links chain = Some links /\ report links = Some (es, [Warn]) /\
  ~ exists i e, nth_error es i = Some e /\ called_earliest e.
Proof.
  exists chain_ca. eexists _, _. split; [vm_compute; reflexivity|]. split; [vm_compute; reflexivity|].
  intros (i & e & H & M). destruct i as [|[|[|i]]]; cbn [nth_error] in H; try (injection H as <-; vm_compute in M; try discriminate M; contradiction).
  destruct i; discriminate H.
Qed.

(** A certificate without a proper end (31 December 9999): the days said are those of the longest
    duration. *)
Lemma days_refuted : exists chain i c now e, about chain i c now e /\ said e (AboveMax 106751 398) /\ (2913000 * one_day <= ct_not_after c - ct_not_before c)%Z.
Proof.
  exists [(leaf 4660 20000 2913000, (20100 * day)%Z)], 0%nat, (leaf 4660 20000 2913000), (20100 * day)%Z. eexists. split; [|split].
  - eexists _, _, _. split; [vm_compute; reflexivity|]. split; [vm_compute; reflexivity|]. split; [reflexivity|]. vm_compute. reflexivity.
  - left. vm_compute. reflexivity.
  - vm_compute. discriminate.
Qed.
