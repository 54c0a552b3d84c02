From Coq Require Import String Ascii List Bool NArith Arith Lia.
From Verif Require Import GoStr Regex RegexSpec RegexProofs Iprex IprexSpec.
Import ListNotations.
Local Open Scope string_scope.

Lemma patterns_compile :
  re_compile pat_ipv64e = Some re_ipv64e /\ re_compile pat_ipv6s = Some re_ipv6s /\
  re_compile pat_ipv6 = Some re_ipv6 /\ re_compile pat_ipv4 = Some re_ipv4.
Proof. repeat split; vm_compute; reflexivity. Qed.

(* ------------------------------------------------------------------ *)
(** * Soundness *)

Lemma extract_cases : forall msg,
  (exists r, In r [re_ipv64e; re_ipv6s; re_ipv6; re_ipv4] /\ find r msg = Some (extract_addr msg)) \/
  (extract_addr msg = "not found" /\
   forall r, In r [re_ipv64e; re_ipv6s; re_ipv6; re_ipv4] -> find r msg = None).
Proof.
  intros msg. unfold extract_addr.
  destruct (find re_ipv64e msg) eqn:E1; [left; exists re_ipv64e; cbn [In]; tauto|].
  destruct (find re_ipv6s msg) eqn:E2; [left; exists re_ipv6s; cbn [In]; tauto|].
  destruct (find re_ipv6 msg) eqn:E3; [left; exists re_ipv6; cbn [In]; tauto|].
  destruct (find re_ipv4 msg) eqn:E4; [left; exists re_ipv4; cbn [In]; tauto|].
  right. split; [reflexivity|]. intros r [<-|[<-|[<-|[<-|[]]]]]; assumption.
Qed.

(* ------------------------------------------------------------------ *)
(** * Finite automata over matches

    [sim] computes all states an automaton can be in after reading any match of an expression. *)

Section Automaton.
  Variable delta : nat -> ascii -> nat.
  Variable n : nat.
  Hypothesis delta_lt : forall q c, q < n -> delta q c < n.

  Fixpoint run (q : nat) (s : string) : nat :=
    match s with
    | EmptyString => q
    | String c s' => run (delta q c) s'
    end.

  Lemma run_app : forall a b q, run q (a ++ b) = run (run q a) b.
  Proof. induction a as [|c a IH]; intros b q; cbn; auto. Qed.

  Lemma run_lt : forall s q, q < n -> run q s < n.
  Proof. induction s as [|c s IH]; intros q H; cbn; auto. Qed.

  Definition all_ascii : list ascii := map ascii_of_nat (seq 0 256).

  Lemma all_ascii_in : forall c, In c all_ascii.
  Proof.
    intros c. unfold all_ascii. apply in_map_iff. exists (nat_of_ascii c). split.
    - apply ascii_nat_embedding.
    - apply in_seq. pose proof (nat_ascii_bounded c). lia.
  Qed.

  Definition dedup := nodup Nat.eq_dec.

  Fixpoint iter_union (k : nat) (f : list nat -> list nat) (Q : list nat) : list nat :=
    match k with
    | O => Q
    | S k' => iter_union k' f (dedup (Q ++ f Q))
    end.

  Definition incl_b (a b : list nat) : bool := forallb (fun x => existsb (Nat.eqb x) b) a.

  Lemma incl_b_spec : forall a b, incl_b a b = true -> incl a b.
  Proof.
    intros a b H x Hx. unfold incl_b in H. rewrite forallb_forall in H. apply H in Hx.
    apply existsb_exists in Hx. destruct Hx as [y [Hy E]]. apply Nat.eqb_eq in E. now subst.
  Qed.

  Fixpoint sim (r : re) (Q : list nat) : list nat :=
    match r with
    | REps | RBol | REol => Q
    | RCls neg rs =>
        let cs := filter (cls_match neg rs) all_ascii in
        dedup (flat_map (fun q => map (delta q) cs) Q)
    | RCat a b => sim b (sim a Q)
    | RAlt a b => dedup (sim a Q ++ sim b Q)
    | RStar a =>
        let Q' := iter_union n (sim a) Q in
        if incl_b (sim a Q') Q' then Q' else seq 0 n
    end.

  Lemma iter_union_incl : forall k f Q, incl Q (iter_union k f Q).
  Proof.
    induction k as [|k IH]; intros f Q; cbn [iter_union]; [apply incl_refl|].
    intros x Hx. apply IH. apply nodup_In. apply in_or_app. now left.
  Qed.

  Lemma star_run : forall a Q,
    (forall pre m post q, Matches a pre m post -> In q Q -> q < n -> In (run q m) Q) ->
    forall pre m post q, Matches (RStar a) pre m post -> In q Q -> q < n -> In (run q m) Q.
  Proof.
    intros a Q Ha pre m post q H. remember (RStar a) as r eqn:Er. revert q.
    induction H; try discriminate; intros q Hq Hn; inversion Er; subst.
    - exact Hq.
    - rewrite run_app. apply IHMatches2; [reflexivity | eapply Ha; eassumption | now apply run_lt].
  Qed.

  Lemma sim_sound : forall r pre m post Q q,
    Matches r pre m post -> In q Q -> q < n -> In (run q m) (sim r Q).
  Proof.
    induction r as [|neg rs|a IHa b IHb|a IHa b IHb|a IHa| |]; intros pre m post Q q H Hq Hn.
    - inversion H; subst. exact Hq.
    - apply inv_cls in H. destruct H as [c [-> Hc]]. cbn [run sim]. apply nodup_In.
      apply in_flat_map. exists q. split; [assumption|]. apply in_map_iff. exists c.
      split; [reflexivity|]. apply filter_In. split; [apply all_ascii_in | assumption].
    - apply inv_cat in H. destruct H as [x [y [-> [Hx Hy]]]]. rewrite run_app. cbn [sim].
      eapply IHb; [exact Hy | eapply IHa; eassumption | now apply run_lt].
    - cbn [sim]. apply nodup_In. apply in_or_app. inversion H; subst; eauto.
    - cbn [sim]. destruct (incl_b _ _) eqn:E.
      + apply incl_b_spec in E. eapply star_run; [|exact H|apply iter_union_incl; exact Hq|exact Hn].
        intros pre' m' post' q' Hm' Hq' Hn'. apply E. eapply IHa; eassumption.
      + apply in_seq. pose proof (run_lt m q Hn). lia.
    - inversion H; subst. exact Hq.
    - inversion H; subst. exact Hq.
  Qed.

  (** If every state after a match is the absorbing state [bad], then a text that contains a match
      ends up in [bad]. *)
  Lemma occurs_bad : forall r bad s,
    (forall c, delta bad c = bad) ->
    forallb (Nat.eqb bad) (sim r (seq 0 n)) = true ->
    0 < n -> Occurs r s -> run 0 s = bad.
  Proof.
    intros r bad s Habs Hs Hn [pre [m [post [-> Hm]]]].
    rewrite !run_app.
    assert (E : run (run 0 pre) m = bad).
    { rewrite forallb_forall in Hs. symmetry. apply Nat.eqb_eq. apply Hs.
      eapply sim_sound; [exact Hm | | now apply run_lt].
      apply in_seq. pose proof (run_lt pre 0 Hn). lia. }
    rewrite E. clear - Habs. induction post as [|c post IH]; cbn; [reflexivity | now rewrite Habs].
  Qed.
End Automaton.

Lemma find_none_of : forall r s, ~ Occurs r s -> find r s = None.
Proof.
  intros r s H. destruct (find r s) as [m|] eqn:E; [|reflexivity].
  exfalso. apply H. apply match_string_spec. unfold match_string. now rewrite E.
Qed.

(** ** First characters *)

Definition d_first (P : ascii -> bool) (q : nat) (c : ascii) : nat :=
  match q with 0 => if P c then 1 else 2 | 1 => 1 | _ => 2 end.

Lemma d_first_lt : forall P q c, q < 3 -> d_first P q c < 3.
Proof. intros P [|[|q]] c H; cbn; [destruct (P c)|..]; lia. Qed.

Lemma first_char : forall P r pre m post,
  forallb (Nat.eqb 1) (sim (d_first P) 3 r [0]) = true -> Matches r pre m post ->
  exists c m', m = String c m' /\ P c = true.
Proof.
  intros P r pre m post Hs Hm.
  assert (E : In (run (d_first P) 0 m) (sim (d_first P) 3 r [0])).
  { eapply sim_sound; [apply d_first_lt | exact Hm | now left | lia]. }
  rewrite forallb_forall in Hs. apply Hs in E. apply Nat.eqb_eq in E.
  destruct m as [|c m]; cbn in E; [discriminate|].
  destruct (P c) eqn:Ec; [now exists c, m|].
  exfalso. clear - E. induction m as [|d m IH]; cbn in E; [discriminate | auto].
Qed.

(** ** Forbidden characters *)

Definition d_avoid (P : ascii -> bool) (q : nat) (c : ascii) : nat :=
  match q with 0 => if P c then 1 else 0 | _ => 1 end.

Lemma d_avoid_lt : forall P q c, q < 2 -> d_avoid P q c < 2.
Proof. intros P [|q] c H; cbn; [destruct (P c)|]; lia. Qed.

Lemma avoid_run : forall P s, run (d_avoid P) 0 s = 0 -> all_chars (fun c => negb (P c)) s = true.
Proof.
  intros P. induction s as [|c s IH]; intros H; [reflexivity|]. cbn in H |- *.
  destruct (P c) eqn:Ec; cbn.
  - exfalso. clear - H. induction s as [|d s IH]; cbn in H; [discriminate | auto].
  - auto.
Qed.

Lemma avoids : forall P r pre m post,
  forallb (Nat.eqb 0) (sim (d_avoid P) 2 r [0]) = true -> Matches r pre m post ->
  all_chars (fun c => negb (P c)) m = true.
Proof.
  intros P r pre m post Hs Hm. apply avoid_run.
  assert (E : In (run (d_avoid P) 0 m) (sim (d_avoid P) 2 r [0])).
  { eapply sim_sound; [apply d_avoid_lt | exact Hm | now left | lia]. }
  rewrite forallb_forall in Hs. apply Hs in E. now apply Nat.eqb_eq in E.
Qed.

(** ** Messages without anything like an IPv6 address *)

(** States 2k+b: k colons so far, the last character was a colon iff b; 14: seen "::", "%" or a
    seventh colon. *)
Definition d_v6 (q : nat) (c : ascii) : nat :=
  if Nat.leb 14 q then 14
  else if Ascii.eqb c "%" then 14
  else if Ascii.eqb c ":" then
    (if Nat.odd q then 14 else if Nat.leb 12 q then 14 else q + 3)
  else 2 * Nat.div2 q.

Lemma d_v6_lt : forall q c, q < 15 -> d_v6 q c < 15.
Proof.
  intros q c H. unfold d_v6. destruct (Nat.leb 14 q); [lia|].
  destruct (Ascii.eqb c "%"); [lia|]. destruct (Ascii.eqb c ":").
  - destruct (Nat.odd q); [lia|]. destruct (Nat.leb_spec 12 q); lia.
  - do 15 (destruct q as [|q]; [cbn; lia|]). lia.
Qed.

Lemma contains_cons : forall c s sub, contains s sub = true -> contains (String c s) sub = true.
Proof. intros c s sub H. cbn [contains]. rewrite H. apply orb_true_r. Qed.

Lemma d_v6_div2 : forall q c, q < 14 -> c <> "%"%char -> c <> ":"%char ->
  d_v6 q c = 2 * Nat.div2 q.
Proof.
  intros q c H1 H2 H3. unfold d_v6.
  destruct (Nat.leb_spec 14 q); [lia|].
  destruct (Ascii.eqb_spec c "%"); [congruence|]. destruct (Ascii.eqb_spec c ":"); [congruence|]. reflexivity.
Qed.

Lemma prefix_cons_false : forall c d s, c <> d -> String.prefix (String c "") (String d s) = false.
Proof. intros c d s H. cbn [String.prefix]. destruct (ascii_dec c d); [congruence | reflexivity]. Qed.

Lemma d_v6_run : forall s k b, k <= 6 -> b <= 1 ->
  run d_v6 (2 * k + b) s = 14 ->
  (b = 1 /\ exists s', s = String ":" s') \/ contains s "::" = true \/ contains s "%" = true \/
  7 <= k + count_chars (Ascii.eqb ":") s.
Proof.
  induction s as [|c s IH]; intros k b Hk Hb H; cbn [run] in H; [lia|].
  destruct (Ascii.eqb_spec c "%") as [->|n1].
  { right; right; left. cbn [contains]. apply orb_true_iff. left. apply prefix_spec. now exists s. }
  destruct (Ascii.eqb_spec c ":") as [->|n2].
  - destruct b as [|b].
    + destruct (Nat.eq_dec k 6) as [->|nk].
      * right; right; right. cbn. lia.
      * assert (E : d_v6 (2 * k + 0) ":" = 2 * (k + 1) + 1).
        { do 6 (destruct k as [|k]; [reflexivity|]). lia. }
        rewrite E in H. apply IH in H; [|lia|lia].
        destruct H as [[_ [s' ->]]|[H|[H|H]]].
        -- right; left. cbn [contains]. apply orb_true_iff. left. apply prefix_spec. now exists s'.
        -- right; left. now apply contains_cons.
        -- right; right; left. now apply contains_cons.
        -- right; right; right. cbn. lia.
    + left. split; [lia | now exists s].
  - rewrite d_v6_div2 in H by (try assumption; lia).
    replace (Nat.div2 (2 * k + b)) with k in H.
    + replace (2 * k) with (2 * k + 0) in H by lia. apply IH in H; [|lia|lia].
      destruct H as [[C _]|[H|[H|H]]]; [discriminate|..].
      * right; left. now apply contains_cons.
      * right; right; left. now apply contains_cons.
      * right; right; right. cbn [count_chars].
        destruct (Ascii.eqb_spec ":" c); [congruence|]. cbn. lia.
    + destruct b as [|[|b]]; [|replace (2 * k + 1) with (S (2 * k)) by lia|lia].
      * rewrite Nat.add_0_r. symmetry. apply Nat.div2_double.
      * symmetry. apply Nat.div2_succ_double.
Qed.

Lemma v6_absent : forall r s,
  forallb (Nat.eqb 14) (sim d_v6 15 r (seq 0 15)) = true ->
  contains s "::" = false -> contains s "%" = false ->
  count_chars (Ascii.eqb ":") s < 7 -> ~ Occurs r s.
Proof.
  intros r s Hs H1 H2 H3 Ho.
  assert (E : run d_v6 0 s = 14).
  { eapply occurs_bad; [apply d_v6_lt | reflexivity | exact Hs | lia | exact Ho]. }
  replace 0 with (2 * 0 + 0) in E by reflexivity.
  apply d_v6_run in E; [|lia|lia].
  destruct E as [[C _]|[E|[E|E]]]; [discriminate | congruence | congruence | lia].
Qed.

Lemma v6_sim : forallb (Nat.eqb 14) (sim d_v6 15 re_ipv6 (seq 0 15)) = true.
Proof. vm_compute. reflexivity. Qed.

Lemma v6s_sim : forallb (Nat.eqb 14) (sim d_v6 15 re_ipv6s (seq 0 15)) = true.
Proof. vm_compute. reflexivity. Qed.

(** ** Messages without a colon, digits and a dot in sequence *)

Definition d_cdd (q : nat) (c : ascii) : nat :=
  if Nat.leb 3 q then 3
  else if Ascii.eqb c ":" then 1
  else if is_digit c then (match q with 0 => 0 | _ => 2 end)
  else if Ascii.eqb c "." then (match q with 2 => 3 | _ => 0 end)
  else 0.

Lemma d_cdd_lt : forall q c, q < 4 -> d_cdd q c < 4.
Proof.
  intros q c H. unfold d_cdd. destruct (Nat.leb 3 q); [lia|].
  destruct (Ascii.eqb c ":"); [lia|]. destruct (is_digit c); [destruct q; lia|].
  destruct (Ascii.eqb c "."); [|lia]. destruct q as [|[|[|q]]]; lia.
Qed.

Lemma cdd_cons : forall c s, colon_digits_dot s -> colon_digits_dot (String c s).
Proof.
  intros c s [a [ds [b [-> [H1 H2]]]]]. exists (String c a), ds, b.
  split; [reflexivity | now split].
Qed.

Lemma d_cdd_run : forall s,
  (run d_cdd 0 s = 3 -> colon_digits_dot s) /\
  (run d_cdd 1 s = 3 -> colon_digits_dot s \/
     exists ds b, s = ds ++ "." ++ b /\ ds <> "" /\ all_chars is_digit ds = true) /\
  (run d_cdd 2 s = 3 -> colon_digits_dot s \/
     exists ds b, s = ds ++ "." ++ b /\ all_chars is_digit ds = true).
Proof.
  induction s as [|c s [IH0 [IH1 IH2]]].
  - repeat split; cbn; discriminate.
  - assert (C1 : run d_cdd 1 s = 3 -> c = ":"%char -> colon_digits_dot (String c s)).
    { intros H ->. apply IH1 in H. destruct H as [H|[ds [b [-> [H1 H2]]]]]; [now apply cdd_cons|].
      exists "", ds, b. split; [reflexivity | now split]. }
    repeat split; intros H; cbn [run] in H; unfold d_cdd in H; cbn [Nat.leb] in H.
    + destruct (Ascii.eqb_spec c ":"); [apply C1; auto|].
      destruct (is_digit c); [apply cdd_cons; auto|].
      destruct (Ascii.eqb c "."); apply cdd_cons; auto.
    + destruct (Ascii.eqb_spec c ":"); [left; apply C1; auto|].
      destruct (is_digit c) eqn:Ed.
      * apply IH2 in H. destruct H as [H|[ds [b [-> H]]]]; [left; now apply cdd_cons|].
        right. exists (String c ds), b. split; [reflexivity|]. split; [discriminate|].
        cbn. now rewrite Ed, H.
      * destruct (Ascii.eqb c "."); left; apply cdd_cons; auto.
    + destruct (Ascii.eqb_spec c ":"); [left; apply C1; auto|].
      destruct (is_digit c) eqn:Ed.
      * apply IH2 in H. destruct H as [H|[ds [b [-> H]]]]; [left; now apply cdd_cons|].
        right. exists (String c ds), b. split; [reflexivity|]. cbn. now rewrite Ed, H.
      * destruct (Ascii.eqb_spec c "."); [|left; apply cdd_cons; auto].
        right. subst c. exists "", s. now split.
Qed.

Lemma v64e_sim : forallb (Nat.eqb 3) (sim d_cdd 4 re_ipv64e (seq 0 4)) = true.
Proof. vm_compute. reflexivity. Qed.

Lemma v64e_absent : forall s, ~ colon_digits_dot s -> ~ Occurs re_ipv64e s.
Proof.
  intros s H Ho. apply H. apply d_cdd_run.
  eapply occurs_bad; [apply d_cdd_lt | reflexivity | exact v64e_sim | lia | exact Ho].
Qed.

(* ------------------------------------------------------------------ *)
(** * The first match at a given place *)

(** [r] matches the front of [s] and its preferred match leaves [t]. *)
Definition prefers (n : nat) (r : re) (s t : string) : Prop := exists ts, bt n r s = t :: ts.

Lemma prefers_cat : forall n a b s t u, prefers n a s t -> prefers n b t u -> prefers n (RCat a b) s u.
Proof.
  intros n a b s t u [ts E] [us F]. unfold prefers. cbn [bt]. rewrite E. cbn [flat_map].
  rewrite F. cbn [List.app]. eexists. reflexivity.
Qed.

Lemma prefers_eps : forall n s, prefers n REps s s.
Proof. intros n s. now exists []. Qed.

Lemma prefers_chr : forall n c s, prefers n (chr c) (String c s) s.
Proof.
  intros n c s. exists []. cbn [bt chr].
  replace (cls_match false [(N_of_ascii c, N_of_ascii c)] c) with true; [reflexivity|].
  symmetry. now apply chr_match.
Qed.

Lemma prefers_alt_l : forall n a b s t, prefers n a s t -> prefers n (RAlt a b) s t.
Proof. intros n a b s t [ts E]. unfold prefers. cbn [bt]. rewrite E. eexists. reflexivity. Qed.

Lemma prefers_alt_r : forall n a b s t, bt n a s = [] -> prefers n b s t -> prefers n (RAlt a b) s t.
Proof. intros n a b s t H [ts E]. unfold prefers. cbn [bt]. rewrite H, E. eexists. reflexivity. Qed.

Lemma prefers_cls : forall n neg rs c s, cls_match neg rs c = true -> prefers n (RCls neg rs) (String c s) s.
Proof. intros n neg rs c s H. exists []. cbn [bt]. now rewrite H. Qed.

(** Skipping text in which no match starts. *)
Lemma find_skip : forall r n pre s,
  (forall p c q, pre = p ++ String c q -> bt n r (String c q ++ s) = []) ->
  find_from n r (pre ++ s) = find_from n r s.
Proof.
  intros r n. induction pre as [|c pre IH]; intros s H; [reflexivity|].
  cbn [append find_from]. pose proof (H "" c pre eq_refl) as H0. cbn [append] in H0. rewrite H0. apply IH.
  intros p d q E. apply (H (String c p) d q). cbn. now rewrite E.
Qed.

Lemma find_here : forall r n s t, prefers n r s t ->
  find_from n r s = Some (take (String.length s - String.length t) s).
Proof. intros r n s t [ts E]. destruct s; cbn [find_from]; now rewrite E. Qed.

Lemma bt_nil_of : forall r pre s,
  (forall m t, s = m ++ t -> ~ Matches r pre m t) -> bt (String.length (pre ++ s)) r s = [].
Proof.
  intros r pre s H. destruct (bt _ r s) as [|t ts] eqn:E; [reflexivity|]. exfalso.
  destruct (bt_sound r pre s t) as [m [Em Hm]]; [rewrite E; now left|]. exact (H m t Em Hm).
Qed.

(* ------------------------------------------------------------------ *)
(** * IPv4 *)

Definition octet : re :=
  match re_compile "25[0-5]|(2[0-4]|1{0,1}[0-9]){0,1}[0-9]" with Some r => r | None => REps end.

Definition octet_dot : re := RCat octet (RCat (chr ".") REps).

Lemma ipv4_shape :
  re_ipv4 = RCat (RCat (rpow octet_dot 3) REps) (RCat octet REps).
Proof. vm_compute. reflexivity. Qed.

(** All 256 octets, one by one. *)
Lemma octet_sweep :
  forallb (fun d => match bt 0 octet (itoa (N.of_nat d)) with EmptyString :: _ => true | _ => false end)
          (seq 0 256) = true.
Proof. vm_compute. reflexivity. Qed.

Lemma octet_rejects :
  forallb (fun c => (is_digit c || rejects c octet)%bool) all_ascii = true.
Proof. vm_compute. reflexivity. Qed.

Lemma octet_no_bol : forall n k s, bt n octet s = bt k octet s.
Proof.
  assert (G : forall r, (fix ok (r : re) : bool := match r with
       | REps | RCls _ _ | REol => true | RCat a b | RAlt a b => (ok a && ok b)%bool
       | RStar _ | RBol => false end) r = true -> forall n k s, bt n r s = bt k r s).
  { induction r as [|neg rs|a IHa b IHb|a IHa b IHb|a IHa| |]; intros H n k s; try discriminate;
      try reflexivity; apply andb_true_iff in H; destruct H as [Ha Hb]; cbn [bt].
    - rewrite (IHa Ha n k s). apply flat_map_ext. intros t. now apply IHb.
    - now rewrite (IHa Ha n k s), (IHb Hb n k s). }
  apply G. vm_compute. reflexivity.
Qed.

Lemma octet_prefers : forall n d rest, is_octet d -> head_not is_digit rest = true ->
  prefers n octet (itoa d ++ rest) rest.
Proof.
  intros n d rest Hd Hr.
  pose proof octet_sweep as Hs. rewrite forallb_forall in Hs.
  specialize (Hs (N.to_nat d)). rewrite N2Nat.id in Hs.
  assert (Hin : In (N.to_nat d) (seq 0 256)) by (apply in_seq; unfold is_octet in Hd; lia).
  apply Hs in Hin. clear Hs.
  destruct (bt 0 octet (itoa d)) as [|[|c0 t0] ts] eqn:E; try discriminate.
  destruct rest as [|c rest].
  - rewrite append_nil_r. unfold prefers. rewrite (octet_no_bol n 0), E. eexists. reflexivity.
  - cbn [head_not] in Hr. apply negb_true_iff in Hr.
    pose proof octet_rejects as Hj. rewrite forallb_forall in Hj.
    specialize (Hj c (all_ascii_in c)). rewrite Hr in Hj. cbn [orb] in Hj.
    unfold prefers. rewrite (bt_app c rest octet Hj n 0), E. cbn [map append]. eexists. reflexivity.
Qed.

Lemma octet_dot_prefers : forall n d rest, is_octet d ->
  prefers n octet_dot (itoa d ++ String "." rest) rest.
Proof.
  intros n d rest Hd. unfold octet_dot. eapply prefers_cat.
  - apply octet_prefers; [assumption | reflexivity].
  - eapply prefers_cat; [apply prefers_chr | apply prefers_eps].
Qed.

Lemma ipv4_prefers : forall n a b c d rest,
  is_octet a -> is_octet b -> is_octet c -> is_octet d -> head_not is_digit rest = true ->
  prefers n re_ipv4 (dotted a b c d ++ rest) rest.
Proof.
  intros n a b c d rest Ha Hb Hc Hd Hr. rewrite ipv4_shape. unfold dotted.
  rewrite !append_assoc. cbn [append].
  eapply prefers_cat.
  - eapply prefers_cat; [|apply prefers_eps]. cbn [rpow].
    eapply prefers_cat; [apply octet_dot_prefers; exact Ha|].
    eapply prefers_cat; [apply octet_dot_prefers; exact Hb|].
    eapply prefers_cat; [apply octet_dot_prefers; exact Hc | apply prefers_eps].
  - eapply prefers_cat; [apply octet_prefers; assumption | apply prefers_eps].
Qed.

Lemma ipv4_first : forallb (Nat.eqb 1) (sim (d_first is_digit) 3 re_ipv4 [0]) = true.
Proof. vm_compute. reflexivity. Qed.

Lemma all_chars_app : forall P a b, all_chars P (a ++ b) = (all_chars P a && all_chars P b)%bool.
Proof. intros P. induction a as [|c a IH]; intros b; cbn; [reflexivity | now rewrite IH, andb_assoc]. Qed.

Lemma find_ipv4 : forall pre a b c d post,
  all_chars (fun x => negb (is_digit x)) pre = true ->
  is_octet a -> is_octet b -> is_octet c -> is_octet d -> head_not is_digit post = true ->
  find re_ipv4 (pre ++ dotted a b c d ++ post) = Some (dotted a b c d).
Proof.
  intros pre a b c d post Hpre Ha Hb Hc Hd Hpost. unfold find.
  rewrite find_skip.
  - rewrite (find_here _ _ _ post) by now apply ipv4_prefers.
    now rewrite take_app.
  - intros p x q ->. rewrite append_assoc.
    apply bt_nil_of. intros m t E Hm.
    destruct (first_char is_digit _ _ _ _ ipv4_first Hm) as [y [m' [-> Hy]]].
    cbn [append] in E. inversion E; subst y.
    rewrite all_chars_app in Hpre. apply andb_true_iff in Hpre. destruct Hpre as [_ Hpre].
    cbn [all_chars] in Hpre. rewrite Hy in Hpre. discriminate.
Qed.

Lemma extract_ipv4 : forall pre a b c d post,
  all_chars (fun x => negb (is_digit x)) pre = true ->
  is_octet a -> is_octet b -> is_octet c -> is_octet d -> head_not is_digit post = true ->
  no_v6_lookalike (pre ++ dotted a b c d ++ post) ->
  extract_addr (pre ++ dotted a b c d ++ post) = dotted a b c d.
Proof.
  intros pre a b c d post Hpre Ha Hb Hc Hd Hpost [H1 [H2 [H3 H4]]]. unfold extract_addr.
  rewrite (find_none_of re_ipv64e) by now apply v64e_absent.
  rewrite (find_none_of re_ipv6s) by (apply v6_absent; [exact v6s_sim | assumption ..]).
  rewrite (find_none_of re_ipv6) by (apply v6_absent; [exact v6_sim | assumption ..]).
  now rewrite find_ipv4.
Qed.

(** Decimal numbers consist of digits. *)
Lemma string_of_uint_digits : forall u, all_chars is_digit (DecimalString.NilEmpty.string_of_uint u) = true.
Proof. induction u as [|u IH|u IH|u IH|u IH|u IH|u IH|u IH|u IH|u IH|u IH]; cbn; auto. Qed.

Lemma itoa_digits : forall n, all_chars is_digit (itoa n) = true.
Proof.
  intros n. unfold itoa, DecimalString.NilZero.string_of_uint.
  destruct (N.to_uint n) eqn:E; [reflexivity|..]; rewrite <- E; apply string_of_uint_digits.
Qed.

Lemma count_app : forall P a b, count_chars P (a ++ b) = count_chars P a + count_chars P b.
Proof. intros P. induction a as [|c a IH]; intros b; cbn; [reflexivity | rewrite IH; lia]. Qed.

Lemma count_none : forall P Q s, all_chars Q s = true -> (forall c, Q c = true -> P c = false) ->
  count_chars P s = 0.
Proof.
  intros P Q s H HQ. induction s as [|c s IH]; [reflexivity|]. cbn in *.
  apply andb_true_iff in H. destruct H as [H1 H2]. rewrite (HQ c H1). auto.
Qed.

Lemma digit_not : forall c d, is_digit d = false -> is_digit c = true -> Ascii.eqb d c = false.
Proof. intros c d Hd Hc. destruct (Ascii.eqb_spec d c); [congruence | reflexivity]. Qed.

(** Counting characters is enough to exclude substrings. *)
Lemma contains_count : forall P s sub, contains s sub = true -> count_chars P sub <= count_chars P s.
Proof.
  intros P s sub H. apply contains_spec in H. destruct H as [a [b ->]].
  rewrite !count_app. lia.
Qed.

Lemma dotted_count : forall P a b c d, (forall x, is_digit x = true -> P x = false) -> P "."%char = false ->
  count_chars P (dotted a b c d) = 0.
Proof.
  intros P a b c d H1 H2. unfold dotted. rewrite !count_app. cbn [count_chars]. rewrite H2.
  rewrite !(count_none P is_digit) by (auto using itoa_digits). reflexivity.
Qed.

(** After the (only) colon there is no dot. *)
Lemma cdd_split : forall x y, count_chars (Ascii.eqb ":") x = 0 ->
  count_chars (Ascii.eqb ".") y = 0 -> ~ colon_digits_dot (x ++ String ":" y).
Proof.
  induction x as [|c x IH]; intros y Hx Hy [a [ds [b [E [H1 H2]]]]].
  - cbn [append] in E. destruct a as [|e a]; cbn [append] in E; injection E; intros E1; try intros E0;
      apply (f_equal (count_chars (Ascii.eqb "."))) in E1; rewrite Hy, ?count_app in E1; cbn in E1;
      rewrite ?count_app in E1; cbn in E1; lia.
  - cbn [append] in E. cbn [count_chars] in Hx. destruct a as [|e a]; cbn [append] in E; injection E; intros E1 E0.
    + subst c. cbn in Hx. lia.
    + apply (IH y); [destruct (Ascii.eqb ":" c); lia | exact Hy |].
      exists a, ds, b. split; [exact E1 | now split].
Qed.

Lemma host_port_lookalike : forall a b c d port, no_v6_lookalike (dotted a b c d ++ ":" ++ itoa port).
Proof.
  intros a b c d port.
  assert (Hc : count_chars (Ascii.eqb ":") (dotted a b c d) = 0)
    by (apply dotted_count; [intros x Hx; now apply digit_not | reflexivity]).
  assert (Hp : count_chars (Ascii.eqb ":") (itoa port) = 0)
    by (eapply count_none; [apply itoa_digits | intros x Hx; now apply digit_not]).
  repeat split.
  - apply not_true_iff_false. intros H. apply (contains_count (Ascii.eqb ":")) in H.
    rewrite !count_app, Hc, Hp in H. cbn in H. lia.
  - apply not_true_iff_false. intros H. apply (contains_count (Ascii.eqb "%")) in H.
    rewrite !count_app in H. rewrite dotted_count in H; [|intros x Hx; now apply digit_not|reflexivity].
    rewrite (count_none _ is_digit (itoa port)) in H; [|apply itoa_digits|intros x Hx; now apply digit_not].
    cbn in H. lia.
  - rewrite !count_app, Hc, Hp. cbn. lia.
  - cbn [append]. apply cdd_split; [exact Hc|].
    eapply count_none; [apply itoa_digits | intros x Hx; now apply digit_not].
Qed.

Lemma extract_host_port : forall a b c d port,
  is_octet a -> is_octet b -> is_octet c -> is_octet d ->
  extract_addr (dotted a b c d ++ ":" ++ itoa port) = dotted a b c d.
Proof.
  intros a b c d port Ha Hb Hc Hd.
  apply (extract_ipv4 "" a b c d (":" ++ itoa port)); try assumption; try reflexivity.
  apply host_port_lookalike.
Qed.

(* ------------------------------------------------------------------ *)
(** * Matches inside parts of a message *)

Fixpoint ctxfree (r : re) : bool :=
  match r with
  | REps | RCls _ _ => true
  | RCat a b | RAlt a b => (ctxfree a && ctxfree b)%bool
  | RStar a => ctxfree a
  | RBol | REol => false
  end.

Lemma ctxfree_matches : forall r pre m post, Matches r pre m post -> ctxfree r = true ->
  forall pre' post', Matches r pre' m post'.
Proof.
  induction 1; cbn [ctxfree]; intros Hc pre' post'; try discriminate;
    try (apply andb_true_iff in Hc; destruct Hc as [Hc1 Hc2]);
    try (constructor; now auto).
Qed.

Lemma split_at : forall x b m t a, a ++ String x b = m ++ t ->
  all_chars (fun c => negb (Ascii.eqb x c)) m = true -> exists t', a = m ++ t'.
Proof.
  intros x b. induction m as [|c m IH]; intros t a E H.
  - now exists a.
  - cbn in H. apply andb_true_iff in H. destruct H as [H1 H2].
    destruct a as [|d a]; cbn [append] in E; inversion E; subst.
    + rewrite Ascii.eqb_refl in H1. discriminate.
    + destruct (IH t a) as [t' ->]; [assumption..|]. now exists t'.
Qed.

Definition avoids_char (x : ascii) (r : re) : Prop :=
  forall pre m post, Matches r pre m post -> all_chars (fun c => negb (Ascii.eqb x c)) m = true.

(** A search skips a part without matches that ends in a character no match contains. *)
Lemma find_skip_part : forall r x p s, ctxfree r = true -> avoids_char x r ->
  (forall pre post, ~ Matches r pre "" post) -> ~ Occurs r p ->
  find_from (String.length (p ++ String x s)) r (p ++ String x s) =
  find_from (String.length (p ++ String x s)) r s.
Proof.
  intros r x p s Hc Hx Hne Ho.
  replace (p ++ String x s) with ((p ++ String x "") ++ s) by now rewrite append_assoc.
  apply find_skip. intros a c q E.
  replace ((p ++ String x "") ++ s) with (a ++ (String c q ++ s)) by (rewrite E, append_assoc; reflexivity).
  apply bt_nil_of. intros m t Em Hm.
  assert (D : exists q', String c q = q' ++ String x "" /\ p = a ++ q').
  { clear - E. revert p E. induction a as [|d a IH]; intros p E.
    - exists p. split; [symmetry; exact E | reflexivity].
    - destruct p as [|e p]; cbn [append] in E; inversion E; subst.
      + destruct a; discriminate.
      + destruct (IH p) as [q' [K1 K2]]; [assumption|]. exists q'. split; [assumption | now rewrite K2]. }
  destruct D as [q' [Eq ->]]. rewrite Eq, append_assoc in Em. cbn [append] in Em.
  destruct (split_at x s m t q' Em (Hx _ _ _ Hm)) as [t' ->].
  destruct m as [|d m]; [exact (Hne _ _ Hm)|].
  apply Ho. exists a, (String d m), t'. split; [reflexivity|].
  eapply ctxfree_matches; [exact Hm | exact Hc].
Qed.

Lemma occurs_parts : forall r x p s, ctxfree r = true -> avoids_char x r ->
  Occurs r (p ++ String x s) -> Occurs r p \/ Occurs r s.
Proof.
  intros r x p s Hc Hx [pre [m [post [E Hm]]]].
  revert p E. revert Hm. generalize pre at 1 as pre0.
  induction pre as [|c pre IH]; intros pre0 Hm p E.
  - left. destruct (split_at x s m post p E (Hx _ _ _ Hm)) as [t' ->].
    exists "", m, t'. split; [reflexivity|]. eapply ctxfree_matches; eassumption.
  - destruct p as [|d p]; cbn [append] in E; injection E; intros E1 E0.
    + right. exists pre, m, post. split; [exact E1|]. eapply ctxfree_matches; eassumption.
    + destruct (IH pre0 Hm p) as [H|H]; [exact E1 | | now right].
      left. destruct H as [a [m' [b [-> Hm']]]]. exists (String d a), m', b. split; [reflexivity|].
      eapply ctxfree_matches; eassumption.
Qed.

Definition bracket (c : ascii) : bool := (Ascii.eqb "[" c || Ascii.eqb "]" c)%bool.

Lemma avoids_brackets : forall r, forallb (Nat.eqb 0) (sim (d_avoid bracket) 2 r [0]) = true ->
  avoids_char "[" r /\ avoids_char "]" r.
Proof.
  intros r H. split; intros pre m post Hm; pose proof (avoids _ _ _ _ _ H Hm) as A;
    clear - A; induction m as [|c m IH]; cbn in *; try reflexivity;
    apply andb_true_iff in A; destruct A as [A1 A2]; rewrite (IH A2), andb_true_r;
    unfold bracket in A1; apply negb_true_iff, orb_false_iff in A1; apply negb_true_iff; apply A1.
Qed.

Lemma v6s_brackets : forallb (Nat.eqb 0) (sim (d_avoid bracket) 2 re_ipv6s [0]) = true.
Proof. vm_compute. reflexivity. Qed.
Lemma v6_brackets : forallb (Nat.eqb 0) (sim (d_avoid bracket) 2 re_ipv6 [0]) = true.
Proof. vm_compute. reflexivity. Qed.
Lemma v6s_ctxfree : ctxfree re_ipv6s = true. Proof. vm_compute. reflexivity. Qed.
Lemma v6_ctxfree : ctxfree re_ipv6 = true. Proof. vm_compute. reflexivity. Qed.

Definition any (c : ascii) : bool := true.
Lemma v6s_nonempty : forallb (Nat.eqb 1) (sim (d_first any) 3 re_ipv6s [0]) = true.
Proof. vm_compute. reflexivity. Qed.
Lemma v6_nonempty : forallb (Nat.eqb 1) (sim (d_first any) 3 re_ipv6 [0]) = true.
Proof. vm_compute. reflexivity. Qed.

Lemma nonempty : forall r, forallb (Nat.eqb 1) (sim (d_first any) 3 r [0]) = true ->
  forall pre post, ~ Matches r pre "" post.
Proof.
  intros r H pre post Hm. destruct (first_char _ _ _ _ _ H Hm) as [c [m' [E _]]]. discriminate.
Qed.

(* ------------------------------------------------------------------ *)
(** * IPv6 *)

Definition hexcls : re :=
  match re_compile "[0-9a-fA-F]" with Some (RCat r _) => r | _ => REps end.
Definition h14 : re := apply_rep hexcls 1 (Some 4).
Definition hc : re := RCat h14 (RCat (chr ":") REps).
Definition ch : re := RCat (chr ":") (RCat h14 REps).

Lemma ipv6s_shape :
  re_ipv6s = RCat (apply_rep hc 1 (Some 4)) (RCat (apply_rep ch 1 (Some 3)) REps).
Proof. vm_compute. reflexivity. Qed.

(** The alternatives of the extended pattern that are used below; the others are left as found. *)
Lemma ipv6_shape : exists a2 a3 a4 a5 a6 a7 a8 rest, re_ipv6 =
  RCat (RAlt (RCat (apply_rep hc 7 (Some 7)) (RCat h14 REps))
       (RAlt a2 (RAlt a3 (RAlt a4 (RAlt a5 (RAlt a6 (RAlt a7 (RAlt a8
       (RAlt (RCat (chr ":") (RCat (RAlt (RCat (apply_rep ch 1 (Some 7)) REps) (RCat (chr ":") REps)) REps)) rest))))))))) REps /\
  forall n s, bt n a2 (String ":" s) = [] /\ bt n a3 (String ":" s) = [] /\ bt n a4 (String ":" s) = [] /\
    bt n a5 (String ":" s) = [] /\ bt n a6 (String ":" s) = [] /\ bt n a7 (String ":" s) = [] /\
    bt n a8 (String ":" s) = [].
Proof. repeat eexists; vm_compute; reflexivity. Qed.

Lemma hex_cls : forall c, cls_match false [(48, 57); (97, 102); (65, 70)]%N c = is_hex c.
Proof.
  intros c. unfold cls_match, is_hex. cbn [existsb fst snd]. rewrite xorb_false_l, orb_false_r.
  now rewrite orb_assoc.
Qed.

Lemma hexcls_eq : hexcls = RCls false [(48, 57); (97, 102); (65, 70)]%N.
Proof. vm_compute. reflexivity. Qed.

Inductive chain (n : nat) (r : re) : nat -> string -> string -> Prop :=
| chain_nil : forall s, chain n r 0 s s
| chain_cons : forall k s t u, prefers n r s t -> chain n r k t u -> chain n r (S k) s u.

Lemma ropt_chain : forall n r k K s u, chain n r k s u -> k <= K -> (k = K \/ bt n r u = []) ->
  prefers n (ropt r K) s u.
Proof.
  intros n r k K s u H. revert K. induction H as [s|k s t u Hp Hc IH]; intros K Hk Hend.
  - destruct K as [|K]; cbn [ropt]; [apply prefers_eps|].
    destruct Hend as [C|E]; [lia|].
    apply prefers_alt_r; [cbn [bt]; now rewrite E | apply prefers_eps].
  - destruct K as [|K]; [lia|]. cbn [ropt]. apply prefers_alt_l.
    eapply prefers_cat; [exact Hp|]. apply IH; [lia|]. destruct Hend; [left; lia | now right].
Qed.

Lemma rpow_chain : forall n r k s u, chain n r k s u -> prefers n (rpow r k) s u.
Proof.
  intros n r k s u H. induction H as [s|k s t u Hp Hc IH]; cbn [rpow]; [apply prefers_eps|].
  eapply prefers_cat; eassumption.
Qed.

Lemma chain_split : forall n r a b s u, chain n r (a + b) s u ->
  exists t, chain n r a s t /\ chain n r b t u.
Proof.
  intros n r. induction a as [|a IH]; intros b s u H.
  - exists s. split; [constructor | exact H].
  - inversion H; subst. destruct (IH _ _ _ H2) as [t' [H3 H4]]. exists t'.
    split; [econstructor; eassumption | assumption].
Qed.

Lemma rep_chain : forall n r mn mx k s u, chain n r k s u -> mn <= k -> k <= mx ->
  (k = mx \/ bt n r u = []) -> prefers n (apply_rep r mn (Some mx)) s u.
Proof.
  intros n r mn mx k s u H H1 H2 Hend. unfold apply_rep.
  replace k with (mn + (k - mn)) in H by lia. apply chain_split in H. destruct H as [t [Ha Hb]].
  eapply prefers_cat; [apply rpow_chain; exact Ha|].
  eapply ropt_chain; [exact Hb | lia |]. destruct Hend; [left; lia | now right].
Qed.

Lemma hex_chain : forall n g rest, all_chars is_hex g = true ->
  chain n hexcls (String.length g) (g ++ rest) rest.
Proof.
  intros n. induction g as [|c g IH]; intros rest H; [constructor|].
  cbn in H. apply andb_true_iff in H. destruct H as [H1 H2].
  cbn [String.length append]. econstructor; [|apply IH; exact H2].
  rewrite hexcls_eq. apply prefers_cls. now rewrite hex_cls.
Qed.

Lemma h14_prefers : forall n g rest, is_group g -> head_not is_hex rest = true ->
  prefers n h14 (g ++ rest) rest.
Proof.
  intros n g rest [Hg Hl] Hr. unfold h14.
  eapply rep_chain; [apply hex_chain; exact Hg | lia | lia |].
  right. rewrite hexcls_eq. cbn [bt]. destruct rest as [|c rest]; [reflexivity|].
  rewrite hex_cls. cbn in Hr. apply negb_true_iff in Hr. now rewrite Hr.
Qed.

Lemma hc_prefers : forall n g rest, is_group g -> prefers n hc (g ++ String ":" rest) rest.
Proof.
  intros n g rest H. unfold hc. eapply prefers_cat; [apply h14_prefers; [exact H | reflexivity]|].
  eapply prefers_cat; [apply prefers_chr | apply prefers_eps].
Qed.

Lemma ch_prefers : forall n g rest, is_group g -> head_not is_hex rest = true ->
  prefers n ch (String ":" (g ++ rest)) rest.
Proof.
  intros n g rest H Hr. unfold ch. eapply prefers_cat; [apply prefers_chr|].
  eapply prefers_cat; [apply h14_prefers; assumption | apply prefers_eps].
Qed.

(** Groups each followed by, or each preceded by, a colon. *)
Fixpoint cj (gs : list string) : string :=
  match gs with [] => "" | g :: gs' => g ++ String ":" (cj gs') end.
Fixpoint jc (gs : list string) : string :=
  match gs with [] => "" | g :: gs' => String ":" (g ++ jc gs') end.

Lemma join_cj : forall gs, gs <> [] -> join ":" gs ++ ":" = cj gs.
Proof.
  induction gs as [|g gs IH]; intros H; [congruence|].
  destruct gs as [|g' gs]; [reflexivity|].
  change (join ":" (g :: g' :: gs)) with (g ++ ":" ++ join ":" (g' :: gs)).
  rewrite !append_assoc. rewrite IH by discriminate. reflexivity.
Qed.

Lemma join_jc : forall gs, gs <> [] -> String ":" (join ":" gs) = jc gs.
Proof.
  induction gs as [|g gs IH]; intros H; [congruence|].
  destruct gs as [|g' gs]; [cbn; now rewrite append_nil_r|].
  change (join ":" (g :: g' :: gs)) with (g ++ String ":" (join ":" (g' :: gs))).
  rewrite IH by discriminate. reflexivity.
Qed.

Lemma hc_chain : forall n gs rest, Forall is_group gs ->
  chain n hc (List.length gs) (cj gs ++ rest) rest.
Proof.
  intros n gs rest H. induction H as [|g gs Hg Hgs IH]; [constructor|].
  cbn [cj List.length]. rewrite append_assoc. econstructor; [apply hc_prefers; exact Hg | exact IH].
Qed.

Lemma ch_chain : forall n gs rest, Forall is_group gs -> head_not is_hex rest = true ->
  chain n ch (List.length gs) (jc gs ++ rest) rest.
Proof.
  intros n gs rest H Hr. induction H as [|g gs Hg Hgs IH]; [constructor|].
  cbn [jc List.length append]. rewrite append_assoc. econstructor; [apply ch_prefers; [exact Hg|]|exact IH].
  destruct gs; [exact Hr | reflexivity].
Qed.

(** Simple pattern: one to four groups, double colon, one to three groups. *)
Lemma v6s_prefers : forall n bs cs rest,
  1 <= List.length bs <= 4 -> 1 <= List.length cs <= 3 ->
  Forall is_group bs -> Forall is_group cs ->
  prefers n re_ipv6s (compressed_v6 bs cs ++ String "]" rest) (String "]" rest).
Proof.
  intros n bs cs rest Hb Hc Gb Gc. rewrite ipv6s_shape. unfold compressed_v6.
  assert (Eb : bs <> []) by (destruct bs; [cbn in Hb; lia | discriminate]).
  assert (Ec : cs <> []) by (destruct cs; [cbn in Hc; lia | discriminate]).
  replace (join ":" bs ++ "::" ++ join ":" cs) with (cj bs ++ jc cs)
    by (rewrite <- (join_cj bs Eb), <- (join_jc cs Ec), append_assoc; reflexivity).
  rewrite append_assoc.
  eapply prefers_cat.
  - eapply rep_chain; [apply hc_chain; exact Gb | lia | lia |].
    right. destruct cs as [|c cs]; [congruence | reflexivity].
  - eapply prefers_cat; [|apply prefers_eps].
    eapply rep_chain; [apply ch_chain; [exact Gc | reflexivity] | lia | lia |].
    right. reflexivity.
Qed.

(** Extended pattern, first alternative: eight groups. *)
Lemma v6_full_prefers : forall n gs rest, List.length gs = 8 -> Forall is_group gs ->
  prefers n re_ipv6 (full_v6 gs ++ String "]" rest) (String "]" rest).
Proof.
  intros n gs rest Hl Hg.
  destruct ipv6_shape as [a2 [a3 [a4 [a5 [a6 [a7 [a8 [r9 [-> _]]]]]]]]].
  eapply prefers_cat; [|apply prefers_eps]. apply prefers_alt_l.
  assert (E : exists hs g, gs = (hs ++ [g])%list /\ List.length hs = 7).
  { destruct (exists_last (l := gs)) as [hs [g ->]]; [destruct gs; discriminate|].
    exists hs, g. split; [reflexivity|]. rewrite app_length in Hl. cbn in Hl. lia. }
  destruct E as [hs [g [-> Hh]]]. apply Forall_app in Hg. destruct Hg as [Hhs Hg].
  inversion Hg as [|? ? Hg1 _]; subst.
  assert (J : full_v6 (hs ++ [g]) = cj hs ++ g).
  { unfold full_v6. clear. induction hs as [|h hs IH]; [reflexivity|].
    cbn [List.app cj]. rewrite append_assoc. cbn [append].
    destruct (hs ++ [g])%list as [|x xs] eqn:Ex; [destruct hs; discriminate|].
    change (join ":" (h :: x :: xs)) with (h ++ String ":" (join ":" (x :: xs))).
    now rewrite IH. }
  rewrite J, append_assoc. eapply prefers_cat.
  - eapply rep_chain; [apply hc_chain; exact Hhs | lia | lia | left; lia].
  - eapply prefers_cat; [apply h14_prefers; [exact Hg1 | reflexivity] | apply prefers_eps].
Qed.

(** Extended pattern, ninth alternative: a leading double colon. *)
Lemma v6_leading_prefers : forall n cs rest, 1 <= List.length cs <= 7 -> Forall is_group cs ->
  prefers n re_ipv6 (compressed_v6 [] cs ++ String "]" rest) (String "]" rest).
Proof.
  intros n cs rest Hc Gc.
  destruct ipv6_shape as [a2 [a3 [a4 [a5 [a6 [a7 [a8 [r9 [-> Hn]]]]]]]]].
  assert (Ec : cs <> []) by (destruct cs; [cbn in Hc; lia | discriminate]).
  change (compressed_v6 [] cs) with (String ":" (String ":" (join ":" cs))). rewrite (join_jc cs Ec).
  destruct (Hn n (jc cs ++ String "]" rest)) as [N2 [N3 [N4 [N5 [N6 [N7 N8]]]]]].
  eapply prefers_cat; [|apply prefers_eps].
  apply prefers_alt_r; [reflexivity|]. cbn [append].
  do 7 (apply prefers_alt_r; [assumption|]).
  apply prefers_alt_l. eapply prefers_cat; [apply prefers_chr|].
  eapply prefers_cat; [|apply prefers_eps]. apply prefers_alt_l.
  eapply prefers_cat; [|apply prefers_eps].
  eapply rep_chain; [apply ch_chain; [exact Gc | reflexivity] | lia | lia |].
  right. reflexivity.
Qed.

(** *** Absence of the simple pattern *)

(** hexadecimal digit, double colon, hexadecimal digit *)
Definition d_hcch (q : nat) (c : ascii) : nat :=
  if Nat.leb 4 q then 4
  else if is_hex c then (if Nat.eqb q 3 then 4 else 1)
  else if Ascii.eqb c ":" then (match q with 1 => 2 | 2 => 3 | _ => 0 end)
  else 0.

Lemma d_hcch_lt : forall q c, q < 5 -> d_hcch q c < 5.
Proof.
  intros q c H. unfold d_hcch. destruct (Nat.leb 4 q); [lia|].
  destruct (is_hex c); [destruct (Nat.eqb q 3); lia|].
  destruct (Ascii.eqb c ":"); [|lia]. destruct q as [|[|[|q]]]; lia.
Qed.

Lemma v6s_hcch_sim : forallb (Nat.eqb 4) (sim d_hcch 5 re_ipv6s (seq 0 5)) = true.
Proof. vm_compute. reflexivity. Qed.

Lemma v6s_hcch : forall s, run d_hcch 0 s <> 4 -> ~ Occurs re_ipv6s s.
Proof.
  intros s H Ho. apply H.
  eapply occurs_bad; [apply d_hcch_lt | reflexivity | exact v6s_hcch_sim | lia | exact Ho].
Qed.

Lemma hex_run : forall g q, all_chars is_hex g = true -> q <= 2 -> g <> "" -> run d_hcch q g = 1.
Proof.
  induction g as [|c g IH]; intros q H Hq Hne; [congruence|]. cbn in H. apply andb_true_iff in H.
  destruct H as [H1 H2].
  assert (E : d_hcch q c = 1).
  { unfold d_hcch. destruct (Nat.leb_spec 4 q); [lia|]. rewrite H1.
    destruct (Nat.eqb_spec q 3); [lia | reflexivity]. }
  cbn [run]. rewrite E. destruct g as [|d g]; [reflexivity|]. apply IH; [assumption | lia | discriminate].
Qed.

Lemma join_run : forall gs q, Forall is_group gs -> q <= 2 -> run d_hcch q (join ":" gs) <= 2.
Proof.
  induction gs as [|g gs IH]; intros q H Hq; [exact Hq|].
  inversion H as [|? ? [Hg Hl] Hgs]; subst.
  assert (Hne : g <> "") by (destruct g; [cbn in Hl; lia | discriminate]).
  destruct gs as [|g' gs].
  - cbn [join]. rewrite hex_run by assumption. lia.
  - change (join ":" (g :: g' :: gs)) with (g ++ String ":" (join ":" (g' :: gs))).
    rewrite run_app, (hex_run g q) by assumption. cbn [run].
    change (d_hcch 1 ":") with 2. apply IH; [assumption | lia].
Qed.

(** Nothing else in the message looks like an address. *)
Lemma extract_bracketed : forall p addr q,
  no_v6_lookalike p -> no_v6_lookalike q ->
  ~ colon_digits_dot (p ++ "[" ++ addr ++ "]" ++ q) ->
  (forall n, prefers n re_ipv6s (addr ++ String "]" q) (String "]" q)) \/
  (~ Occurs re_ipv6s addr /\ forall n, prefers n re_ipv6 (addr ++ String "]" q) (String "]" q)) ->
  extract_addr (p ++ "[" ++ addr ++ "]" ++ q) = addr.
Proof.
  intros p addr q [Hp1 [Hp2 [Hp3 _]]] [Hq1 [Hq2 [Hq3 _]]] Hcdd H. unfold extract_addr.
  rewrite (find_none_of re_ipv64e) by now apply v64e_absent.
  destruct (avoids_brackets _ v6s_brackets) as [As1 As2].
  destruct (avoids_brackets _ v6_brackets) as [A1 A2].
  pose proof (v6_absent _ p v6s_sim Hp1 Hp2 Hp3) as Nps.
  pose proof (v6_absent _ q v6s_sim Hq1 Hq2 Hq3) as Nqs.
  pose proof (v6_absent _ p v6_sim Hp1 Hp2 Hp3) as Np.
  cbn [append].
  destruct H as [H|[Hno H]].
  - unfold find. rewrite (find_skip_part re_ipv6s "[" p);
      [|exact v6s_ctxfree|exact As1|exact (nonempty _ v6s_nonempty)|exact Nps].
    rewrite (find_here _ _ _ _ (H _)). now rewrite take_app.
  - rewrite (find_none_of re_ipv6s).
    + unfold find. rewrite (find_skip_part re_ipv6 "[" p);
        [|exact v6_ctxfree|exact A1|exact (nonempty _ v6_nonempty)|exact Np].
      rewrite (find_here _ _ _ _ (H _)). now rewrite take_app.
    + intros Ho. apply occurs_parts in Ho; [|exact v6s_ctxfree|exact As1].
      destruct Ho as [Ho|Ho]; [now apply Nps|].
      apply occurs_parts in Ho; [|exact v6s_ctxfree|exact As2].
      destruct Ho as [Ho|Ho]; [now apply Hno | now apply Nqs].
Qed.

(** The textual forms that are found completely. *)
Inductive found_v6 : string -> Prop :=
| found_full : forall gs, List.length gs = 8 -> Forall is_group gs -> found_v6 (full_v6 gs)
| found_mid : forall bs cs, 1 <= List.length bs <= 4 -> 1 <= List.length cs <= 3 ->
    Forall is_group bs -> Forall is_group cs -> found_v6 (compressed_v6 bs cs)
| found_leading : forall cs, 1 <= List.length cs <= 7 -> Forall is_group cs ->
    found_v6 (compressed_v6 [] cs).

Lemma extract_v6 : forall p addr q, found_v6 addr ->
  no_v6_lookalike p -> no_v6_lookalike q ->
  ~ colon_digits_dot (p ++ "[" ++ addr ++ "]" ++ q) ->
  extract_addr (p ++ "[" ++ addr ++ "]" ++ q) = addr.
Proof.
  intros p addr q Hf Hp Hq Hcdd. apply extract_bracketed; try assumption.
  destruct Hf as [gs Hl Hg|bs cs Hb Hc Gb Gc|cs Hc Gc].
  - right. split; [|intros n; now apply v6_full_prefers].
    apply v6s_hcch. pose proof (join_run gs 0 Hg). unfold full_v6. lia.
  - left. intros n. now apply v6s_prefers.
  - right. split; [|intros n; now apply v6_leading_prefers].
    apply v6s_hcch.
    change (run d_hcch 0 (compressed_v6 [] cs)) with (run d_hcch 0 (join ":" cs)).
    pose proof (join_run cs 0 Gc). lia.
Qed.

(** A decision procedure, for concrete messages. *)
Lemma cdd_abs : forall s, run d_cdd 3 s = 3.
Proof. induction s as [|c s IH]; [reflexivity | exact IH]. Qed.

Lemma cdd_digits : forall ds q b, (q = 1 /\ ds <> "" \/ q = 2) -> all_chars is_digit ds = true ->
  run d_cdd q (ds ++ String "." b) = 3.
Proof.
  induction ds as [|c ds IH]; intros q b Hq H.
  - destruct Hq as [[_ C]|Eq]; [congruence|subst q]. apply cdd_abs.
  - cbn in H. apply andb_true_iff in H. destruct H as [H1 H2]. cbn [append run].
    replace (d_cdd q c) with 2; [apply IH; [now right | exact H2]|].
    unfold d_cdd. rewrite H1. destruct (Ascii.eqb_spec c ":") as [->|_]; [discriminate|].
    destruct Hq as [[Eq _]|Eq]; rewrite Eq; reflexivity.
Qed.

Lemma cdd_run_complete : forall s, colon_digits_dot s -> run d_cdd 0 s = 3.
Proof.
  intros s [a [ds [b [-> [H1 H2]]]]]. rewrite run_app. cbn [append run].
  destruct (Nat.eq_dec (run d_cdd 0 a) 3) as [->|n]; [apply cdd_abs|].
  assert (Hlt : run d_cdd 0 a < 4) by (apply run_lt; [apply d_cdd_lt | lia]).
  replace (d_cdd (run d_cdd 0 a) ":") with 1.
  - apply cdd_digits; [left; now split | assumption].
  - generalize dependent (run d_cdd 0 a). intros q Hq Hlt. unfold d_cdd.
    destruct (Nat.leb_spec 3 q); [lia | reflexivity].
Qed.

Lemma lookalike_dec : forall s,
  (negb (contains s "::") && negb (contains s "%") && Nat.ltb (count_chars (Ascii.eqb ":") s) 7 &&
   negb (Nat.eqb (run d_cdd 0 s) 3))%bool = true -> no_v6_lookalike s.
Proof.
  intros s H. apply andb_true_iff in H. destruct H as [H H4]. apply andb_true_iff in H.
  destruct H as [H H3]. apply andb_true_iff in H. destruct H as [H1 H2].
  apply negb_true_iff in H1, H2, H4. apply Nat.ltb_lt in H3. apply Nat.eqb_neq in H4.
  repeat split; try assumption. intros C. apply cdd_run_complete in C. contradiction.
Qed.

Lemma extract_sound : forall msg,
  (exists pat r, In pat [pat_ipv64e; pat_ipv6s; pat_ipv6; pat_ipv4] /\ re_compile pat = Some r /\
     exists pre post, msg = pre ++ extract_addr msg ++ post /\ Matches r pre (extract_addr msg) post) \/
  (extract_addr msg = "not found" /\
   forall pat r, In pat [pat_ipv64e; pat_ipv6s; pat_ipv6; pat_ipv4] -> re_compile pat = Some r ->
     ~ Occurs r msg).
Proof.
  intros msg. destruct patterns_compile as [P1 [P2 [P3 P4]]].
  destruct (extract_cases msg) as [[r [Hr Hf]]|[E H]].
  - left. apply find_sound in Hf. destruct Hr as [<-|[<-|[<-|[<-|[]]]]].
    + exists pat_ipv64e. eexists. split; [cbn [In]; tauto | split; [exact P1 | exact Hf]].
    + exists pat_ipv6s. eexists. split; [cbn [In]; tauto | split; [exact P2 | exact Hf]].
    + exists pat_ipv6. eexists. split; [cbn [In]; tauto | split; [exact P3 | exact Hf]].
    + exists pat_ipv4. eexists. split; [cbn [In]; tauto | split; [exact P4 | exact Hf]].
  - right. split; [exact E|]. intros pat r Hp Hc. apply find_none. apply H.
    destruct Hp as [<-|[<-|[<-|[<-|[]]]]].
    + rewrite P1 in Hc. inversion Hc; subst. cbn [In]; tauto.
    + rewrite P2 in Hc. inversion Hc; subst. cbn [In]; tauto.
    + rewrite P3 in Hc. inversion Hc; subst. cbn [In]; tauto.
    + rewrite P4 in Hc. inversion Hc; subst. cbn [In]; tauto.
Qed.

Lemma group_dec : forall g, (all_chars is_hex g && Nat.leb 1 (String.length g) && Nat.leb (String.length g) 4)%bool = true ->
  is_group g.
Proof.
  intros g H. apply andb_true_iff in H. destruct H as [H H3]. apply andb_true_iff in H.
  destruct H as [H1 H2]. apply Nat.leb_le in H2, H3. split; [assumption | lia].
Qed.

Lemma v6_refuted : exists addr port, ipv6_text addr /\
  extract_addr ("[" ++ addr ++ "]:" ++ itoa port) <> addr.
Proof.
  exists (compressed_v6 ["2001"; "db8"; "1"; "2"; "3"] ["6"]), 443%N. split.
  - apply v6_compressed; [cbn; lia| |]; repeat (constructor; [apply group_dec; reflexivity|]); constructor.
  - vm_compute. discriminate.
Qed.
