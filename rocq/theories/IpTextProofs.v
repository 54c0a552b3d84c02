From Coq Require Import String Ascii List Bool NArith Arith Lia.
From Verif Require Import GoStr Regex RegexSpec RegexProofs Iprex IprexSpec IprexProofs IpText IpTextSpec.
Import ListNotations.
Local Open Scope string_scope.

(* ------------------------------------------------------------------ *)
(** * Searches without anchors do not look at the length of the message *)

Lemma bt_total : forall r n k s, ctxfree r = true -> bt n r s = bt k r s.
Proof.
  induction r as [|neg rs|a IHa b IHb|a IHa b IHb|a IHa| |]; intros n k s H; cbn [ctxfree] in H; try discriminate H.
  - reflexivity.
  - reflexivity.
  - apply andb_true_iff in H. destruct H as [Ha Hb]. cbn [bt]. rewrite (IHa n k s Ha).
    apply flat_map_ext. intros t. now apply IHb.
  - apply andb_true_iff in H. destruct H as [Ha Hb]. cbn [bt]. now rewrite (IHa n k s Ha), (IHb n k s Hb).
  - rewrite !bt_star.
    generalize (String.length s) as f. intros f. revert s. induction f as [|f IH]; intros s; [reflexivity|].
    cbn [star_loop]. rewrite (IHa n k s H). f_equal. apply flat_map_ext. intros t.
    destruct (Nat.ltb _ _); [apply IH | reflexivity].
Qed.

Lemma bt_none : forall r n s, ctxfree r = true -> (forall m t, s = m ++ t -> ~ Matches r "" m t) -> bt n r s = [].
Proof. intros r n s Hc H. rewrite (bt_total r n (String.length ("" ++ s)) s Hc). now apply bt_nil_of. Qed.

(* ------------------------------------------------------------------ *)
(** * What matches of the simple pattern look like *)

Definition matched (r : re) (m : string) : Prop := exists pre post, Matches r pre m post.

Fixpoint cat (ms : list string) : string := match ms with [] => "" | m :: ms' => m ++ cat ms' end.

Lemma cat_app : forall a b, cat (a ++ b)%list = cat a ++ cat b.
Proof. induction a as [|x a IH]; intros b; [reflexivity|]. cbn [List.app cat]. now rewrite IH, append_assoc. Qed.

Lemma pow_inv : forall r n pre m post, Matches (rpow r n) pre m post ->
  exists ms, m = cat ms /\ List.length ms = n /\ Forall (matched r) ms.
Proof.
  intros r. induction n as [|n IH]; intros pre m post H; cbn [rpow] in H.
  - inversion H; subst. exists []. repeat split. constructor.
  - inversion H as [| |? ? ? x y ? Hx Hy| | | | | |]; subst. destruct (IH _ _ _ Hy) as [ms [-> [El F]]].
    exists (x :: ms). split; [reflexivity|]. split; [cbn; now rewrite El|]. constructor; [|exact F]. now exists pre, (cat ms ++ post).
Qed.

Lemma opt_inv : forall r n pre m post, Matches (ropt r n) pre m post ->
  exists ms, m = cat ms /\ List.length ms <= n /\ Forall (matched r) ms.
Proof.
  intros r. induction n as [|n IH]; intros pre m post H; cbn [ropt] in H.
  - inversion H; subst. exists []. split; [reflexivity|]. split; [cbn; lia|constructor].
  - inversion H as [| | |? ? ? ? ? Hl|? ? ? ? ? Hr| | | |]; subst.
    + inversion Hl as [| |? ? ? x y ? Hx Hy| | | | | |]; subst. destruct (IH _ _ _ Hy) as [ms [-> [El F]]].
      exists (x :: ms). split; [reflexivity|]. split; [cbn; lia|]. constructor; [|exact F]. now exists pre, (cat ms ++ post).
    + inversion Hr; subst. exists []. split; [reflexivity|]. split; [cbn; lia|constructor].
Qed.

Lemma rep_inv : forall r mn mx pre m post, mn <= mx -> Matches (apply_rep r mn (Some mx)) pre m post ->
  exists ms, m = cat ms /\ mn <= List.length ms <= mx /\ Forall (matched r) ms.
Proof.
  intros r mn mx pre m post Hm H. unfold apply_rep in H. inversion H as [| |? ? ? x y ? Hx Hy| | | | | |]; subst.
  destruct (pow_inv _ _ _ _ _ Hx) as [ms [-> [L1 F1]]]. destruct (opt_inv _ _ _ _ _ Hy) as [ns [-> [L2 F2]]].
  exists (ms ++ ns)%list. split; [symmetry; apply cat_app|]. split; [rewrite app_length; lia|]. now apply Forall_app.
Qed.

Lemma hexcls_inv : forall m, matched hexcls m -> exists c, m = String c "" /\ is_hex c = true.
Proof.
  intros m [pre [post H]]. rewrite hexcls_eq in H. inversion H as [|? ? c ? ? Hc| | | | | | |]; subst.
  exists c. split; [reflexivity|]. now rewrite <- hex_cls.
Qed.

Lemma h14_inv : forall m, matched h14 m -> is_group m.
Proof.
  intros m [pre [post H]]. destruct (rep_inv hexcls 1 4 pre m post) as [ms [-> [L F]]]; [lia|exact H|].
  assert (X : all_chars is_hex (cat ms) = true /\ String.length (cat ms) = List.length ms).
  { clear - F. induction F as [|x ms Hx F IH]; [split; reflexivity|].
    destruct (hexcls_inv x Hx) as [c [-> Hc]]. cbn [cat append all_chars String.length List.length]. rewrite Hc.
    destruct IH as [I1 I2]. rewrite I1, I2. split; reflexivity. }
  destruct X as [X1 X2]. split; [exact X1|]. rewrite X2. exact L.
Qed.

Lemma one_char : forall c pre m post, Matches (chr c) pre m post -> m = String c "".
Proof.
  intros c pre m post H. unfold chr in H. inversion H as [|? ? d ? ? Hd| | | | | | |]; subst. apply chr_match in Hd. now subst d.
Qed.

Lemma chr_inv : forall c pre m post, Matches (RCat (chr c) REps) pre m post -> m = String c "".
Proof.
  intros c pre m post H. inversion H as [| |? ? ? x y ? Hx Hy| | | | | |]; subst. inversion Hy; subst.
  rewrite (one_char c _ _ _ Hx). reflexivity.
Qed.

Lemma hc_inv : forall m, matched hc m -> exists g, m = g ++ ":" /\ is_group g.
Proof.
  intros m [pre [post H]]. unfold hc in H. inversion H as [| |? ? ? x y ? Hx Hy| | | | | |]; subst.
  apply chr_inv in Hy. subst y. exists x. split; [reflexivity|]. apply h14_inv. now exists pre, (":" ++ post).
Qed.

Lemma ch_inv : forall m, matched ch m -> exists g, m = ":" ++ g /\ is_group g.
Proof.
  intros m [pre [post H]]. unfold ch in H. inversion H as [| |? ? ? x y ? Hx Hy| | | | | |]; subst.
  inversion Hy as [| |? ? ? x' y' ? Hx' Hy'| | | | | |]; subst. inversion Hy'; subst.
  assert (E : x = ":").
  { apply (one_char ":" _ _ _ Hx). }
  subst x. exists x'. rewrite append_nil_r. split; [reflexivity|]. apply h14_inv. now exists (pre ++ ":"), ("" ++ post).
Qed.

Lemma hcs_inv : forall ms, Forall (matched hc) ms -> exists gs, cat ms = cj gs /\ List.length gs = List.length ms /\ Forall is_group gs.
Proof.
  intros ms F. induction F as [|x ms Hx F IH]; [exists []; repeat split; constructor|].
  destruct (hc_inv x Hx) as [g [-> Hg]]. destruct IH as [gs [E [L G]]]. exists (g :: gs).
  split; [cbn [cat cj]; rewrite E, append_assoc; reflexivity|]. split; [cbn; now rewrite L|now constructor].
Qed.

Lemma chs_inv : forall ms, Forall (matched ch) ms -> exists gs, cat ms = jc gs /\ List.length gs = List.length ms /\ Forall is_group gs.
Proof.
  intros ms F. induction F as [|x ms Hx F IH]; [exists []; repeat split; constructor|].
  destruct (ch_inv x Hx) as [g [-> Hg]]. destruct IH as [gs [E [L G]]]. exists (g :: gs).
  split; [cbn [cat jc]; rewrite E; cbn [append]; reflexivity|]. split; [cbn; now rewrite L|now constructor].
Qed.

Lemma v6s_inv : forall m, matched re_ipv6s m -> exists gs hs, m = cj gs ++ jc hs /\
  1 <= List.length gs <= 4 /\ 1 <= List.length hs <= 3 /\ Forall is_group gs /\ Forall is_group hs.
Proof.
  intros m [pre [post H]]. rewrite ipv6s_shape in H. inversion H as [| |? ? ? x y ? Hx Hy| | | | | |]; subst.
  inversion Hy as [| |? ? ? x' y' ? Hx' Hy'| | | | | |]; subst. inversion Hy'; subst.
  destruct (rep_inv hc 1 4 _ _ _ (le_S _ _ (le_S _ _ (le_S _ _ (le_n 1)))) Hx) as [ms [-> [L1 F1]]].
  destruct (rep_inv ch 1 3 _ _ _ (le_S _ _ (le_S _ _ (le_n 1))) Hx') as [ns [-> [L2 F2]]].
  destruct (hcs_inv ms F1) as [gs [E1 [M1 G1]]]. destruct (chs_inv ns F2) as [hs [E2 [M2 G2]]].
  exists gs, hs. rewrite E1, E2, append_nil_r. split; [reflexivity|]. split; [lia|]. split; [lia|]. now split.
Qed.

(* ------------------------------------------------------------------ *)
(** * Groups are told apart by their colons *)

Lemma hex_not_colon : forall c, is_hex c = true -> c <> ":"%char.
Proof. intros c H ->. discriminate H. Qed.

Lemma group_head : forall g s, is_group g -> exists c t, g ++ s = String c t /\ is_hex c = true.
Proof.
  intros g s [H L]. destruct g as [|c g]; [cbn in L; lia|]. cbn in H. apply andb_true_iff in H.
  exists c, (g ++ s). split; [reflexivity|]. apply H.
Qed.

Lemma colon_split : forall g b x y, all_chars is_hex g = true -> all_chars is_hex b = true ->
  g ++ String ":" x = b ++ String ":" y -> g = b /\ x = y.
Proof.
  induction g as [|c g IH]; intros b x y Hg Hb E.
  - destruct b as [|d b]; cbn [append] in E.
    + injection E as E. now split.
    + cbn in Hb. apply andb_true_iff in Hb. injection E as E0 E1. exfalso. apply (hex_not_colon d); [apply Hb|now symmetry].
  - cbn in Hg. apply andb_true_iff in Hg. destruct Hg as [Hc Hg]. destruct b as [|d b]; cbn [append] in E; injection E as E0 E1.
    + exfalso. now apply (hex_not_colon c).
    + subst d. cbn in Hb. apply andb_true_iff in Hb. destruct (IH b x y Hg (proj2 Hb) E1) as [-> ->]. now split.
Qed.

Lemma groups_cut : forall gs bs a b, Forall is_group gs -> Forall is_group bs ->
  cj gs ++ a = cj bs ++ String ":" b -> exists ds, bs = (gs ++ ds)%list /\ a = cj ds ++ String ":" b.
Proof.
  induction gs as [|g gs IH]; intros bs a b Hg Hb E; [exists bs; now split|].
  inversion Hg as [|? ? G1 G2]; subst. destruct bs as [|h bs].
  - exfalso. cbn [cj append] in E. rewrite append_assoc in E. destruct (group_head g (String ":" (cj gs) ++ a) G1) as [c [t [Ec Hc]]].
    rewrite Ec in E. injection E as E0 _. exact (hex_not_colon c Hc E0).
  - inversion Hb as [|? ? B1 B2]; subst. cbn [cj] in E. rewrite !append_assoc in E. cbn [append] in E.
    destruct (colon_split g h _ _ (proj1 G1) (proj1 B1) E) as [-> E'].
    destruct (IH bs a b G2 B2 E') as [ds [-> ->]]. exists ds. split; reflexivity.
Qed.

Lemma groups_same : forall gs bs a b, Forall is_group gs -> Forall is_group bs ->
  cj gs ++ String ":" a = cj bs ++ String ":" b -> gs = bs /\ a = b.
Proof.
  intros gs bs a b Hg Hb E. destruct (groups_cut gs bs _ b Hg Hb E) as [ds [-> Ea]]. destruct ds as [|d ds].
  - cbn in Ea. injection Ea as ->. rewrite app_nil_r. now split.
  - exfalso. apply Forall_app in Hb. destruct Hb as [_ Hd]. inversion Hd as [|? ? D _]; subst.
    cbn [cj] in Ea. rewrite append_assoc in Ea. destruct (group_head d (String ":" (cj ds) ++ String ":" b) D) as [c [t [Ec Hc]]].
    rewrite Ec in Ea. injection Ea as E0 _. now apply (hex_not_colon c).
Qed.

Lemma jc_head : forall hs, hs <> [] -> exists t, forall s, jc hs ++ s = String ":" (t ++ s).
Proof. intros [|h hs] H; [congruence|]. exists (h ++ jc hs). reflexivity. Qed.

Lemma cj_app : forall a b, cj (a ++ b)%list = cj a ++ cj b.
Proof. induction a as [|x a IH]; intros b; [reflexivity|]. cbn [List.app cj]. rewrite IH, append_assoc. reflexivity. Qed.

Lemma jc_app : forall a b, jc (a ++ b)%list = jc a ++ jc b.
Proof. induction a as [|x a IH]; intros b; [reflexivity|]. cbn [List.app jc append]. rewrite IH, append_assoc. reflexivity. Qed.

Lemma compressed_cj : forall bs cs, bs <> [] -> cs <> [] -> compressed_v6 bs cs = cj bs ++ jc cs.
Proof.
  intros bs cs Hb Hc. unfold compressed_v6. rewrite <- (join_cj bs Hb), <- (join_jc cs Hc), append_assoc. reflexivity.
Qed.

(** Every tail of a list of groups is one itself, unless it begins with a colon. *)
Lemma cj_tail : forall xs p c q, Forall is_group xs -> cj xs = p ++ String c q ->
  c = ":"%char \/ exists ys, ys <> [] /\ Forall is_group ys /\ String c q = cj ys.
Proof.
  induction xs as [|x xs IH]; intros p c q H E; [destruct p; discriminate E|].
  inversion H as [|? ? [Hx Lx] Hxs]; subst. cbn [cj] in E.
  assert (D : (exists p', p = x ++ String ":" p' /\ cj xs = p' ++ String c q) \/ (c = ":"%char) \/
              (exists x', is_group x' /\ String c q = x' ++ String ":" (cj xs))).
  { clear IH H Hxs. revert p E. assert (Lx' : String.length x <= 4) by lia. clear Lx. revert Lx' Hx.
    induction x as [|d x IHx]; intros Lx Hx p E; cbn [append] in E.
    - destruct p as [|e p]; cbn [append] in E; injection E as E0 E1; [right; left; now symmetry|].
      left. subst e. exists p. now split.
    - cbn in Hx. apply andb_true_iff in Hx. destruct Hx as [Hd Hx]. destruct p as [|e p]; cbn [append] in E; injection E as E0 E1.
      + right. right. subst d q. exists (String c x). split; [|reflexivity].
        split; [cbn; now rewrite Hd, Hx | cbn in *; lia].
      + subst e. destruct (IHx ltac:(cbn in Lx; lia) Hx p E1) as [(p' & -> & E2)|[Ec|R]].
        * left. exists p'. now split.
        * right. now left.
        * right. now right. }
  destruct D as [(p' & -> & E')|[Ec|(x' & Hx' & E')]].
  - exact (IH p' c q Hxs E').
  - now left.
  - right. exists (x' :: xs). split; [discriminate|]. split; [now constructor|exact E'].
Qed.

(* ------------------------------------------------------------------ *)
(** * What is logged of an address with groups on both sides of the double colon *)

Lemma v6s_skip : forall a xs ys cs rest, Forall is_group xs -> Forall is_group ys -> List.length ys = 4 -> cs <> [] ->
  let s := cj ys ++ jc cs ++ rest in let n := String.length (a ++ cj xs ++ s) in
  find_from n re_ipv6s (cj xs ++ s) = find_from n re_ipv6s s.
Proof.
  intros a xs ys cs rest Hx Hy L Hc s n. apply find_skip. intros p c q E. apply bt_none; [exact v6s_ctxfree|].
  intros m t Em Hm. destruct (v6s_inv m) as [gs [hs [-> [L1 [L2 [G1 G2]]]]]]; [now exists "", t|].
  assert (Hh : hs <> []) by (destruct hs; [cbn in L2; lia|discriminate]).
  destruct (cj_tail xs p c q Hx E) as [->|[zs [Hz [Gz Ez]]]].
  - destruct gs as [|g gs]; [cbn in L1; lia|]. inversion G1 as [|? ? Gg _]; subst.
    cbn [cj append] in Em. rewrite !append_assoc in Em.
    destruct (group_head g ((String ":" (cj gs) ++ jc hs ++ t)) Gg) as [d [u [Ed Hd]]]. rewrite Ed in Em.
    injection Em as E0 _. apply (hex_not_colon d Hd). now symmetry.
  - rewrite Ez in Em. unfold s in Em. destruct (jc_head hs Hh) as [u Hu]. destruct (jc_head cs Hc) as [v Hv].
    rewrite Hv in Em. rewrite (append_assoc (cj gs)), Hu in Em. rewrite <- (append_assoc (cj zs)), <- cj_app in Em. symmetry in Em.
    destruct (groups_same gs (zs ++ ys)%list _ _ G1 (proj2 (Forall_app _ _ _) (conj Gz Hy)) Em) as [-> _].
    rewrite app_length in L1. destruct zs; [congruence|]. cbn in L1. lia.
Qed.

Lemma v6s_first : forall n ys cs rest, Forall is_group ys -> Forall is_group cs -> 1 <= List.length ys <= 4 -> 1 <= List.length cs ->
  prefers n re_ipv6s (cj ys ++ jc cs ++ String "]" rest) (jc (skipn 3 cs) ++ String "]" rest).
Proof.
  intros n ys cs rest Gy Gc Ly Lc. rewrite ipv6s_shape. eapply prefers_cat.
  - eapply rep_chain; [apply hc_chain; exact Gy | lia | lia |]. right. destruct cs; [cbn in Lc; lia|reflexivity].
  - eapply prefers_cat; [|apply prefers_eps].
    assert (E : jc cs = jc (firstn 3 cs) ++ jc (skipn 3 cs)) by (rewrite <- jc_app, firstn_skipn; reflexivity).
    rewrite E at 1. rewrite append_assoc.
    assert (Gf : Forall is_group (firstn 3 cs)).
    { rewrite <- (firstn_skipn 3 cs) in Gc. now apply Forall_app in Gc. }
    eapply rep_chain with (k := List.length (firstn 3 cs)).
    + apply ch_chain; [exact Gf|]. destruct (skipn 3 cs); reflexivity.
    + destruct cs as [|c1 [|c2 [|c3 cs]]]; cbn in *; lia.
    + rewrite firstn_length. lia.
    + destruct (Nat.le_gt_cases 3 (List.length cs)) as [Hle|Hgt].
      * left. rewrite firstn_length. lia.
      * right. rewrite (skipn_all2 cs) by lia. reflexivity.
Qed.

Lemma skip_head : forall p s, no_v6_lookalike p ->
  find_from (String.length (p ++ String "[" s)) re_ipv6s (p ++ String "[" s) =
  find_from (String.length (p ++ String "[" s)) re_ipv6s s.
Proof.
  intros p s (H1 & H2 & H3 & _). apply find_skip_part;
    [exact v6s_ctxfree|exact (proj1 (avoids_brackets _ v6s_brackets))|exact (nonempty _ v6s_nonempty)|].
  exact (v6_absent _ p v6s_sim H1 H2 H3).
Qed.

Lemma logged_mid : forall p bs cs q, 1 <= List.length bs -> 1 <= List.length cs -> Forall is_group bs -> Forall is_group cs ->
  no_v6_lookalike p -> ~ colon_digits_dot (p ++ "[" ++ compressed_v6 bs cs ++ "]" ++ q) ->
  extract_addr (p ++ "[" ++ compressed_v6 bs cs ++ "]" ++ q) = compressed_v6 (skipn (List.length bs - 4) bs) (firstn 3 cs).
Proof.
  intros p bs cs q Lb Lc Gb Gc Hp Hd. unfold extract_addr. rewrite (find_none_of re_ipv64e) by now apply v64e_absent.
  assert (Hb : bs <> []) by (destruct bs; [cbn in Lb; lia|discriminate]).
  assert (Hc : cs <> []) by (destruct cs; [cbn in Lc; lia|discriminate]).
  set (xs := firstn (List.length bs - 4) bs). set (ys := skipn (List.length bs - 4) bs).
  assert (Eb : bs = (xs ++ ys)%list) by (symmetry; apply firstn_skipn).
  assert (Ly : List.length ys = Nat.min 4 (List.length bs)) by (unfold ys; rewrite skipn_length; lia).
  assert (Gxy : Forall is_group xs /\ Forall is_group ys) by (apply Forall_app; rewrite <- Eb; exact Gb).
  destruct Gxy as [Gx Gy].
  assert (Hy : ys <> []) by (intros F; rewrite F in Ly; cbn [List.length] in Ly; lia).
  rewrite (compressed_cj bs cs Hb Hc). rewrite (compressed_cj ys (firstn 3 cs) Hy) by (destruct cs; [congruence|discriminate]).
  unfold find. cbn [append]. rewrite (skip_head p _ Hp).
  assert (S1 : forall n, n = String.length (p ++ String "[" ((cj bs ++ jc cs) ++ String "]" q)) ->
    find_from n re_ipv6s ((cj bs ++ jc cs) ++ String "]" q) = find_from n re_ipv6s (cj ys ++ jc cs ++ String "]" q)).
  { intros n En. destruct (Nat.le_gt_cases (List.length bs) 4) as [Hle|Hgt].
    - assert (Ey : ys = bs) by (unfold ys; replace (List.length bs - 4) with 0 by lia; reflexivity).
      rewrite Ey, append_assoc. reflexivity.
    - pose proof (v6s_skip (p ++ "[") xs ys cs (String "]" q) Gx Gy ltac:(lia) Hc) as K. cbv zeta in K.
      assert (E1 : (cj bs ++ jc cs) ++ String "]" q = cj xs ++ cj ys ++ jc cs ++ String "]" q)
        by (rewrite Eb at 1; rewrite cj_app, !append_assoc; reflexivity).
      rewrite E1 in En |- *. rewrite append_assoc in K. cbn [append] in K. rewrite <- En in K. exact K. }
  rewrite (S1 _ eq_refl). rewrite (find_here _ _ _ _ (v6s_first _ ys cs q Gy Gc ltac:(lia) Lc)).
  assert (E3 : cj ys ++ jc cs ++ String "]" q = (cj ys ++ jc (firstn 3 cs)) ++ (jc (skipn 3 cs) ++ String "]" q)).
  { rewrite append_assoc. f_equal. rewrite <- append_assoc. f_equal. rewrite <- jc_app, firstn_skipn. reflexivity. }
  rewrite E3. now rewrite take_app.
Qed.

(* ------------------------------------------------------------------ *)
(** * A double colon at the end *)

Definition v6_alt1 : re := RCat (apply_rep hc 7 (Some 7)) (RCat h14 REps).

Lemma v6_second : exists rest, re_ipv6 =
  RCat (RAlt v6_alt1 (RAlt (RCat (apply_rep hc 1 (Some 7)) (RCat (chr ":") REps)) rest)) REps.
Proof. eexists. vm_compute. reflexivity. Qed.

Lemma v6_trailing : forall n bs rest, 1 <= List.length bs <= 7 -> Forall is_group bs ->
  prefers n re_ipv6 (compressed_v6 bs [] ++ String "]" rest) (String "]" rest).
Proof.
  intros n bs rest L G. destruct v6_second as [r ->]. eapply prefers_cat; [|apply prefers_eps].
  assert (Hb : bs <> []) by (destruct bs; [cbn in L; lia|discriminate]).
  assert (E : compressed_v6 bs [] = cj bs ++ ":").
  { unfold compressed_v6. change (join ":" []) with "". rewrite <- (join_cj bs Hb), append_assoc. reflexivity. }
  rewrite E, append_assoc. cbn [append]. apply prefers_alt_r.
  - apply bt_none; [vm_compute; reflexivity|]. intros m t Em Hm. unfold v6_alt1 in Hm.
    inversion Hm as [| |? ? ? x y ? Hx Hy| | | | | |]; subst. inversion Hy as [| |? ? ? x' y' ? Hx' Hy'| | | | | |]; subst.
    inversion Hy'; subst. destruct (rep_inv hc 7 7 _ _ _ (le_n 7) Hx) as [ms [-> [L1 F1]]].
    destruct (hcs_inv ms F1) as [gs [E1 [M1 G1]]]. rewrite E1, append_nil_r, append_assoc in Em.
    assert (Hg : is_group x') by (apply h14_inv; now exists ("" ++ cat ms), ("" ++ t)).
    destruct (groups_cut gs bs (x' ++ t) (String "]" rest) G1 G ltac:(now symmetry)) as [ds [E2 E3]].
    assert (ds = []) by (apply (f_equal (@List.length string)) in E2; rewrite app_length in E2; destruct ds; [reflexivity|cbn in E2; lia]).
    subst ds. destruct (group_head x' t Hg) as [c [u [Ec Hhc]]]. rewrite Ec in E3. injection E3 as E0 _. now apply (hex_not_colon c).
  - apply prefers_alt_l. eapply prefers_cat; [|eapply prefers_cat; [apply prefers_chr | apply prefers_eps]].
    eapply rep_chain; [apply hc_chain; exact G | lia | lia |]. right. reflexivity.
Qed.

Lemma v6_double : forall n rest, prefers n re_ipv6 ("::" ++ String "]" rest) (String "]" rest).
Proof. intros n rest. eexists. vm_compute. reflexivity. Qed.

Lemma trailing_run : forall bs, Forall is_group bs -> run d_hcch 0 (compressed_v6 bs []) <> 4.
Proof.
  intros bs G. unfold compressed_v6. rewrite run_app. change (join ":" []) with "". rewrite append_nil_r.
  pose proof (join_run bs 0 G (le_S _ _ (le_S _ _ (le_n 0)))) as H.
  destruct (run d_hcch 0 (join ":" bs)) as [|[|[|k]]]; [discriminate|discriminate|discriminate|lia].
Qed.

(** When an address with a double colon is logged as it is. *)
Lemma exact_compressed : forall p bs cs q, List.length bs + List.length cs <= 7 -> Forall is_group bs -> Forall is_group cs ->
  no_v6_lookalike p -> no_v6_lookalike q -> ~ colon_digits_dot (p ++ "[" ++ compressed_v6 bs cs ++ "]" ++ q) ->
  (extract_addr (p ++ "[" ++ compressed_v6 bs cs ++ "]" ++ q) = compressed_v6 bs cs <->
   List.length bs = 0 \/ List.length cs = 0 \/ List.length bs <= 4 /\ List.length cs <= 3).
Proof.
  intros p bs cs q L Gb Gc Hp Hq Hd. destruct bs as [|b bs].
  - split; [now left|intros _]. destruct cs as [|c cs].
    + apply extract_bracketed; try assumption. right.
      split; [apply v6s_hcch; vm_compute; discriminate|intros n; apply v6_double].
    + apply extract_v6; try assumption. apply found_leading; [cbn in *; lia|exact Gc].
  - destruct cs as [|c cs].
    + split; [right; now left|intros _]. apply extract_bracketed; try assumption. right.
      split; [apply v6s_hcch; now apply trailing_run|intros n; apply v6_trailing; [cbn in *; lia|exact Gb]].
    + rewrite logged_mid; [|cbn; lia|cbn; lia|exact Gb|exact Gc|exact Hp|exact Hd].
      set (bs' := b :: bs) in *. set (cs' := c :: cs) in *.
      assert (Nb : bs' <> []) by discriminate. assert (Nc : cs' <> []) by discriminate.
      assert (Nf : firstn 3 cs' <> []) by discriminate.
      assert (Ls : List.length (skipn (List.length bs' - 4) bs') = Nat.min 4 (List.length bs')) by (rewrite skipn_length; lia).
      assert (Ns : skipn (List.length bs' - 4) bs' <> []).
      { intros F. rewrite F in Ls. unfold bs' in Ls. cbn in Ls. lia. }
      assert (Gs : Forall is_group (skipn (List.length bs' - 4) bs')).
      { rewrite <- (firstn_skipn (List.length bs' - 4) bs') in Gb. now apply Forall_app in Gb. }
      split.
      * intros E. rewrite (compressed_cj _ _ Ns Nf), (compressed_cj _ _ Nb Nc) in E. right. right.
        assert (E' := E). unfold cs' in E'. cbn [firstn jc] in E'.
        destruct (groups_same _ _ _ _ Gs Gb E') as [Es _].
        assert (Lb : List.length bs' <= 4) by (apply (f_equal (@List.length string)) in Es; rewrite Ls in Es; lia).
        split; [exact Lb|]. rewrite Es in E.
        assert (CJ : forall l, Forall is_group l -> count_chars (Ascii.eqb ":") (jc l) = List.length l).
        { clear. intros l G. induction G as [|g l [Hg _] G IH]; [reflexivity|]. cbn [jc count_chars]. rewrite count_app, IH.
          rewrite (count_none _ is_hex g Hg); [reflexivity|]. intros c Hc. destruct (Ascii.eqb_spec ":" c) as [<-|_]; [discriminate Hc|reflexivity]. }
        apply (f_equal (count_chars (Ascii.eqb ":"))) in E. rewrite !count_app, (CJ cs' Gc), (CJ (firstn 3 cs')) in E.
        -- rewrite firstn_length in E. lia.
        -- rewrite <- (firstn_skipn 3 cs') in Gc. now apply Forall_app in Gc.
      * intros [F|[F|[L1 L2]]]; [discriminate F|discriminate F|].
        replace (List.length bs' - 4) with 0 by lia. rewrite firstn_all2 by exact L2. reflexivity.
Qed.

Lemma legible_exact : forall p addr q, ipv6_text addr -> no_v6_lookalike p -> no_v6_lookalike q ->
  ~ colon_digits_dot (p ++ "[" ++ addr ++ "]" ++ q) ->
  (extract_addr (p ++ "[" ++ addr ++ "]" ++ q) = addr <-> legible_text addr).
Proof.
  intros p addr q Ha Hp Hq Hd. destruct Ha as [gs L G|bs cs L Gb Gc].
  - split; [intros _; now apply legible_full|intros _]. apply extract_v6; try assumption. now apply found_full.
  - split.
    + intros E. apply exact_compressed in E; try assumption. destruct E as [E|[E|[E1 E2]]].
      * destruct bs; [|discriminate E]. apply legible_leading; [cbn in L; lia|exact Gc].
      * destruct cs; [|discriminate E]. apply legible_trailing; [cbn in L; lia|exact Gb].
      * destruct bs as [|b bs]; [apply legible_leading; [cbn in L; lia|exact Gc]|].
        destruct cs as [|c cs]; [apply legible_trailing; [cbn in L; lia|exact Gb]|].
        apply legible_mid; [cbn in *; lia|cbn in *; lia|exact Gb|exact Gc].
    + intros H. destruct H as [gs L' G|bs' cs' L1 L2 G1 G2|cs' L1 G1|bs' L1 G1].
      * apply extract_v6; try assumption. now apply found_full.
      * apply exact_compressed; try assumption; [lia|]. right. right. lia.
      * apply exact_compressed; try assumption; [constructor|]. now left.
      * apply exact_compressed; try assumption; [cbn; lia|constructor|]. right. now left.
Qed.

(* ------------------------------------------------------------------ *)
(** * The texts of addresses *)

Lemma hex_char_hex : forall n, is_hex (hex_char n) = true.
Proof.
  intros n. unfold hex_char. generalize (N.to_nat n) as k. intros k.
  do 16 (destruct k as [|k]; [reflexivity|]). destruct k; reflexivity.
Qed.

Lemma hex_group_group : forall n, is_group (hex_group n).
Proof.
  intros n. unfold hex_group.
  destruct (n <? 4096)%N, (n <? 256)%N, (n <? 16)%N; cbn [append]; split; cbn [all_chars String.length]; rewrite ?hex_char_hex; try reflexivity; lia.
Qed.

Lemma hex_groups : forall gs, Forall is_group (map hex_group gs).
Proof. induction gs as [|g gs IH]; constructor; [apply hex_group_group|exact IH]. Qed.

Lemma zeros_nth : forall gs i, i < zeros gs -> nth i gs 1%N = 0%N.
Proof.
  induction gs as [|g gs IH]; intros i H; cbn [zeros] in H; [lia|].
  destruct (N.eqb_spec g 0) as [->|_]; [|lia]. destruct i as [|i]; [reflexivity|]. apply IH. lia.
Qed.

Lemma zeros_le : forall gs, zeros gs <= List.length gs.
Proof. induction gs as [|g gs IH]; cbn [zeros List.length]; [lia|]. destruct (g =? 0)%N; lia. Qed.

Lemma zeros_most : forall gs l, l <= List.length gs -> (forall i, i < l -> nth i gs 1%N = 0%N) -> l <= zeros gs.
Proof.
  induction gs as [|g gs IH]; intros l L H; [cbn in *; lia|]. destruct l as [|l]; [lia|].
  pose proof (H 0 ltac:(lia)) as E. cbn [nth] in E. subst g. cbn [zeros].
  assert (l <= zeros gs); [|cbn; lia]. apply IH; [cbn in L; lia|]. intros i Hi. apply (H (S i)). lia.
Qed.

Lemma run_here : forall pre gs, zero_run (pre ++ gs) (List.length pre) (zeros gs).
Proof.
  intros pre gs. split; [rewrite app_length; pose proof (zeros_le gs); lia|]. intros i Hi.
  rewrite app_nth2 by lia. apply zeros_nth. lia.
Qed.

Lemma run_most : forall pre gs l, zero_run (pre ++ gs) (List.length pre) l -> l <= zeros gs.
Proof.
  intros pre gs l [H1 H2]. rewrite app_length in H1. apply zeros_most; [lia|]. intros i Hi.
  specialize (H2 (List.length pre + i) ltac:(lia)). rewrite app_nth2 in H2 by lia.
  now replace (List.length pre + i - List.length pre) with i in H2 by lia.
Qed.

Definition best (gs : list N) (i : nat) (cur : nat * nat) : Prop :=
  (snd cur = 0 -> fst cur = 0) /\ zero_run gs (fst cur) (snd cur) /\
  (forall s l, s < i -> zero_run gs s l -> l <= snd cur) /\
  (forall s l, s < fst cur -> zero_run gs s l -> l < snd cur).

Lemma best_run_best : forall gs pre cur, best (pre ++ gs) (List.length pre) cur ->
  best (pre ++ gs) (List.length (pre ++ gs)) (best_run (List.length pre) gs cur).
Proof.
  induction gs as [|g gs IH]; intros pre cur H.
  - cbn [best_run]. rewrite app_nil_r in *. exact H.
  - cbn [best_run].
    assert (E : (pre ++ g :: gs)%list = ((pre ++ [g]) ++ gs)%list) by (rewrite <- app_assoc; reflexivity).
    assert (El : S (List.length pre) = List.length (pre ++ [g])) by (rewrite app_length; cbn; lia).
    set (nxt := if (snd cur <? zeros (g :: gs))%nat then (List.length pre, zeros (g :: gs)) else cur).
    assert (B : best (pre ++ g :: gs) (S (List.length pre)) nxt).
    { destruct H as (H0 & H1 & H2 & H3). unfold nxt. destruct (Nat.ltb_spec (snd cur) (zeros (g :: gs))) as [Hlt|Hge].
      - split; [cbn [fst snd]; lia|]. split; [apply run_here|]. cbn [fst snd]. split.
        + intros s l Hs Hr. destruct (Nat.eq_dec s (List.length pre)) as [->|Hn]; [now apply run_most in Hr|].
          specialize (H2 s l ltac:(lia) Hr). lia.
        + intros s l Hs Hr. specialize (H2 s l Hs Hr). lia.
      - split; [exact H0|]. split; [exact H1|]. split; [|exact H3]. intros s l Hs Hr.
        destruct (Nat.eq_dec s (List.length pre)) as [->|Hn]; [apply run_most in Hr; lia|]. apply (H2 s l); [lia|exact Hr]. }
    rewrite E in B |- *. rewrite El in B |- *. exact (IH (pre ++ [g])%list nxt B).
Qed.

Lemma best_of : forall gs, best gs (List.length gs) (best_run 0 gs (0, 0)).
Proof.
  intros gs. apply (best_run_best gs [] (0, 0)). cbn [fst snd List.length List.app].
  split; [reflexivity|]. split; [split; [cbn; lia|intros i Hi; cbn in Hi; lia]|]. split; intros s l Hs; cbn in Hs; lia.
Qed.

Lemma run_start : forall gs s l, zero_run gs s l -> 0 < l -> s < List.length gs.
Proof. intros gs s l [H _] Hl. lia. Qed.

(** The run that is abbreviated is the one the specification means. *)
Lemma abbreviated_iff : forall gs s l, abbreviated gs s l <-> best_run 0 gs (0, 0) = (s, l) /\ 2 <= l.
Proof.
  intros gs s l. destruct (best_of gs) as (_ & B1 & B2 & B3). destruct (best_run 0 gs (0, 0)) as [s0 l0]. cbn [fst snd] in *.
  split.
  - intros (H1 & H2 & H3 & H4). assert (L1 : l0 <= l) by exact (H3 _ _ B1).
    assert (L2 : l <= l0) by (apply (B2 s l); [apply (run_start gs s l H2); lia|exact H2]).
    assert (l0 = l) by lia. subst l0. split; [|exact H1]. f_equal.
    assert (s <= s0) by exact (H4 s0 B1).
    destruct (Nat.lt_ge_cases s s0) as [Hlt|Hge]; [|lia]. specialize (B3 s l Hlt H2). lia.
  - intros [E H]. injection E as -> ->. split; [exact H|]. split; [exact B1|]. split.
    + intros s' l' Hr. destruct l' as [|l']; [lia|]. apply (B2 s' (S l')); [apply (run_start gs s' (S l') Hr); lia|exact Hr].
    + intros s' Hr. destruct (Nat.lt_ge_cases s' s) as [Hlt|Hge]; [|lia]. specialize (B3 s' l Hlt Hr). lia.
Qed.

Lemma no_run_iff : forall gs, List.length gs = 8 ->
  (snd (best_run 0 gs (0, 0)) <= 1 <-> forall i, i < 7 -> ~ (nth i gs 1%N = 0%N /\ nth (S i) gs 1%N = 0%N)).
Proof.
  intros gs L. destruct (best_of gs) as (_ & B1 & B2 & _). destruct (best_run 0 gs (0, 0)) as [s0 l0]. cbn [fst snd] in *. split.
  - intros H i Hi [E1 E2]. assert (2 <= l0); [|lia]. apply (B2 i 2); [lia|]. split; [lia|]. intros j Hj.
    assert (j = i \/ j = S i) as [->| ->] by lia; assumption.
  - intros H. destruct (Nat.le_gt_cases l0 1) as [Hle|Hgt]; [exact Hle|]. exfalso. destruct B1 as [B0 B1].
    apply (H s0); [lia|]. split; apply B1; lia.
Qed.

(** A text with hexadecimal digits and colons only has no dot. *)
Lemma no_dot : forall s, count_chars (Ascii.eqb ".") s = 0 -> ~ colon_digits_dot s.
Proof.
  intros s H [a [ds [b [-> _]]]]. rewrite !count_app in H. cbn in H. lia.
Qed.

Lemma join_no_dot : forall gs, Forall is_group gs -> count_chars (Ascii.eqb ".") (join ":" gs) = 0.
Proof.
  intros gs G. induction G as [|g gs [Hg Lg] G IH]; [reflexivity|].
  assert (E : count_chars (Ascii.eqb ".") g = 0).
  { apply (count_none _ is_hex g Hg). intros c Hc. destruct (Ascii.eqb_spec "." c) as [<-|_]; [discriminate Hc|reflexivity]. }
  destruct gs as [|g' gs]; [exact E|].
  change (join ":" (g :: g' :: gs)) with (g ++ String ":" (join ":" (g' :: gs))).
  rewrite count_app, E. exact IH.
Qed.

Lemma port_no_dot : forall port, count_chars (Ascii.eqb ".") (itoa port) = 0.
Proof. intros port. apply (count_none _ is_digit); [apply itoa_digits|]. intros c Hc. now apply digit_not. Qed.

Lemma port_lookalike : forall port, no_v6_lookalike (":" ++ itoa port).
Proof.
  intros port.
  assert (Hp : count_chars (Ascii.eqb ":") (itoa port) = 0)
    by (eapply count_none; [apply itoa_digits | intros x Hx; now apply digit_not]).
  assert (Hq : count_chars (Ascii.eqb "%") (itoa port) = 0)
    by (eapply count_none; [apply itoa_digits | intros x Hx; now apply digit_not]).
  split; [|split; [|split]].
  - apply not_true_iff_false. intros H. apply (contains_count (Ascii.eqb ":")) in H. rewrite count_app, Hp in H. cbn in H. lia.
  - apply not_true_iff_false. intros H. apply (contains_count (Ascii.eqb "%")) in H. rewrite count_app, Hq in H. cbn in H. lia.
  - rewrite count_app, Hp. cbn. lia.
  - apply no_dot. rewrite count_app, port_no_dot. reflexivity.
Qed.

Lemma bracket_no_dot : forall a port, count_chars (Ascii.eqb ".") a = 0 -> ~ colon_digits_dot ("[" ++ a ++ "]" ++ ":" ++ itoa port).
Proof. intros a port H. apply no_dot. rewrite !count_app, H, port_no_dot. reflexivity. Qed.

Lemma empty_lookalike : no_v6_lookalike "".
Proof. apply lookalike_dec. reflexivity. Qed.

Lemma to4_iff : forall gs, (exists xy, to4 gs = Some xy) <-> mapped gs.
Proof.
  intros gs. split.
  - intros [xy E]. unfold to4 in E.
    repeat match type of E with context [match ?v with _ => _ end] => is_var v; destruct v; try discriminate E end.
    eexists. eexists. reflexivity.
  - intros (x & y & ->). eexists. reflexivity.
Qed.

Lemma to4_some : forall gs x y, to4 gs = Some (x, y) -> gs = [0; 0; 0; 0; 0; 65535; x; y]%N.
Proof.
  intros gs x y E. destruct (proj1 (to4_iff gs) (ex_intro _ _ E)) as (x' & y' & ->). cbn in E. injection E as -> ->. reflexivity.
Qed.

Lemma skipn_len : forall (gs : list N) k, List.length gs = 8 -> List.length (skipn k gs) = 8 - k.
Proof. intros gs k L. rewrite skipn_length, L. reflexivity. Qed.

(** Addresses within messages *)
Lemma v6_message : forall p gs q, address gs -> ~ mapped gs -> no_v6_lookalike p -> no_v6_lookalike q ->
  ~ colon_digits_dot (p ++ "[" ++ ip_text gs ++ "]" ++ q) ->
  (extract_addr (p ++ "[" ++ ip_text gs ++ "]" ++ q) = ip_text gs <-> legible gs).
Proof.
  intros p gs q [L B] Nm Hp Hq. unfold ip_text. pose proof (abbreviated_iff gs) as A. pose proof (no_run_iff gs L) as NR.
  destruct (best_of gs) as (_ & [B0 _] & _ & _).
  destruct (best_run 0 gs (0, 0)) as [s l] eqn:Er. cbn [fst snd] in *.
  destruct (Nat.leb_spec l 1) as [Hl|Hl]; intros Hd.
  - split; [intros _; right; left; now apply NR|intros _].
    assert (Lm : List.length (map hex_group gs) = 8) by now rewrite map_length.
    apply (extract_v6 p (full_v6 (map hex_group gs)) q); try assumption. apply found_full; [exact Lm|apply hex_groups].
  - set (bs := map hex_group (firstn s gs)) in *. set (cs := map hex_group (skipn (s + l) gs)) in *.
    assert (Lb : List.length bs = s) by (unfold bs; rewrite map_length, firstn_length; lia).
    assert (Lc : List.length cs = 8 - (s + l)) by (unfold cs; rewrite map_length; now apply skipn_len).
    change (join ":" bs ++ "::" ++ join ":" cs) with (compressed_v6 bs cs) in *.
    rewrite (exact_compressed p bs cs q ltac:(lia) (hex_groups _) (hex_groups _) Hp Hq Hd).
    rewrite Lb, Lc. split.
    + intros H. right. right. exists s, l. split; [apply A; split; [reflexivity|exact Hl]|]. lia.
    + intros [M|[N|(s' & l' & H1 & H2)]]; [contradiction|apply NR in N; lia|].
      apply A in H1. destruct H1 as [H1 _]. injection H1 as <- <-. lia.
Qed.

Lemma ip_text_no_dot : forall gs, count_chars (Ascii.eqb ".") (ip_text gs) = 0.
Proof.
  intros gs. unfold ip_text. destruct (best_run 0 gs (0, 0)) as [s l]. destruct (l <=? 1)%nat.
  - apply join_no_dot, hex_groups.
  - rewrite !count_app. now rewrite !join_no_dot by apply hex_groups.
Qed.

Lemma clients_logged : forall gs port, address gs ->
  (extract_addr (remote_addr gs port) = host_text gs <-> legible gs).
Proof.
  intros gs port Ha. unfold remote_addr, host_text. destruct (to4 gs) as [[x y]|] eqn:E4.
  - split; [intros _; left; apply to4_iff; now exists (x, y)|intros _]. destruct Ha as [L B].
    apply to4_some in E4. subst gs. apply Forall_forall with (x := x) in B as Bx; [|cbn; tauto].
    apply Forall_forall with (x := y) in B as By; [|cbn; tauto]. cbn beta in Bx, By.
    assert (O : forall v, (v < 65536)%N -> is_octet (v / 256) /\ is_octet (v mod 256)).
    { intros v Hv. split; [apply N.div_lt_upper_bound; [discriminate|exact Hv]|apply N.mod_lt; discriminate]. }
    apply extract_host_port; apply O; assumption.
  - assert (Nm : ~ mapped gs). { intros M. apply to4_iff in M. destruct M as [xy M]. congruence. }
    apply (v6_message "" gs (":" ++ itoa port) Ha Nm empty_lookalike (port_lookalike port)).
    apply (bracket_no_dot (ip_text gs) port). apply ip_text_no_dot.
Qed.
