From Coq Require Import String Ascii List Bool NArith Arith Lia.
From Verif Require Import GoStr Regex RegexSpec RegexProofs Iprex IprexSpec IprexProofs IpText IpTextSpec IpTextProofs AddrReadSpec AddrReadProofs AddrZone AddrZoneSpec.
Import ListNotations.
Local Open Scope string_scope.

(** * What follows an address, if it is neither a digit nor a colon, does not matter *)

Lemma v6s_zone : forallb (Nat.eqb 0) (sim (d_avoid (Ascii.eqb "%")) 2 re_ipv6s [0]) = true.
Proof. vm_compute. reflexivity. Qed.

Lemma v6s_avoids : avoids_char "%" re_ipv6s.
Proof. intros pre m post Hm. exact (avoids _ _ _ _ _ v6s_zone Hm). Qed.

(** Simple pattern *)
Lemma z_first : forall n ys cs rest, Forall is_group ys -> Forall is_group cs -> 1 <= List.length ys <= 4 -> 1 <= List.length cs ->
  prefers n re_ipv6s (cj ys ++ jc cs ++ String "%" rest) (jc (skipn 3 cs) ++ String "%" rest).
Proof.
  intros n ys cs rest Gy Gc Ly Lc. rewrite ipv6s_shape. eapply prefers_cat.
  - eapply rep_chain; [apply hc_chain; exact Gy | lia | lia |]. right. destruct cs; [cbn in Lc; lia|reflexivity].
  - eapply prefers_cat; [|apply prefers_eps].
    assert (E : jc cs = jc (firstn 3 cs) ++ jc (skipn 3 cs)) by (rewrite <- jc_app, firstn_skipn; reflexivity).
    rewrite E at 1. rewrite append_assoc.
    assert (Gf : Forall is_group (firstn 3 cs)).
    { rewrite <- (firstn_skipn 3 cs) in Gc. now apply Forall_app in Gc. }
    eapply rep_chain with (k := List.length (firstn 3 cs)).
    + apply ch_chain; [exact Gf|]. destruct (skipn 3 cs); reflexivity.
    + destruct cs as [|c1 [|c2 [|c3 cs]]]; cbn in *; lia.
    + rewrite firstn_length. lia.
    + destruct (Nat.le_gt_cases 3 (List.length cs)) as [Hle|Hgt].
      * left. rewrite firstn_length. lia.
      * right. rewrite (skipn_all2 cs) by lia. reflexivity.
Qed.

Lemma z_mid : forall bs cs q, 1 <= List.length bs -> 1 <= List.length cs -> Forall is_group bs -> Forall is_group cs ->
  ~ colon_digits_dot ("[" ++ compressed_v6 bs cs ++ "%" ++ q) ->
  extract_addr ("[" ++ compressed_v6 bs cs ++ "%" ++ q) = compressed_v6 (skipn (List.length bs - 4) bs) (firstn 3 cs).
Proof.
  intros bs cs q Lb Lc Gb Gc Hd. unfold extract_addr. rewrite (find_none_of re_ipv64e) by now apply v64e_absent.
  assert (Hb : bs <> []) by (destruct bs; [cbn in Lb; lia|discriminate]).
  assert (Hc : cs <> []) by (destruct cs; [cbn in Lc; lia|discriminate]).
  set (xs := firstn (List.length bs - 4) bs). set (ys := skipn (List.length bs - 4) bs).
  assert (Eb : bs = (xs ++ ys)%list) by (symmetry; apply firstn_skipn).
  assert (Ly : List.length ys = Nat.min 4 (List.length bs)) by (unfold ys; rewrite skipn_length; lia).
  assert (Gxy : Forall is_group xs /\ Forall is_group ys) by (apply Forall_app; rewrite <- Eb; exact Gb).
  destruct Gxy as [Gx Gy].
  assert (Hy : ys <> []) by (intros F; rewrite F in Ly; cbn [List.length] in Ly; lia).
  rewrite (compressed_cj bs cs Hb Hc). rewrite (compressed_cj ys (firstn 3 cs) Hy) by (destruct cs; [congruence|discriminate]).
  unfold find. cbn [append].
  pose proof (skip_head "" ((cj bs ++ jc cs) ++ String "%" q) empty_lookalike) as SH. cbn [append] in SH. rewrite SH. clear SH.
  assert (S1 : forall n, n = String.length (String "[" ((cj bs ++ jc cs) ++ String "%" q)) ->
    find_from n re_ipv6s ((cj bs ++ jc cs) ++ String "%" q) = find_from n re_ipv6s (cj ys ++ jc cs ++ String "%" q)).
  { intros n En. destruct (Nat.le_gt_cases (List.length bs) 4) as [Hle|Hgt].
    - assert (Ey : ys = bs) by (unfold ys; replace (List.length bs - 4) with 0 by lia; reflexivity).
      rewrite Ey, append_assoc. reflexivity.
    - pose proof (v6s_skip "[" xs ys cs (String "%" q) Gx Gy ltac:(lia) Hc) as K. cbv zeta in K.
      assert (E1 : (cj bs ++ jc cs) ++ String "%" q = cj xs ++ cj ys ++ jc cs ++ String "%" q)
        by (rewrite Eb at 1; rewrite cj_app, !append_assoc; reflexivity).
      rewrite E1 in En |- *. cbn [append] in K. rewrite <- En in K. exact K. }
  rewrite (S1 _ eq_refl). rewrite (find_here _ _ _ _ (z_first _ ys cs q Gy Gc ltac:(lia) Lc)).
  assert (E3 : cj ys ++ jc cs ++ String "%" q = (cj ys ++ jc (firstn 3 cs)) ++ (jc (skipn 3 cs) ++ String "%" q)).
  { rewrite append_assoc. f_equal. rewrite <- append_assoc. f_equal. rewrite <- jc_app, firstn_skipn. reflexivity. }
  rewrite E3. now rewrite take_app.
Qed.

(** Extended pattern: the alternatives before the one for zones come first. *)
Lemma z_full : forall n gs rest, List.length gs = 8 -> Forall is_group gs ->
  prefers n re_ipv6 (full_v6 gs ++ String "%" rest) (String "%" rest).
Proof.
  intros n gs rest Hl Hg.
  destruct ipv6_shape as [a2 [a3 [a4 [a5 [a6 [a7 [a8 [r9 [-> _]]]]]]]]].
  eapply prefers_cat; [|apply prefers_eps]. apply prefers_alt_l.
  assert (E : exists hs g, gs = (hs ++ [g])%list /\ List.length hs = 7).
  { destruct (exists_last (l := gs)) as [hs [g ->]]; [destruct gs; discriminate|].
    exists hs, g. split; [reflexivity|]. rewrite app_length in Hl. cbn in Hl. lia. }
  destruct E as [hs [g [-> Hh]]]. apply Forall_app in Hg. destruct Hg as [Hhs Hg].
  inversion Hg as [|? ? Hg1 _]; subst.
  assert (J : full_v6 (hs ++ [g]) = cj hs ++ g).
  { unfold full_v6. clear. induction hs as [|h hs IH]; [reflexivity|].
    cbn [List.app cj]. rewrite append_assoc. cbn [append].
    destruct (hs ++ [g])%list as [|x xs] eqn:Ex; [destruct hs; discriminate|].
    change (join ":" (h :: x :: xs)) with (h ++ String ":" (join ":" (x :: xs))).
    now rewrite IH. }
  rewrite J, append_assoc. eapply prefers_cat.
  - eapply rep_chain; [apply hc_chain; exact Hhs | lia | lia | left; lia].
  - eapply prefers_cat; [apply h14_prefers; [exact Hg1 | reflexivity] | apply prefers_eps].
Qed.

Lemma z_leading : forall n cs rest, 1 <= List.length cs <= 7 -> Forall is_group cs ->
  prefers n re_ipv6 (compressed_v6 [] cs ++ String "%" rest) (String "%" rest).
Proof.
  intros n cs rest Hc Gc.
  destruct ipv6_shape as [a2 [a3 [a4 [a5 [a6 [a7 [a8 [r9 [-> Hn]]]]]]]]].
  assert (Ec : cs <> []) by (destruct cs; [cbn in Hc; lia | discriminate]).
  change (compressed_v6 [] cs) with (String ":" (String ":" (join ":" cs))). rewrite (join_jc cs Ec).
  destruct (Hn n (jc cs ++ String "%" rest)) as [N2 [N3 [N4 [N5 [N6 [N7 N8]]]]]].
  eapply prefers_cat; [|apply prefers_eps].
  apply prefers_alt_r; [reflexivity|]. cbn [append].
  do 7 (apply prefers_alt_r; [assumption|]).
  apply prefers_alt_l. eapply prefers_cat; [apply prefers_chr|].
  eapply prefers_cat; [|apply prefers_eps]. apply prefers_alt_l.
  eapply prefers_cat; [|apply prefers_eps].
  eapply rep_chain; [apply ch_chain; [exact Gc | reflexivity] | lia | lia |].
  right. reflexivity.
Qed.

Lemma z_trailing : forall n bs rest, 1 <= List.length bs <= 7 -> Forall is_group bs ->
  prefers n re_ipv6 (compressed_v6 bs [] ++ String "%" rest) (String "%" rest).
Proof.
  intros n bs rest L G. destruct v6_second as [r ->]. eapply prefers_cat; [|apply prefers_eps].
  assert (Hb : bs <> []) by (destruct bs; [cbn in L; lia|discriminate]).
  assert (E : compressed_v6 bs [] = cj bs ++ ":").
  { unfold compressed_v6. change (join ":" []) with "". rewrite <- (join_cj bs Hb), append_assoc. reflexivity. }
  rewrite E, append_assoc. cbn [append]. apply prefers_alt_r.
  - apply bt_none; [vm_compute; reflexivity|]. intros m t Em Hm. unfold v6_alt1 in Hm.
    inversion Hm as [| |? ? ? x y ? Hx Hy| | | | | |]; subst. inversion Hy as [| |? ? ? x' y' ? Hx' Hy'| | | | | |]; subst.
    inversion Hy'; subst. destruct (rep_inv hc 7 7 _ _ _ (le_n 7) Hx) as [ms [-> [L1 F1]]].
    destruct (hcs_inv ms F1) as [gs [E1 [M1 G1]]]. rewrite E1, append_nil_r, append_assoc in Em.
    assert (Hg : is_group x') by (apply h14_inv; now exists ("" ++ cat ms), ("" ++ t)).
    destruct (groups_cut gs bs (x' ++ t) (String "%" rest) G1 G ltac:(now symmetry)) as [ds [E2 E3]].
    assert (ds = []) by (apply (f_equal (@List.length string)) in E2; rewrite app_length in E2; destruct ds; [reflexivity|cbn in E2; lia]).
    subst ds. destruct (group_head x' t Hg) as [c [u [Ec Hhc]]]. rewrite Ec in E3. injection E3 as E0 _. now apply (hex_not_colon c).
  - apply prefers_alt_l. eapply prefers_cat; [|eapply prefers_cat; [apply prefers_chr | apply prefers_eps]].
    eapply rep_chain; [apply hc_chain; exact G | lia | lia |]. right. reflexivity.
Qed.

Lemma z_double : forall n rest, prefers n re_ipv6 ("::" ++ String "%" rest) (String "%" rest).
Proof. intros n rest. eexists. vm_compute. reflexivity. Qed.

Lemma z_found : forall addr q, no_v6_lookalike q -> ~ colon_digits_dot ("[" ++ addr ++ "%" ++ q) -> ~ Occurs re_ipv6s addr ->
  (forall n, prefers n re_ipv6 (addr ++ String "%" q) (String "%" q)) -> extract_addr ("[" ++ addr ++ "%" ++ q) = addr.
Proof.
  intros addr q [Hq1 [Hq2 [Hq3 _]]] Hcdd Hno H. unfold extract_addr.
  rewrite (find_none_of re_ipv64e) by now apply v64e_absent.
  destruct (avoids_brackets _ v6s_brackets) as [As1 As2].
  destruct (avoids_brackets _ v6_brackets) as [A1 A2].
  destruct empty_lookalike as [Hp1 [Hp2 [Hp3 _]]].
  pose proof (v6_absent _ "" v6s_sim Hp1 Hp2 Hp3) as Nps.
  pose proof (v6_absent _ q v6s_sim Hq1 Hq2 Hq3) as Nqs.
  pose proof (v6_absent _ "" v6_sim Hp1 Hp2 Hp3) as Np.
  cbn [append]. rewrite (find_none_of re_ipv6s).
  - unfold find. pose proof (find_skip_part re_ipv6 "[" "" (addr ++ String "%" q) v6_ctxfree A1 (IprexProofs.nonempty _ v6_nonempty) Np) as SK.
    cbn [append] in SK. rewrite SK. rewrite (find_here _ _ _ _ (H _)). now rewrite take_app.
  - intros Ho. change (String "[" (addr ++ String "%" q)) with ("" ++ String "[" (addr ++ String "%" q)) in Ho.
    apply occurs_parts in Ho; [|exact v6s_ctxfree|exact As1].
    destruct Ho as [Ho|Ho]; [now apply Nps|].
    apply occurs_parts in Ho; [|exact v6s_ctxfree|exact v6s_avoids].
    destruct Ho as [Ho|Ho]; [now apply Hno | now apply Nqs].
Qed.

(** * What is searched *)

Lemma cdd_parts : forall x b a, is_digit x = false -> x <> "."%char -> x <> ":"%char -> colon_digits_dot (a ++ String x b) ->
  colon_digits_dot a \/ colon_digits_dot b.
Proof.
  intros x b a Hx Hd Hc (p & ds & q & E & Hn & Hds).
  assert (P : forall a t, a ++ String x b = ds ++ String "." t -> exists a', a = ds ++ String "." a').
  { clear - Hx Hd Hds. induction ds as [|d ds IH]; intros a t E; cbn [append] in E.
    - destruct a as [|e a]; cbn [append] in E; injection E as E0 E1; [congruence|]. subst e. now exists a.
    - cbn in Hds. apply andb_true_iff in Hds. destruct Hds as [H1 H2].
      destruct a as [|e a]; cbn [append] in E; injection E as E0 E1; [congruence|]. subst e.
      destruct (IH H2 a t E1) as [a' ->]. now exists a'. }
  revert p E. induction a as [|e a IH]; intros p E; cbn [append] in E.
  - destruct p as [|e p]; cbn [append] in E; injection E as E0 E1; [congruence|]. right. exists p, ds, q. now rewrite E1.
  - destruct p as [|f p]; cbn [append] in E; injection E as E0 E1.
    + subst e. destruct (P a q E1) as [a' ->]. left. exists "", ds, a'. now split.
    + subst f. destruct (IH p E1) as [(u & v & w & -> & K)|K]; [|now right]. left. exists (String e u), v, w. now split.
Qed.

Lemma no_colon_cdd : forall s, count_chars (Ascii.eqb ":") s = 0 -> ~ colon_digits_dot s.
Proof. intros s H [a [ds [b [-> _]]]]. rewrite !count_app in H. cbn in H. lia. Qed.

Lemma zoned_no_cdd : forall a z port, count_chars (Ascii.eqb ".") a = 0 -> zone_name z ->
  ~ colon_digits_dot ("[" ++ a ++ "%" ++ z ++ "]:" ++ itoa port).
Proof.
  intros a z port Ha [Hz _] H. change ("[" ++ a ++ "%" ++ z ++ "]:" ++ itoa port) with (("[" ++ a) ++ String "%" (z ++ String "]" (":" ++ itoa port))) in H.
  apply cdd_parts in H; [|reflexivity|discriminate|discriminate]. destruct H as [H|H].
  - revert H. apply no_dot. rewrite count_app, Ha. reflexivity.
  - apply cdd_parts in H; [|reflexivity|discriminate|discriminate]. destruct H as [H|H]; [now apply (no_colon_cdd z)|].
    revert H. apply no_dot. rewrite count_app, port_no_dot. reflexivity.
Qed.

Lemma zone_lookalike : forall z port, zone_name z -> no_v6_lookalike (z ++ "]:" ++ itoa port).
Proof.
  intros z port [Hz Hy].
  assert (Hp : count_chars (Ascii.eqb ":") (itoa port) = 0)
    by (eapply count_none; [apply itoa_digits | intros x Hx; now apply digit_not]).
  assert (Hq : count_chars (Ascii.eqb "%") (itoa port) = 0)
    by (eapply count_none; [apply itoa_digits | intros x Hx; now apply digit_not]).
  split; [|split; [|split]].
  - apply not_true_iff_false. intros H. apply (contains_count (Ascii.eqb ":")) in H. rewrite !count_app, Hp, Hz in H. cbn in H. lia.
  - apply not_true_iff_false. intros H. apply (contains_count (Ascii.eqb "%")) in H. rewrite !count_app, Hq, Hy in H. cbn in H. lia.
  - rewrite !count_app, Hp, Hz. cbn. lia.
  - intros H. change (z ++ "]:" ++ itoa port) with (z ++ String "]" (":" ++ itoa port)) in H.
    apply cdd_parts in H; [|reflexivity|discriminate|discriminate]. destruct H as [H|H]; [now apply (no_colon_cdd z)|].
    revert H. apply no_dot. rewrite count_app, port_no_dot. reflexivity.
Qed.

(** * Zones are not told *)

Lemma same_compressed : forall bs cs z port, List.length bs + List.length cs <= 7 -> Forall is_group bs -> Forall is_group cs ->
  count_chars (Ascii.eqb ".") (compressed_v6 bs cs) = 0 -> zone_name z ->
  extract_addr ("[" ++ compressed_v6 bs cs ++ "%" ++ z ++ "]:" ++ itoa port) = extract_addr ("[" ++ compressed_v6 bs cs ++ "]:" ++ itoa port).
Proof.
  intros bs cs z port L Gb Gc Nd Hz.
  pose proof (zoned_no_cdd (compressed_v6 bs cs) z port Nd Hz) as D.
  pose proof (bracket_no_dot (compressed_v6 bs cs) port Nd) as D'.
  pose proof (zone_lookalike z port Hz) as Q.
  change ("[" ++ compressed_v6 bs cs ++ "]:" ++ itoa port) with ("" ++ "[" ++ compressed_v6 bs cs ++ "]" ++ (":" ++ itoa port)).
  destruct bs as [|b bs]; [|destruct cs as [|c cs]].
  - rewrite (proj2 (exact_compressed "" [] cs (":" ++ itoa port) L Gb Gc empty_lookalike (port_lookalike port) D')) by now left.
    destruct cs as [|c cs].
    + apply z_found; [exact Q|exact D|apply v6s_hcch; vm_compute; discriminate|intros n; apply z_double].
    + apply z_found; [exact Q|exact D| |intros n; apply z_leading; [cbn in *; lia|exact Gc]].
      apply v6s_hcch. change (run d_hcch 0 (compressed_v6 [] (c :: cs))) with (run d_hcch 0 (join ":" (c :: cs))).
      pose proof (join_run (c :: cs) 0 Gc). lia.
  - rewrite (proj2 (exact_compressed "" (b :: bs) [] (":" ++ itoa port) L Gb Gc empty_lookalike (port_lookalike port) D')) by (right; now left).
    apply z_found; [exact Q|exact D|apply v6s_hcch; now apply trailing_run|intros n; apply z_trailing; [cbn in *; lia|exact Gb]].
  - rewrite (logged_mid "" (b :: bs) (c :: cs) (":" ++ itoa port)); [|cbn; lia|cbn; lia|exact Gb|exact Gc|exact empty_lookalike|exact D'].
    apply z_mid; [cbn; lia|cbn; lia|exact Gb|exact Gc|exact D].
Qed.

Lemma zone_left_out : forall gs z port, address gs -> ~ mapped gs -> zone_name z ->
  extract_addr (zoned_addr gs z port) = extract_addr (remote_addr gs port).
Proof.
  intros gs z port [L B] Nm Hz. unfold zoned_addr. destruct (String.eqb_spec z "") as [_|_]; [reflexivity|].
  assert (E4 : to4 gs = None).
  { destruct (to4 gs) as [xy|] eqn:E; [|reflexivity]. exfalso. apply Nm. apply to4_iff. now exists xy. }
  unfold remote_addr, host_text. rewrite E4. rewrite !append_assoc. pose proof (ip_text_no_dot gs) as Nd. revert Nd. unfold ip_text.
  destruct (best_of gs) as (_ & [B0 _] & _ & _).
  destruct (best_run 0 gs (0, 0)) as [s l] eqn:Er. cbn [fst snd] in *.
  destruct (Nat.leb_spec l 1) as [Hl|Hl]; intros Nd.
  - change (join ":" (map hex_group gs)) with (full_v6 (map hex_group gs)) in *.
    assert (Lm : List.length (map hex_group gs) = 8) by now rewrite map_length.
    transitivity (full_v6 (map hex_group gs)).
    + apply z_found; [now apply zone_lookalike|now apply zoned_no_cdd| |intros n; apply z_full; [exact Lm|apply hex_groups]].
      apply v6s_hcch. pose proof (join_run (map hex_group gs) 0 (hex_groups gs)). unfold full_v6. lia.
    + symmetry. apply (extract_v6 "" (full_v6 (map hex_group gs)) (":" ++ itoa port)); [|exact empty_lookalike|apply port_lookalike|now apply bracket_no_dot].
      apply found_full; [exact Lm|apply hex_groups].
  - set (bs := map hex_group (firstn s gs)) in *. set (cs := map hex_group (skipn (s + l) gs)) in *.
    assert (Lb : List.length bs = s) by (unfold bs; rewrite map_length, firstn_length; lia).
    assert (Lc : List.length cs = 8 - (s + l)) by (unfold cs; rewrite map_length; now apply skipn_len).
    change (join ":" bs ++ "::" ++ join ":" cs) with (compressed_v6 bs cs) in *.
    apply same_compressed; [lia|apply hex_groups|apply hex_groups|exact Nd|exact Hz].
Qed.

Lemma zoned_named : forall gs z port, address gs -> ~ mapped gs -> zone_name z ->
  (names (extract_addr (zoned_addr gs z port)) gs <-> legible gs).
Proof. intros gs z port A Nm Hz. rewrite (zone_left_out gs z port A Nm Hz). now apply client_named_iff. Qed.

Lemma links_alike : forall gs z z' port, address gs -> ~ mapped gs -> zone_name z -> zone_name z' ->
  extract_addr (zoned_addr gs z port) = extract_addr (zoned_addr gs z' port).
Proof. intros gs z z' port A Nm Hz Hz'. now rewrite (zone_left_out gs z port A Nm Hz), (zone_left_out gs z' port A Nm Hz'). Qed.

(** * Interface identifiers of four groups *)

Lemma link_text : forall a b c d, (a <> 0)%N -> (b <> 0 \/ c <> 0)%N -> ip_text (link_local a b c d) = compressed_v6 ["fe80"] (map hex_group [a; b; c; d]).
Proof.
  intros a b c d Ha Hbc.
  assert (E : best_run 0 (link_local a b c d) (0, 0) = (1, 3)).
  { unfold link_local. cbn [best_run zeros]. change (0xfe80 =? 0)%N with false. change (0 =? 0)%N with true. cbv iota.
    destruct (N.eqb_spec a 0) as [E|_]; [contradiction|]. cbn [snd Nat.ltb Nat.leb fst].
    destruct (N.eqb_spec b 0) as [Eb|_], (N.eqb_spec c 0) as [Ec|_], (N.eqb_spec d 0) as [_|_]; try (destruct Hbc; contradiction); reflexivity. }
  unfold ip_text. rewrite E. reflexivity.
Qed.

Lemma link_shifted : forall a b c d z port, address (link_local a b c d) -> (a <> 0)%N -> (b <> 0 \/ c <> 0)%N -> zone_name z ->
  names (extract_addr (zoned_addr (link_local a b c d) z port)) [0xfe80; 0; 0; 0; 0; a; b; c]%N.
Proof.
  intros a b c d z port A Ha Hbc Hz.
  assert (Nm : ~ mapped (link_local a b c d)) by (intros (x & y & F); discriminate F).
  rewrite (zone_left_out _ z port A Nm Hz). unfold remote_addr, host_text. change (to4 (link_local a b c d)) with (@None (N * N)). cbv iota.
  pose proof (ip_text_no_dot (link_local a b c d)) as Nd. rewrite (link_text a b c d Ha Hbc) in *.
  pose proof (logged_mid "" ["fe80"] (map hex_group [a; b; c; d]) (":" ++ itoa port)) as M.
  change ("" ++ "[" ++ compressed_v6 ["fe80"] (map hex_group [a; b; c; d]) ++ "]" ++ ":" ++ itoa port) with
    ("[" ++ compressed_v6 ["fe80"] (map hex_group [a; b; c; d]) ++ "]:" ++ itoa port) in M.
  rewrite M; [|cbn; lia|cbn; lia|constructor; [split; [reflexivity|cbn; lia]|constructor]|apply hex_groups|exact empty_lookalike|now apply bracket_no_dot].
  change (skipn (List.length ["fe80"] - 4) ["fe80"]) with ["fe80"]. cbn [map firstn].
  pose proof (names_short ["fe80"] (map hex_group [a; b; c]) 4 eq_refl ltac:(lia)) as N. destruct A as [_ B].
  assert (V : forall g, In g (link_local a b c d) -> (g < 65536)%N) by (apply Forall_forall; exact B).
  cbn [map] in N. rewrite !group_back in N by (apply V; cbn; tauto). apply N; [constructor; [split; [reflexivity|cbn; lia]|constructor]|apply (hex_groups [a; b; c])].
Qed.
