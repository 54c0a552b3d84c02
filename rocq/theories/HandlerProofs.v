(** Proofs about serving. *)
From Coq Require Import String Ascii List Bool ZArith NArith Lia Permutation Sorted Relations.
From Verif Require Import GoStr Regex RegexSpec Header Policy Config ConfigSpec ConfigProofs Routing Exchange Jwt JwtSpec JwtProofs JwtKeys ExchangeProofs Machine Handler HandlerSpec.
Import ListNotations.
Local Open Scope string_scope.

(** * Paths *)

Lemma without_has_char : forall c s, without c s <-> has_char c s = false.
Proof.
  intros c s. induction s as [|d s IH]; cbn [without has_char]; [tauto|].
  rewrite orb_false_iff, IH, Ascii.eqb_neq. split; intros [H1 H2]; split; try assumption; congruence.
Qed.

Lemma split_without : forall c s x, In x (split c s) -> without c x.
Proof.
  intros c s. remember (String.length s) as n. revert s Heqn. induction n as [n IH] using lt_wf_ind. intros s -> x H.
  destruct (split_cases c s) as [[H1 H2]|[a [b [H1 [H2 H3]]]]].
  - rewrite H2 in H. destruct H as [<-|[]]. exact H1.
  - rewrite H3 in H. destruct H as [<-|H]; [exact H1|]. apply (IH (String.length b)) with (s := b); [|reflexivity|exact H].
    rewrite H2, length_append. cbn [String.length]. lia.
Qed.

Lemma split_join : forall c l, l <> [] -> (forall x, In x l -> without c x) -> split c (join (String c "") l) = l.
Proof.
  intros c l. induction l as [|x l IH]; [congruence|]. intros _ H. destruct l as [|y l].
  - cbn [join]. apply split_none. apply H. now left.
  - change (join (String c "") (x :: y :: l)) with (x ++ String c (join (String c "") (y :: l))).
    rewrite split_app by (apply H; now left). f_equal. apply IH; [discriminate|]. intros z Hz. apply H. now right.
Qed.

Lemma join_snoc : forall sep l x, l <> [] -> join sep (l ++ [x]) = join sep l ++ sep ++ x.
Proof.
  intros sep l x. induction l as [|y l IH]; [congruence|]. intros _. destruct l as [|z l]; [reflexivity|].
  change (join sep ((y :: z :: l) ++ [x])) with (y ++ sep ++ join sep ((z :: l) ++ [x])).
  change (join sep (y :: z :: l)) with (y ++ sep ++ join sep (z :: l)). rewrite IH by discriminate.
  now rewrite !append_assoc.
Qed.

Definition good (s : string) : Prop := s <> "" /\ s <> "." /\ s <> "..".

Lemma clean_segments_good : forall l acc, Forall good acc -> Forall good (clean_segments acc l) /\
  forall x, In x (clean_segments acc l) -> In x acc \/ In x l.
Proof.
  induction l as [|s l IH]; intros acc Ha; cbn [clean_segments].
  - split; [now apply Forall_rev|]. intros x Hx. left. now apply in_rev.
  - destruct (String.eqb_spec s "") as [E1|E1]; cbn [orb].
    { destruct (IH acc Ha) as [H1 H2]. split; [exact H1|]. intros x Hx. destruct (H2 x Hx); [now left|right; now right]. }
    destruct (String.eqb_spec s ".") as [E2|E2].
    { destruct (IH acc Ha) as [H1 H2]. split; [exact H1|]. intros x Hx. destruct (H2 x Hx); [now left|right; now right]. }
    destruct (String.eqb_spec s "..") as [E3|E3].
    { destruct (IH (tl acc)) as [H1 H2]; [destruct acc; [constructor|now inversion Ha]|]. split; [exact H1|].
      intros x Hx. destruct (H2 x Hx) as [H|H]; [left; destruct acc; [contradiction|now right]|right; now right]. }
    destruct (IH (s :: acc)) as [H1 H2]; [constructor; [now repeat split|exact Ha]|]. split; [exact H1|].
    intros x Hx. destruct (H2 x Hx) as [[->|H]|H]; [right; now left|now left|right; now right].
Qed.

Lemma clean_segments_id : forall l acc, Forall good l -> clean_segments acc l = (rev acc ++ l)%list.
Proof.
  induction l as [|s l IH]; intros acc H; cbn [clean_segments]; [now rewrite app_nil_r|].
  inversion H as [|? ? [H1 [H2 H3]] H4]; subst.
  destruct (String.eqb_spec s ""); [contradiction|]. destruct (String.eqb_spec s "."); [contradiction|].
  destruct (String.eqb_spec s ".."); [contradiction|]. cbn [orb]. rewrite IH by assumption. cbn [rev]. now rewrite <- app_assoc.
Qed.

Lemma clean_segments_snoc : forall l acc, Forall good l -> clean_segments acc (l ++ [""]) = (rev acc ++ l)%list.
Proof.
  induction l as [|s l IH]; intros acc H; cbn [clean_segments app].
  { cbn [String.eqb orb]. now rewrite app_nil_r. }
  inversion H as [|? ? [H1 [H2 H3]] H4]; subst.
  destruct (String.eqb_spec s ""); [contradiction|]. destruct (String.eqb_spec s "."); [contradiction|].
  destruct (String.eqb_spec s ".."); [contradiction|]. cbn [orb]. rewrite IH by assumption. cbn [rev]. now rewrite <- app_assoc.
Qed.

Lemma Forall_last_only : forall l, (forall x, In x l -> good x) -> forall (a : list string) s b, l = (a ++ s :: b)%list -> s = "" -> b = [].
Proof.
  intros l H a s b E Hs. exfalso. destruct (H s) as [H1 _]; [rewrite E; apply in_or_app; right; now left|]. congruence.
Qed.

Lemma last_only_snoc : forall l x, (forall y, In y l -> good y) ->
  forall (a : list string) s b, (l ++ [x])%list = (a ++ s :: b)%list -> s = "" -> b = [].
Proof.
  intros l x H a s b E Hs. destruct b as [|y b]; [reflexivity|]. exfalso.
  destruct (exists_last (l := s :: y :: b) ltac:(discriminate)) as [b' [z Ez]].
  assert (Hb : exists b2, b' = s :: b2).
  { destruct b' as [|w b2]; [discriminate Ez|]. injection Ez as Ew _. exists b2. now rewrite Ew. }
  destruct Hb as [b2 Hb]. rewrite Ez, app_assoc in E. apply app_inj_tail in E. destruct E as [E _].
  destruct (H s) as [H1 _]; [rewrite E, Hb; apply in_or_app; right; now left|]. congruence.
Qed.

Lemma clean_path_clean : forall p, clean (clean_path p).
Proof.
  intros p. unfold clean_path. destruct (String.eqb_spec p "") as [_|Hp].
  { exists []. split; [reflexivity|]. split; [intros s []|]. intros a s b H. destruct a; discriminate. }
  set (p' := if String.prefix "/" p then p else "/" ++ p). cbv zeta.
  destruct (clean_segments_good (split "/" p') [] (Forall_nil _)) as [H1 H2].
  set (l := clean_segments [] (split "/" p')) in *.
  assert (Hg : forall x, In x l -> good x) by (apply Forall_forall; exact H1).
  assert (Hw : forall x, In x l -> has_char "/" x = false).
  { intros x Hx. apply without_has_char. destruct (H2 x Hx) as [[]|H]. exact (split_without _ _ _ H). }
  destruct (ends_with_slash p' && negb (String.eqb ("/" ++ join "/" l) "/")) eqn:E.
  - apply andb_true_iff in E. destruct E as [_ E]. exists (l ++ [""])%list. split.
    + rewrite join_snoc; [rewrite !append_assoc; now rewrite append_nil_r|]. intros Hl. rewrite Hl in E. discriminate.
    + split; [|now apply last_only_snoc].
      intros s Hs. apply in_app_or in Hs. destruct Hs as [Hs|[<-|[]]]; [|repeat split; discriminate].
      destruct (Hg s Hs) as [_ [G1 G2]]. now rewrite (Hw s Hs).
  - exists l. split; [reflexivity|]. split; [|now apply Forall_last_only].
    intros s Hs. destruct (Hg s Hs) as [_ [G1 G2]]. now rewrite (Hw s Hs).
Qed.

Lemma ends_app : forall a b, b <> "" -> ends_with_slash (a ++ b) = ends_with_slash b.
Proof.
  induction a as [|c a IH]; intros b Hb; [reflexivity|]. cbn [append]. rewrite <- (IH b Hb). cbn [ends_with_slash].
  destruct (a ++ b) eqn:E; [|reflexivity]. destruct a; [|discriminate]. cbn in E. contradiction.
Qed.

Lemma ends_without : forall s, has_char "/" s = false -> ends_with_slash s = false.
Proof.
  induction s as [|c s IH]; intros H; [reflexivity|]. cbn [has_char] in H. apply orb_false_iff in H. destruct H as [H1 H2].
  cbn [ends_with_slash]. destruct s; [|now apply IH]. rewrite Ascii.eqb_sym. exact H1.
Qed.

Lemma clean_path_id : forall p, clean p -> clean_path p = p.
Proof.
  intros p [segs [-> [H1 H2]]]. unfold clean_path. change (String.eqb ("/" ++ join "/" segs) "") with false. cbv iota.
  rewrite prefix_app. cbv iota zeta.
  destruct segs as [|s0 segs0] eqn:Es; [reflexivity|]. rewrite <- Es in *. assert (Hne : segs <> []) by (rewrite Es; discriminate).
  assert (Esp : split "/" ("/" ++ join "/" segs) = "" :: segs).
  { change ("/" ++ join "/" segs) with ("" ++ String "/" (join (String "/" "") segs)). rewrite split_app by exact I.
    f_equal. apply split_join; [exact Hne|]. intros x Hx. apply without_has_char. now apply H1. }
  rewrite Esp.
  cbn [clean_segments String.eqb orb].
  destruct (exists_last Hne) as [l [x Ex]].
  assert (Hl : Forall good l).
  { apply Forall_forall. intros y Hy. destruct (H1 y) as [G1 [G2 _]]; [rewrite Ex; apply in_or_app; now left|].
    repeat split; try assumption. intros Hy0. apply in_split in Hy. destruct Hy as [l1 [l2 Hl]].
    assert (G : (l2 ++ [x])%list = []) by (apply (H2 l1 y (l2 ++ [x])%list); [rewrite Ex, Hl, <- app_assoc; reflexivity|exact Hy0]).
    destruct l2; discriminate. }
  destruct (String.eqb_spec x "") as [->|Hx].
  - rewrite Ex, clean_segments_snoc by exact Hl. cbn [rev app].
    destruct l as [|y l]; [reflexivity|]. rewrite join_snoc by discriminate. rewrite append_nil_r.
    rewrite <- append_assoc, ends_app by discriminate. cbn [ends_with_slash Ascii.eqb Bool.eqb andb].
    destruct (String.eqb_spec ("/" ++ join "/" (y :: l)) "/") as [E|E]; [|reflexivity]. exfalso.
    injection E as E. inversion Hl as [|? ? [G1 _] _]; subst. destruct y; [contradiction|]. destruct l; discriminate E.
  - assert (Hg : Forall good segs).
    { rewrite Ex. apply Forall_app. split; [exact Hl|]. constructor; [|constructor]. destruct (H1 x) as [G1 [G2 _]]; [rewrite Ex; apply in_or_app; right; now left|].
      now repeat split. }
    rewrite clean_segments_id by exact Hg. cbn [rev app].
    assert (Hn : ends_with_slash ("/" ++ join "/" segs) = false); [|now rewrite Hn].
    assert (G : exists y, "/" ++ join "/" segs = y ++ x).
    { rewrite Ex. destruct l as [|z l]; [exists "/"; reflexivity|]. rewrite join_snoc by discriminate.
      exists ("/" ++ join "/" (z :: l) ++ "/"). now rewrite !append_assoc. }
    destruct G as [y ->]. rewrite ends_app by exact Hx. apply ends_without. apply H1. rewrite Ex. apply in_or_app. right. now left.
Qed.

Lemma clean_path_iff : forall p, clean_path p = p <-> clean p.
Proof. intros p. split; [intros <-; apply clean_path_clean|apply clean_path_id]. Qed.

(** * Dispatch *)

Lemma proxied_clean : forall cfg i, proxied_request cfg i -> q_method (i_req i) <> "CONNECT" -> clean (i_path i).
Proof.
  intros cfg i H Hm. unfold proxied_request, mux_serve in H. destruct (String.eqb (q_raw_uri _) "*"); [discriminate|].
  destruct (String.eqb_spec (q_method (i_req i)) "CONNECT"); [contradiction|].
  destruct (should_redirect _ _); [discriminate|].
  destruct (String.eqb_spec (clean_path (i_path i)) (i_path i)) as [E|E]; [|discriminate]. now apply clean_path_iff.
Qed.

Lemma in_use_boot : forall so srt cfg0 cfg, in_use so srt cfg0 cfg -> sorts_routes srt /\
  exists cfg1, boot jwt (jwt_checked so) srt cfg0 = Some cfg1 /\ c_routes cfg = c_routes cfg1 /\ c_resources cfg = c_resources cfg1.
Proof. intros so srt cfg0 cfg [H [cfg1 [H1 [H2 [_ [H3 _]]]]]]. split; [exact H|]. exists cfg1. now repeat split. Qed.

Lemma about_paths_In : forall so srt cfg0 cfg, in_use so srt cfg0 cfg -> forall p, In p (about_paths (c_routes cfg)) <-> about_path cfg0 p.
Proof.
  intros so srt cfg0 cfg H p. destruct (in_use_boot _ _ _ _ H) as [Hs [cfg1 [Hb [Hr _]]]]. unfold about_paths, about_path. rewrite Hr.
  rewrite in_map_iff. split.
  - intros [r [<- Hin]]. apply filter_In in Hin. destruct Hin as [Hin He]. apply String.eqb_eq in He.
    destruct (boot_routes_from _ _ _ _ _ Hs Hb r Hin) as [r0 [H0 [B1 [_ [B3 _]]]]]. exists r0. split; [exact H0|]. split; [|now rewrite B1].
    rewrite <- B3. exact He.
  - intros [r0 [H0 [He <-]]]. destruct (boot_routes_all _ _ _ _ _ Hs Hb r0 H0) as [r [Hin [B1 [_ [B3 _]]]]].
    exists r. split; [exact B1|]. apply filter_In. split; [exact Hin|]. apply String.eqb_eq. rewrite B3. exact He.
Qed.

Lemma distinct_NoDup : forall l, distinct l = true <-> NoDup l.
Proof.
  induction l as [|x l IH]; cbn [distinct]; [split; [intros _; constructor|reflexivity]|].
  rewrite andb_true_iff, negb_true_iff, IH. split.
  - intros [H1 H2]. constructor; [|exact H2]. intros H. apply mem_str_In in H. congruence.
  - intros H. inversion H as [|? ? H1 H2]; subst. split; [|exact H2]. destruct (mem_str x l) eqn:E; [|reflexivity]. apply mem_str_In in E. contradiction.
Qed.

Lemma filter_perm : forall A (f : A -> bool) l l', Permutation l l' -> Permutation (filter f l) (filter f l').
Proof.
  intros A f l l' H. induction H; cbn [filter].
  - constructor.
  - destruct (f x); [now constructor|assumption].
  - destruct (f x), (f y); try apply Permutation_refl. constructor.
  - eapply perm_trans; eassumption.
Qed.

Lemma about_paths_perm : forall so srt cfg0 cfg, in_use so srt cfg0 cfg ->
  Permutation (about_paths (c_routes cfg)) (configured_about_paths cfg0).
Proof.
  intros so srt cfg0 cfg H. destruct (in_use_boot _ _ _ _ H) as [Hs [cfg1 [Hb [Hr _]]]]. rewrite Hr.
  destruct (boot_inv _ _ _ _ _ Hb) as [jm [rs [_ [E2 [_ [_ ->]]]]]]. cbn [c_routes]. unfold about_paths, configured_about_paths.
  destruct (Hs (map (fun r => with_path (add_slash (r_path r)) r) rs)) as [HP _].
  eapply perm_trans; [apply Permutation_map, filter_perm, HP|]. clear HP.
  apply all_ok_spec in E2. clear Hr Hb. induction E2 as [|r0 r l rs' H1 H2 IH]; [constructor|].
  destruct (compile_route_spec _ _ H1) as [x [Hx ->]]. cbn [map filter with_path with_regex r_resource].
  unfold about. destruct (String.eqb (r_resource r0) "about"); cbn [map r_path with_path with_regex]; [|exact IH].
  rewrite add_slash_slashed. now constructor.
Qed.

Lemma mux_ok_iff : forall so srt cfg0 cfg, in_use so srt cfg0 cfg ->
  (mux_ok (c_routes cfg) = true <-> NoDup ("/" :: configured_about_paths cfg0)).
Proof.
  intros so srt cfg0 cfg H. unfold mux_ok. rewrite distinct_NoDup.
  assert (P := perm_skip "/" (about_paths_perm _ _ _ _ H)).
  split; intros N; [exact (Permutation_NoDup P N)|exact (Permutation_NoDup (Permutation_sym P) N)].
Qed.

(** * The proxy handler *)

Lemma serve_proxied : forall E L nr cfg ch i, proxied_request cfg i -> serve E L nr cfg ch i = proxy_handler E L nr cfg ch (i_req i).
Proof. intros E L nr cfg ch i H. unfold serve. unfold proxied_request in H. now rewrite H. Qed.

Lemma too_large_iff : forall E fresh q, sized q -> (w_too_large (parse_incoming E fresh q) = true <-> oversized E q).
Proof.
  intros E fresh q Hq. unfold parse_incoming, parse_body, oversized. cbn [w_too_large]. unfold sized in Hq.
  destruct (Z.eqb_spec (q_length q) 0) as [H0|H0]; [cbn; split; [discriminate|tauto]|].
  rewrite Z.geb_leb. destruct (Z.leb_spec (e_max_body E) (q_length q)) as [H1|H1]; [cbn; tauto|].
  split; [|intros [_ H]; exfalso; lia].
  unfold read_limited. destruct (Z.leb_spec (zlen (q_data q)) (e_max_body E)) as [H2|H2].
  - rewrite Z.gtb_ltb. destruct (Z.ltb_spec (e_max_body E) (zlen (q_data q))) as [H3|H3]; [intros _; exfalso; lia|].
    destruct (q_data_ok q); cbn; discriminate.
  - assert (Es : Z.gtb (zlen (substring 0 (Z.to_nat (e_max_body E)) (q_data q))) (e_max_body E) = false).
    { rewrite Z.gtb_ltb. apply Z.ltb_ge. unfold zlen in *. rewrite substring_length by lia. lia. }
    rewrite Es. cbn. discriminate.
Qed.

Lemma method_iff : forall E fresh q, legal_method (parse_incoming E fresh q) = true <-> In (to_upper (q_method q)) known_methods.
Proof. intros E fresh q. unfold legal_method. rewrite mem_str_In. reflexivity. Qed.

Lemma validate_iff : forall E fresh q, sized q -> (validate (parse_incoming E fresh q) = true <-> sound_request E q).
Proof.
  intros E fresh q Hq. unfold validate, sound_request. rewrite andb_true_iff, negb_true_iff, method_iff.
  rewrite <- (too_large_iff E fresh q Hq). destruct (w_too_large _); intuition congruence.
Qed.

Lemma bad_method : forall E L nr cfg ch i, proxied_request cfg i -> sized (i_req i) -> ~ In (to_upper (q_method (i_req i))) known_methods ->
  exists r, serve E L nr cfg ch i = Answered r /\
    (oversized E (i_req i) -> rp_status r = 413%Z) /\ (~ oversized E (i_req i) -> rp_status r = 400%Z).
Proof.
  intros E L nr cfg ch i Hp Hq Hm. rewrite serve_proxied by exact Hp. unfold proxy_handler.
  assert (Hv : validate (parse_incoming E (ch_fresh ch) (i_req i)) = false).
  { unfold validate. destruct (legal_method _) eqn:El; [apply method_iff in El; contradiction|reflexivity]. }
  rewrite Hv. cbn [negb]. assert (Ht := too_large_iff E (ch_fresh ch) (i_req i) Hq).
  destruct (w_too_large _); eexists; (split; [reflexivity|]); cbn [send_status rp_status]; split; intros Ho; try reflexivity.
  - elim Ho. now apply Ht.
  - apply Ht in Ho. discriminate Ho.
Qed.

Lemma oversized_413 : forall E L nr cfg ch i, proxied_request cfg i -> sized (i_req i) -> oversized E (i_req i) ->
  exists r, serve E L nr cfg ch i = Answered r /\ rp_status r = 413%Z.
Proof.
  intros E L nr cfg ch i Hp Hq Ho. rewrite serve_proxied by exact Hp. unfold proxy_handler.
  apply (too_large_iff E (ch_fresh ch) (i_req i) Hq) in Ho.
  assert (Hv : validate (parse_incoming E (ch_fresh ch) (i_req i)) = false).
  { unfold validate. rewrite Ho. cbn [negb]. apply andb_false_r. }
  rewrite Hv, Ho. cbn [negb]. eexists. split; reflexivity.
Qed.

Lemma upstream_sound : forall E L nr cfg ch i c, serve E L nr cfg ch i = Upstream c -> sized (i_req i) ->
  proxied_request cfg i /\ sound_request E (i_req i).
Proof.
  intros E L nr cfg ch i c H Hq. unfold proxied_request, serve in *. destruct (mux_serve _ i); try discriminate H. split; [reflexivity|].
  apply (validate_iff E (ch_fresh ch) (i_req i) Hq). unfold proxy_handler in H.
  destruct (validate _); [reflexivity|]. cbn [negb] in H. destruct (w_too_large _); discriminate H.
Qed.

Lemma serve_sound : forall E L nr cfg ch i, proxied_request cfg i -> sound_request E (i_req i) ->
  let w := parse_incoming E (ch_fresh ch) (i_req i) in
  let answer status message := Answered (send_status E (ch_dice ch) w status message) in
  serve E L nr cfg ch i =
  match select_route (c_routes cfg) (q_raw_uri (i_req i)) with
  | None => answer 404%Z "upstream resource not found"
  | Some r =>
      match (if has_jwt r then check_jwt L cfg (ch_now ch) r (get "Authorization" (q_header (i_req i))) else Valid) with
      | Crash => Panicked
      | Invalid => answer 401%Z "jwt bearer token missing, invalid, expired or unauthorized"
      | Valid =>
          match map_url (ch_label ch) cfg r with
          | MapPanic => Panicked
          | Unmapped => answer 503%Z "unable to map upstream resource"
          | Mapped u _ =>
              let uri := resolve_upstream_uri r u (w_uri w) in
              Upstream (Conf E w (scaffold_request w uri) (nr (w_method w) uri) (up_max_attempts (c_up cfg)))
          end
      end
  end.
Proof.
  intros E L nr cfg ch i Hp Hs w answer. rewrite serve_proxied by exact Hp. unfold proxy_handler. fold w.
  assert (Hv : validate w = true) by (apply validate_iff; [apply Hs|exact Hs]). rewrite Hv. reflexivity.
Qed.

Lemma unmatched_404 : forall so srt cfg0 cfg E L nr ch i, in_use so srt cfg0 cfg -> proxied_request cfg i -> sound_request E (i_req i) ->
  ((forall r0, In r0 (c_routes cfg0) -> ~ route_matches r0 (q_raw_uri (i_req i))) <->
   exists r, serve E L nr cfg ch i = Answered r /\ rp_status r = 404%Z).
Proof.
  intros so srt cfg0 cfg E L nr ch i H Hp Hs. destruct (in_use_boot _ _ _ _ H) as [Hsrt [cfg1 [Hb [Hr _]]]].
  rewrite <- (select_none _ _ _ _ _ (q_raw_uri (i_req i)) Hsrt Hb), <- Hr.
  assert (Hv := serve_sound E L nr cfg ch i Hp Hs). cbv zeta in Hv. rewrite Hv. clear Hv. split.
  - intros ->. eexists. split; reflexivity.
  - intros [r [H1 H2]]. destruct (select_route _ _) as [x|]; [|reflexivity]. exfalso.
    destruct (if has_jwt x then _ else _); [|injection H1 as <-; discriminate H2|discriminate H1].
    destruct (map_url _ _ _); [discriminate H1|injection H1 as <-; discriminate H2|discriminate H1].
Qed.

(** * Tokens *)

Lemma Forall2_lookup : forall A B (R : string -> A -> B -> Prop) (m : smap A) (m' : smap B) k,
  Forall2 (fun e e' => fst e' = fst e /\ R (fst e) (snd e) (snd e')) m m' -> In k (map fst m) ->
  exists v v', lookup k m = Some v /\ lookup k m' = Some v' /\ R k v v'.
Proof.
  intros A B R m m' k H. induction H as [|[k1 v1] [k2 v2] m m' [H1 H2] H IH]; [intros []|]. cbn [fst snd] in *. subst k2.
  cbn [map fst lookup]. destruct (String.eqb_spec k1 k) as [->|Hn].
  - intros _. exists v1, v2. now repeat split.
  - intros [E|Hin]; [contradiction|]. exact (IH Hin).
Qed.

Lemma route_jwt : forall so srt cfg0 cfg r, in_use so srt cfg0 cfg -> In r (c_routes cfg) -> r_jwt r <> "" ->
  exists j0 docs j, lookup (r_jwt r) (c_jwt cfg0) = Some (Some j0) /\ lookup (r_jwt r) (c_jwt cfg) = Some (Some j) /\
    reached (so_pem so (r_jwt r)) (so_kid so (r_jwt r)) (named (r_jwt r) j0) docs j.
Proof.
  intros so srt cfg0 cfg r H Hin Hj. destruct (in_use_boot _ _ _ _ H) as [Hsrt [cfg1 [Hb [Hr _]]]].
  destruct H as [_ [_ [_ [_ [_ [_ [_ [_ HF]]]]]]]].
  assert (Hv : valid_config (jwt_checked so) cfg0) by (apply (boot_valid_iff _ _ srt); rewrite Hb; discriminate).
  destruct Hv as [_ [_ [Hv _]]]. rewrite Hr in Hin.
  destruct (boot_routes_from _ _ _ _ _ Hsrt Hb r Hin) as [r0 [H0 [_ [_ [_ [_ [B _]]]]]]].
  destruct (Hv r0 H0) as [E|E]; [congruence|]. rewrite <- B in E.
  destruct (Forall2_lookup _ _ (fun k e0 e => exists j0 docs j, e0 = Some j0 /\ e = Some j /\ reached (so_pem so k) (so_kid so k) (named k j0) docs j) _ _ _ HF E)
    as [v [v' [L1 [L2 [j0 [docs [j [-> [-> Hre]]]]]]]]].
  exists j0, docs, j. now repeat split.
Qed.

Lemma has_jwt_iff : forall r, has_jwt r = true <-> r_jwt r <> "".
Proof. intros r. unfold has_jwt. rewrite negb_true_iff, String.eqb_neq. reflexivity. Qed.

Lemma check_valid : forall L cfg ch r auth,
  (if has_jwt r then check_jwt L cfg (ch_now ch) r auth else Valid) = Valid -> admitted L cfg ch r auth.
Proof.
  intros L cfg ch r auth H. unfold admitted. destruct (has_jwt r) eqn:Ej.
  - right. unfold check_jwt in H. destruct (lookup _ _) as [[j|]|]; [exists j; now split| |]; destruct (split " " auth) as [|? [|? ?]]; discriminate H.
  - left. unfold has_jwt in Ej. apply negb_false_iff in Ej. now apply String.eqb_eq.
Qed.

Lemma check_admitted : forall L cfg ch r auth, admitted L cfg ch r auth ->
  (if has_jwt r then check_jwt L cfg (ch_now ch) r auth else Valid) = Valid.
Proof.
  intros L cfg ch r auth [H|[j [H1 H2]]].
  - unfold has_jwt. rewrite H. reflexivity.
  - destruct (has_jwt r); [|reflexivity]. unfold check_jwt. rewrite H1. exact H2.
Qed.

Lemma select_in : forall rs uri r, select_route rs uri = Some r -> In r rs.
Proof. intros rs uri r H. exact (proj1 (List.find_some _ _ H)). Qed.

Lemma valid_bearer : forall L now j auth, fst (validate_jwt L now j auth) = Valid -> exists token, bearer auth token.
Proof.
  intros L now j auth H. unfold validate_jwt in H. destruct (split " " auth) as [|s [|t r]] eqn:Hs; try discriminate H.
  exists t. eapply split_bearer. exact Hs.
Qed.

Lemma upstream_token : forall so srt cfg0 cfg E L nr ch i c, in_use so srt cfg0 cfg -> serve E L nr cfg ch i = Upstream c -> sized (i_req i) ->
  exists r, select_route (c_routes cfg) (q_raw_uri (i_req i)) = Some r /\
    (r_jwt r <> "" -> exists j0 docs j token,
       lookup (r_jwt r) (c_jwt cfg0) = Some (Some j0) /\ lookup (r_jwt r) (c_jwt cfg) = Some (Some j) /\
       reached (so_pem so (r_jwt r)) (so_kid so (r_jwt r)) (named (r_jwt r) j0) docs j /\
       bearer (get "Authorization" (q_header (i_req i))) token /\
       fst (validate_jwt L (ch_now ch) j (get "Authorization" (q_header (i_req i)))) = Valid /\
       (In (j_alg j0) signing -> exists kid k cl, In (kid, k) (keys j) /\ lib_verify L (j_alg j0) k token = Some cl /\ fits (j_alg j0) k /\
          ((j_key j0 <> "" /\ stands_for (so_pem so (r_jwt r)) j0 k) \/ published docs (j_alg j0) kid k))).
Proof.
  intros so srt cfg0 cfg E L nr ch i c H Hu Hq. destruct (upstream_sound _ _ _ _ _ _ _ Hu Hq) as [Hp Hs].
  assert (Hv := serve_sound E L nr cfg ch i Hp Hs). cbv zeta in Hv. rewrite Hv in Hu. clear Hv.
  destruct (select_route _ _) as [r|] eqn:Er; [|discriminate Hu]. exists r. split; [reflexivity|]. intros Hj.
  assert (Ha : admitted L cfg ch r (get "Authorization" (q_header (i_req i)))).
  { apply check_valid. destruct (if has_jwt r then _ else _); [reflexivity|discriminate Hu|discriminate Hu]. }
  destruct Ha as [Ha|[j1 [H1 H2]]]; [contradiction|].
  destruct (route_jwt _ _ _ _ r H (select_in _ _ _ Er) Hj) as [j0 [docs [j [L1 [L2 Hre]]]]].
  rewrite L2 in H1. injection H1 as <-. destruct (valid_bearer _ _ _ _ H2) as [token Hb].
  exists j0, docs, j, token. repeat (split; [assumption|]). intros Ha.
  destruct (accepted_key _ _ _ _ _ _ _ _ _ Hre Ha Hb H2) as [kid [k [cl [K1 [K2 [K3 K4]]]]]].
  exists kid, k, cl. split; [exact K1|]. split; [exact K2|]. split; [exact K3|]. destruct K4 as [[K4 K5]|K4]; [left|now right].
  split; [exact K4|]. destruct K5; [exact (sf_secret _ j0)|eapply sf_cert; eassumption|eapply sf_public; eassumption|eapply sf_rsa; eassumption].
Qed.

Lemma check_invalid : forall so srt cfg0 cfg L ch r auth, in_use so srt cfg0 cfg -> honest L -> In r (c_routes cfg) ->
  readable L auth -> ~ admitted L cfg ch r auth ->
  (if has_jwt r then check_jwt L cfg (ch_now ch) r auth else Valid) = Invalid.
Proof.
  intros so srt cfg0 cfg L ch r auth H HL Hin Hr Hn. destruct (has_jwt r) eqn:Ej.
  - apply has_jwt_iff in Ej. destruct (route_jwt _ _ _ _ r H Hin Ej) as [j0 [docs [j [L1 [L2 Hre]]]]].
    unfold check_jwt. rewrite L2. apply (not_valid_401 _ _ _ _ _ _ _ _ Hre HL Hr). intros Hv. apply Hn. right. exists j. now split.
  - elim Hn. left. unfold has_jwt in Ej. apply negb_false_iff in Ej. now apply String.eqb_eq.
Qed.

Lemma not_admitted_401 : forall so srt cfg0 cfg E L nr ch i r, in_use so srt cfg0 cfg -> honest L -> proxied_request cfg i -> sound_request E (i_req i) ->
  select_route (c_routes cfg) (q_raw_uri (i_req i)) = Some r -> readable L (get "Authorization" (q_header (i_req i))) ->
  (~ admitted L cfg ch r (get "Authorization" (q_header (i_req i))) <->
   exists rs, serve E L nr cfg ch i = Answered rs /\ rp_status rs = 401%Z).
Proof.
  intros so srt cfg0 cfg E L nr ch i r H HL Hp Hs Hr Hd. assert (Hv := serve_sound E L nr cfg ch i Hp Hs). cbv zeta in Hv. rewrite Hv, Hr. clear Hv. split.
  - intros Hn. rewrite (check_invalid _ _ _ _ L ch r _ H HL (select_in _ _ _ Hr) Hd Hn). eexists. split; reflexivity.
  - intros [rs [H1 H2]] Ha. rewrite (check_admitted _ _ _ _ _ Ha) in H1.
    destruct (map_url _ _ _); [discriminate H1|injection H1 as <-; discriminate H2|discriminate H1].
Qed.

Lemma serverless_503 : forall E L nr cfg ch i r, proxied_request cfg i -> sound_request E (i_req i) ->
  select_route (c_routes cfg) (q_raw_uri (i_req i)) = Some r -> admitted L cfg ch r (get "Authorization" (q_header (i_req i))) ->
  (serverless cfg ch r <-> exists rs, serve E L nr cfg ch i = Answered rs /\ rp_status rs = 503%Z).
Proof.
  intros E L nr cfg ch i r Hp Hs Hr Ha. assert (Hv := serve_sound E L nr cfg ch i Hp Hs). cbv zeta in Hv. rewrite Hv, Hr. clear Hv.
  rewrite (check_admitted _ _ _ _ _ Ha). unfold serverless. rewrite <- map_url_unmapped. split.
  - intros ->. eexists. split; reflexivity.
  - intros [rs [H1 H2]]. destruct (map_url _ _ _); [discriminate H1|reflexivity|discriminate H1].
Qed.

(** * Totality *)

Lemma resource_nonempty : forall so srt cfg0 cfg name, in_use so srt cfg0 cfg -> no_empty_resource cfg0 ->
  lookup name (c_resources cfg) <> Some (Some []).
Proof.
  intros so srt cfg0 cfg name H Hn Hl. destruct (in_use_boot _ _ _ _ H) as [Hsrt [cfg1 [Hb [_ Hr]]]]. rewrite Hr in Hl.
  destruct (boot_schemes _ _ _ _ _ _ _ Hb Hl) as [ms [L1 HF]]. inversion HF; subst. apply (Hn name).
  clear -L1. induction (c_resources cfg0) as [|[k v] m IH]; [discriminate L1|]. cbn [lookup] in L1.
  destruct (String.eqb_spec k name) as [->|]; [injection L1 as ->; now left|right; now apply IH].
Qed.

Lemma serving_total : forall so srt cfg0 cfg E L nr ch i, in_use so srt cfg0 cfg -> honest L -> proxied_request cfg i -> sized (i_req i) ->
  no_empty_resource cfg0 -> readable L (get "Authorization" (q_header (i_req i))) ->
  (exists r, serve E L nr cfg ch i = Answered r /\ In (rp_status r) [400; 401; 404; 413; 503]%Z) \/
  (exists c, serve E L nr cfg ch i = Upstream c /\ (nr (uq_method (c_request c)) (uq_uri (c_request c)) = true -> c_ok c = true)).
Proof.
  intros so srt cfg0 cfg E L nr ch i H HL Hp Hq Hn Hd.
  destruct (validate (parse_incoming E (ch_fresh ch) (i_req i))) eqn:Hv.
  2:{ left. rewrite serve_proxied by exact Hp. unfold proxy_handler. rewrite Hv. cbn [negb].
      destruct (w_too_large _); eexists; (split; [reflexivity|]); cbn; tauto. }
  apply (validate_iff E (ch_fresh ch) (i_req i) Hq) in Hv.
  assert (Hse := serve_sound E L nr cfg ch i Hp Hv). cbv zeta in Hse. rewrite Hse. clear Hse.
  destruct (select_route _ _) as [r|] eqn:Er; [|left; eexists; split; [reflexivity|cbn; tauto]].
  destruct (if has_jwt r then _ else _) eqn:Ec.
  - destruct (map_url (ch_label ch) cfg r) as [u l| |] eqn:Em.
    + right. eexists. split; [reflexivity|]. intros Hok. exact Hok.
    + left. eexists. split; [reflexivity|cbn; tauto].
    + exfalso. apply (resource_nonempty _ _ _ _ (r_resource r) H Hn). unfold map_url in Em.
      destruct (lookup _ _) as [[ms|]|]; try discriminate Em.
      destruct (negb _); [destruct (first_labelled _ _); discriminate Em|]. destruct ms; [reflexivity|discriminate Em].
  - left. eexists. split; [reflexivity|cbn; tauto].
  - exfalso. assert (Hna : ~ admitted L cfg ch r (get "Authorization" (q_header (i_req i)))).
    { intros Ha. apply check_admitted in Ha. rewrite Ec in Ha. discriminate Ha. }
    rewrite (check_invalid _ _ _ _ L ch r _ H HL (select_in _ _ _ Er) Hd Hna) in Ec. discriminate Ec.
Qed.

(** * Encoded paths *)

Lemma decode_plain : forall s, has_char "%" s = false -> decode s = Some s.
Proof.
  induction s as [|c s IH]; intros H; [reflexivity|]. cbn [has_char] in H. apply orb_false_iff in H. destruct H as [H1 H2].
  cbn [decode]. rewrite Ascii.eqb_sym, H1. now rewrite (IH H2).
Qed.

Lemma decode_app : forall a b, has_char "%" a = false -> decode (a ++ b) = option_map (fun t => a ++ t) (decode b).
Proof.
  induction a as [|c a IH]; intros b H; [cbn; now destruct (decode b)|]. cbn [has_char] in H. apply orb_false_iff in H. destruct H as [H1 H2].
  cbn [append decode]. rewrite Ascii.eqb_sym, H1, (IH b H2). now destruct (decode b).
Qed.

Lemma plain_names : forall raw path, plain raw path -> names_path raw path.
Proof.
  intros raw path [query [H1 [H2 [H3 [H4 H5]]]]]. exists path, query. repeat (split; [assumption|]). now apply decode_plain.
Qed.

(** A text without "?" is a prefix of path and query if it is a prefix of the path. *)
Lemma prefix_query : forall a p query, has_char "?" a = false -> (query = "" \/ exists x, query = "?" ++ x) ->
  ((exists t, p ++ query = a ++ t) <-> exists t, p = a ++ t).
Proof.
  intros a p query Ha Hq. split.
  - revert p Ha. induction a as [|c a IH]; intros p Ha [t H]; [now exists p|]. cbn [has_char] in Ha. apply orb_false_iff in Ha. destruct Ha as [Ha1 Ha2].
    destruct p as [|d p].
    + exfalso. cbn in H. destruct Hq as [->|[x ->]]; [discriminate H|]. injection H as H _. subst c. discriminate Ha1.
    + cbn in H. injection H as -> H. destruct (IH p Ha2) as [t' ->]; [now exists t|]. now exists t'.
  - intros [t ->]. exists (t ++ query). now rewrite append_assoc.
Qed.

Lemma literal_no_question : forall p, literal p = true -> has_char "?" p = false.
Proof.
  induction p as [|c p IH]; intros H; [reflexivity|]. cbn [literal] in H. apply andb_true_iff in H. destruct H as [H1 H2].
  cbn [has_char]. rewrite (IH H2), orb_false_r. destruct (Ascii.eqb_spec "?" c) as [<-|]; [discriminate H1|reflexivity].
Qed.

Lemma matched_path : forall so srt cfg0 cfg r r0 raw p query, in_use so srt cfg0 cfg -> In r (c_routes cfg) -> In r0 (c_routes cfg0) ->
  booted_from r0 r -> literal (r_path r0) = true ->
  raw = p ++ query -> has_char "?" p = false -> (query = "" \/ exists x, query = "?" ++ x) ->
  (match_uri r raw = true <-> exists t, p = r_path r0 ++ t).
Proof.
  intros so srt cfg0 cfg r r0 raw p query H Hin H0 Hbf Hl -> Hp Hq. destruct (in_use_boot _ _ _ _ H) as [Hsrt [cfg1 [Hb [Hr _]]]].
  rewrite Hr in Hin. rewrite (literal_route _ _ _ _ _ _ (p ++ query) Hsrt Hb Hin r0 H0 Hbf Hl).
  apply prefix_query; [now apply literal_no_question|exact Hq].
Qed.

Lemma plain_same_route : forall so srt cfg0 cfg raw raw' path, in_use so srt cfg0 cfg -> simple_routes cfg0 -> plain raw path -> plain raw' path ->
  select_route (c_routes cfg) raw = select_route (c_routes cfg) raw'.
Proof.
  intros so srt cfg0 cfg raw raw' path H Hs [q [E1 [_ [Hp [_ Hq]]]]] [q' [E2 [_ [_ [_ Hq']]]]]. destruct (in_use_boot _ _ _ _ H) as [Hsrt [cfg1 [Hb [Hr _]]]].
  assert (Hm : forall r, In r (c_routes cfg) -> match_uri r raw = match_uri r raw').
  { intros r Hin. assert (Hin' := Hin). rewrite Hr in Hin'. destruct (boot_routes_from _ _ _ _ _ Hsrt Hb r Hin') as [r0 [H0 Hbf]].
    destruct (Hs r0 H0) as [Hl _].
    assert (M := matched_path _ _ _ _ r r0 raw path q H Hin H0 Hbf Hl E1 Hp Hq).
    assert (M' := matched_path _ _ _ _ r r0 raw' path q' H Hin H0 Hbf Hl E2 Hp Hq').
    destruct (match_uri r raw), (match_uri r raw'); try reflexivity; [symmetry; now apply M', M|now apply M, M']. }
  unfold select_route. revert Hm. clear. generalize (c_routes cfg). induction l as [|r l IH]; intros Hm; [reflexivity|]. cbn [List.find].
  rewrite (Hm r (or_introl eq_refl)). destruct (match_uri r raw'); [reflexivity|]. apply IH. intros x Hx. apply Hm. now right.
Qed.

Lemma matched_is_under : forall so srt cfg0 cfg raw path r, in_use so srt cfg0 cfg -> simple_routes cfg0 -> names_path raw path ->
  select_route (c_routes cfg) raw = Some r -> exists t, path = r_path r ++ t.
Proof.
  intros so srt cfg0 cfg raw path r H Hs [p [q [E1 [_ [Hp [Hq Hd]]]]]] Hsel. destruct (in_use_boot _ _ _ _ H) as [Hsrt [cfg1 [Hb [Hr _]]]].
  assert (Hin := select_in _ _ _ Hsel). assert (Hin' := Hin). rewrite Hr in Hin'. destruct (boot_routes_from _ _ _ _ _ Hsrt Hb r Hin') as [r0 [H0 Hbf]].
  destruct (Hs r0 H0) as [Hl [Hc Hsl]].
  assert (Hm := proj2 (List.find_some _ _ Hsel)). cbv beta in Hm.
  apply (matched_path _ _ _ _ r r0 raw p q H Hin H0 Hbf Hl E1 Hp Hq) in Hm. destruct Hm as [t ->].
  rewrite decode_app in Hd by exact Hc. destruct (decode t) as [t'|]; [|discriminate Hd]. cbn in Hd. injection Hd as <-.
  exists t'. destruct Hbf as [-> _]. f_equal. unfold slashed. apply prefix_spec in Hsl. destruct Hsl as [x Hx]. rewrite Hx. reflexivity.
Qed.

(** * The about page *)

Lemma ends_spec : forall p, ends_with_slash p = true -> exists q, p = q ++ "/".
Proof.
  induction p as [|c p IH]; intros H; [discriminate H|]. cbn [ends_with_slash] in H. destruct p as [|d p].
  - apply Ascii.eqb_eq in H. subst c. now exists "".
  - destruct (IH H) as [q ->]. now exists (String c q).
Qed.

Lemma about_served : forall so srt cfg0 cfg E L nr ch i r, in_use so srt cfg0 cfg -> serve E L nr cfg ch i = About r ->
  exists p, about_path cfg0 p /\ (i_path i = p \/ ((exists q, p = q ++ "/") /\ exists t, i_path i = p ++ t)).
Proof.
  intros so srt cfg0 cfg E L nr ch i r H Hs.
  assert (Hm : mux_match (about_paths (c_routes cfg)) (i_path i) = TAbout).
  { unfold serve in Hs. destruct (mux_serve _ i) eqn:Em; try discriminate Hs.
    - unfold mux_serve in Em. destruct (String.eqb _ "*"); [discriminate Em|]. destruct (String.eqb _ "CONNECT").
      + destruct (should_redirect _ _); [discriminate Em|exact Em].
      + destruct (should_redirect _ _); [discriminate Em|]. destruct (negb _); [discriminate Em|exact Em].
    - exfalso. unfold proxy_handler in Hs. destruct (negb _); [destruct (w_too_large _); discriminate Hs|].
      destruct (select_route _ _) as [x|]; [|discriminate Hs]. destruct (if has_jwt x then _ else _); try discriminate Hs.
      destruct (map_url _ _ _); discriminate Hs. }
  unfold mux_match in Hm. destruct (mem_str _ _) eqn:E1.
  - apply mem_str_In in E1. apply (about_paths_In _ _ _ _ H) in E1. exists (i_path i). split; [exact E1|now left].
  - destruct (existsb _ _) eqn:E2; [|destruct (String.prefix _ _); discriminate Hm].
    apply existsb_exists in E2. destruct E2 as [p [H1 H2]]. apply andb_true_iff in H2. destruct H2 as [H2 H3].
    exists p. split; [now apply (about_paths_In _ _ _ _ H)|]. right. split; [now apply ends_spec|now apply prefix_spec].
Qed.

Lemma about_any : forall so srt cfg0 cfg E L nr ch i, in_use so srt cfg0 cfg -> about_path cfg0 (i_path i) -> clean (i_path i) -> q_raw_uri (i_req i) <> "*" ->
  exists r, serve E L nr cfg ch i = About r /\ rp_status r = 200%Z.
Proof.
  intros so srt cfg0 cfg E L nr ch i H Ha Hc Hr. apply (about_paths_In _ _ _ _ H) in Ha. apply clean_path_iff in Hc. apply mem_str_In in Ha.
  assert (Hm : mux_serve (about_paths (c_routes cfg)) i = TAbout).
  { unfold mux_serve. destruct (String.eqb_spec (q_raw_uri (i_req i)) "*"); [contradiction|]. rewrite Hc.
    assert (Hn : should_redirect (about_paths (c_routes cfg)) (i_path i) = false).
    { unfold should_redirect. unfold mem_str at 1. cbn [existsb]. fold (mem_str (i_path i) (about_paths (c_routes cfg))). rewrite Ha, orb_true_r. reflexivity. }
    rewrite Hn. rewrite String.eqb_refl. cbn [negb]. unfold mux_match. rewrite Ha. destruct (String.eqb _ "CONNECT"); reflexivity. }
  unfold serve. rewrite Hm. eexists. split; [reflexivity|]. unfold about_page. cbv zeta.
  destruct (values _ _); [reflexivity|]. destruct (contains _ _); reflexivity.
Qed.

(** * Exact dispatch *)

Lemma ends_iff : forall p, ends_with_slash p = true <-> exists q, p = q ++ "/".
Proof. intro p. split; [apply ends_spec|]. intros [q ->]. rewrite ends_app by discriminate. reflexivity. Qed.

Lemma redirect_iff : forall so srt cfg0 cfg p, in_use so srt cfg0 cfg ->
  (should_redirect (about_paths (c_routes cfg)) p = true <-> lacks_slash cfg0 p).
Proof.
  intros so srt cfg0 cfg p H.
  assert (R : forall q, mem_str q ("/" :: about_paths (c_routes cfg)) = true <-> registered cfg0 q).
  { intro q. rewrite mem_str_In. cbn [In]. unfold registered. rewrite (about_paths_In _ _ _ _ H). split; intros [E|E]; auto. }
  unfold should_redirect, lacks_slash. cbv zeta. rewrite !andb_true_iff, !negb_true_iff, R. split.
  - intros [[[H1 H2] H3] H4]. apply String.eqb_neq in H2. split; [exact H2|]. split.
    + intros q E. rewrite (proj2 (ends_iff p) (ex_intro _ q E)) in H4. discriminate H4.
    + split; [|exact H3]. intro G. apply R in G. congruence.
  - intros (H1 & H2 & H3 & H4). split; [split; [split|]|].
    + destruct (mem_str p _) eqn:E; [|reflexivity]. apply R in E. contradiction.
    + now apply String.eqb_neq.
    + exact H4.
    + destruct (ends_with_slash p) eqn:E; [|reflexivity]. apply ends_iff in E. destruct E as [q E]. elim (H2 q E).
Qed.

Lemma match_iff : forall so srt cfg0 cfg p, in_use so srt cfg0 cfg ->
  (covered cfg0 p /\ mux_match (about_paths (c_routes cfg)) p = TAbout) \/
  (~ covered cfg0 p /\ mux_match (about_paths (c_routes cfg)) p = if String.prefix "/" p then TProxy else TNotFound).
Proof.
  intros so srt cfg0 cfg p H. unfold mux_match, covered. destruct (mem_str p _) eqn:E1.
  - left. split; [|reflexivity]. left. apply mem_str_In in E1. now apply (about_paths_In _ _ _ _ H).
  - destruct (existsb _ _) eqn:E2.
    + left. split; [|reflexivity]. right. apply existsb_exists in E2. destruct E2 as [q [H1 H2]]. apply andb_true_iff in H2. destruct H2 as [H2 H3].
      apply ends_iff in H2. destruct H2 as [d ->]. apply prefix_spec in H3. destruct H3 as [t H3]. exists d, t. split; [now apply (about_paths_In _ _ _ _ H)|exact H3].
    + right. split; [|reflexivity]. intros [A|(d & t & A & E)].
      * apply (about_paths_In _ _ _ _ H) in A. apply mem_str_In in A. congruence.
      * apply (about_paths_In _ _ _ _ H) in A. assert (X : existsb (fun q => (ends_with_slash q && String.prefix q p)%bool) (about_paths (c_routes cfg)) = true).
        { apply existsb_exists. exists (d ++ "/"). split; [exact A|]. apply andb_true_iff. split; [apply ends_iff; now exists d|]. apply prefix_spec. now exists t. }
        congruence.
Qed.

Lemma about_not_answered : forall E L nr cfg ch q r, proxy_handler E L nr cfg ch q <> About r.
Proof.
  intros E L nr cfg ch q r H. unfold proxy_handler in H. destruct (negb _); [destruct (w_too_large _); discriminate H|].
  destruct (select_route _ _) as [x|]; [|discriminate H]. destruct (if has_jwt x then _ else _); try discriminate H.
  destruct (map_url _ _ _); discriminate H.
Qed.

Lemma library_not_answered : forall E L nr cfg ch q t, proxy_handler E L nr cfg ch q <> ByLibrary t.
Proof.
  intros E L nr cfg ch q r H. unfold proxy_handler in H. destruct (negb _); [destruct (w_too_large _); discriminate H|].
  destruct (select_route _ _) as [x|]; [|discriminate H]. destruct (if has_jwt x then _ else _); try discriminate H.
  destruct (map_url _ _ _); discriminate H.
Qed.

Lemma dispatched : forall so srt cfg0 cfg E L nr ch i, in_use so srt cfg0 cfg -> q_raw_uri (i_req i) <> "*" ->
  q_method (i_req i) = "CONNECT" \/ clean (i_path i) ->
  let p := i_path i in
  (serve E L nr cfg ch i = ByLibrary (TRedirect (p ++ "/")) <-> lacks_slash cfg0 p) /\
  ((exists r, serve E L nr cfg ch i = About r) <-> covered cfg0 p /\ ~ lacks_slash cfg0 p) /\
  (proxied_request cfg i <-> (exists t, p = "/" ++ t) /\ ~ covered cfg0 p /\ ~ lacks_slash cfg0 p) /\
  (serve E L nr cfg ch i = ByLibrary TNotFound <-> ~ (exists t, p = "/" ++ t) /\ ~ covered cfg0 p /\ ~ lacks_slash cfg0 p).
Proof.
  intros so srt cfg0 cfg E L nr ch i H Hu Hc p. unfold proxied_request, serve.
  assert (M : mux_serve (about_paths (c_routes cfg)) i =
    if should_redirect (about_paths (c_routes cfg)) p then TRedirect (p ++ "/") else mux_match (about_paths (c_routes cfg)) p).
  { unfold mux_serve. rewrite (proj2 (String.eqb_neq _ _) Hu). destruct (String.eqb_spec (q_method (i_req i)) "CONNECT") as [_|N]; [reflexivity|].
    destruct Hc as [Hc|Hc]; [contradiction|]. rewrite (clean_path_id _ Hc). fold p. rewrite String.eqb_refl. reflexivity. }
  rewrite M. clear M. assert (R := redirect_iff so srt cfg0 cfg p H).
  destruct (should_redirect _ p).
  - assert (Y : lacks_slash cfg0 p) by (now apply R). split; [split; [intros _; exact Y|reflexivity]|].
    split; [split; [intros [r G]; discriminate G|intros [_ N]; contradiction]|].
    split; [split; [discriminate|intros (_ & _ & N); contradiction]|split; [discriminate|intros (_ & _ & N); contradiction]].
  - assert (N : ~ lacks_slash cfg0 p) by (intro Y; apply R in Y; discriminate Y).
    destruct (match_iff so srt cfg0 cfg p H) as [[C ->]|[C ->]].
    + split; [split; [discriminate|contradiction]|]. split; [split; [intros _; now split|intros _; eexists; reflexivity]|].
      split; [split; [discriminate|intros (_ & X & _); contradiction]|split; [discriminate|intros (_ & X & _); contradiction]].
    + assert (P := prefix_spec "/" p). destruct (String.prefix "/" p).
      * assert (T : exists t, p = "/" ++ t) by (now apply P).
        split; [split; [intro G; elim (library_not_answered _ _ _ _ _ _ _ G)|contradiction]|].
        split; [split; [intros [r G]; elim (about_not_answered _ _ _ _ _ _ _ G)|intros [X _]; contradiction]|].
        split; [split; [intros _; now split|reflexivity]|split; [intro G; elim (library_not_answered _ _ _ _ _ _ _ G)|intros (X & _); contradiction]].
      * assert (T : ~ exists t, p = "/" ++ t) by (intro G; apply P in G; discriminate G).
        split; [split; [discriminate|contradiction]|]. split; [split; [intros [r G]; discriminate G|intros [X _]; contradiction]|].
        split; [split; [discriminate|intros [X _]; contradiction]|split; [intros _; now split|reflexivity]].
Qed.

(** * Where a path that is not clean is redirected to *)

Definition slash_end (segs : list string) : list string := if String.eqb (last segs ".") "" then [""] else [].

Lemma simplify : forall segs acc, Forall good acc ->
  clos_refl_trans_1n _ simpler (rev acc ++ segs)%list (clean_segments acc segs ++ slash_end segs)%list.
Proof.
  assert (L : forall s b, slash_end (s :: b) = if match b with [] => String.eqb s "" | _ => false end then [""] else slash_end b).
  { intros s b. unfold slash_end. destruct b; [cbn [last]; now destruct (String.eqb s "")|reflexivity]. }
  induction segs as [|s segs IH]; intros acc Ha; cbn [clean_segments].
  - apply rt1n_refl.
  - rewrite L. destruct (String.eqb_spec s "") as [->|E1]; cbn [orb].
    + destruct segs as [|s' segs].
      * apply rt1n_refl.
      * eapply Relation_Operators.rt1n_trans; [apply si_empty|]. now apply IH.
    + replace (match segs with [] => false | _ => false end) with false by now destruct segs.
      destruct (String.eqb_spec s ".") as [->|E2].
      * eapply Relation_Operators.rt1n_trans; [apply si_here|]. now apply IH.
      * destruct (String.eqb_spec s "..") as [->|E3].
        -- destruct acc as [|x acc].
           ++ eapply Relation_Operators.rt1n_trans; [apply si_top|]. now apply (IH []).
           ++ inversion Ha as [|? ? G1 G2]; subst. destruct G1 as (A1 & A2 & A3). cbn [rev tl]. rewrite <- app_assoc. eapply Relation_Operators.rt1n_trans; [now apply si_up|]. now apply IH.
        -- assert (G : Forall good (s :: acc)) by (constructor; [now repeat split|exact Ha]). specialize (IH (s :: acc) G).
           cbn [rev] in IH. now rewrite <- app_assoc in IH.
Qed.

Lemma ends_join : forall segs, (forall x, In x segs -> has_char "/" x = false) -> segs <> [] ->
  ends_with_slash ("/" ++ join "/" segs) = String.eqb (last segs ".") "".
Proof.
  intros segs W N. destruct (exists_last N) as [l [x ->]]. rewrite last_last.
  assert (Wx : has_char "/" x = false) by (apply W; apply in_or_app; right; now left).
  destruct (String.eqb_spec x "") as [->|Ex].
  - apply ends_iff. destruct l as [|y l]; [now exists ""|]. rewrite join_snoc by discriminate. rewrite append_nil_r.
    exists ("/" ++ join "/" (y :: l)). now rewrite append_assoc.
  - assert (G : exists a, "/" ++ join "/" (l ++ [x]) = a ++ x).
    { destruct l as [|y l]; [now exists "/"|]. rewrite join_snoc by discriminate. exists ("/" ++ join "/" (y :: l) ++ "/"). now rewrite !append_assoc. }
    destruct G as [a ->]. rewrite ends_app by exact Ex. now apply ends_without.
Qed.

Lemma clean_path_simplest : forall path, simplest path (clean_path path).
Proof.
  intro path. split; [apply clean_path_clean|].
  unfold clean_path. destruct (String.eqb_spec path "") as [->|Hp].
  { exists "", [""], [""]. split; [right; now split|]. split; [reflexivity|]. split; [intros s [<-|[]]; reflexivity|]. split; [apply rt1n_refl|reflexivity]. }
  set (p' := if String.prefix "/" path then path else "/" ++ path). cbv zeta.
  assert (G : exists p, p' = "/" ++ p /\ (path = "/" ++ p \/ (path = p /\ String.prefix "/" p = false))).
  { unfold p'. destruct (String.prefix "/" path) eqn:E.
    - apply prefix_spec in E. destruct E as [t E]. exists t. split; [exact E|now left].
    - exists path. split; [reflexivity|]. right. now split. }
  clearbody p'. destruct G as [p [-> Hpp]]. clear Hp.
  assert (Sp : split "/" ("/" ++ p) = "" :: split "/" p).
  { change ("/" ++ p) with ("" ++ String "/" p). now rewrite split_app by exact I. }
  rewrite Sp. cbn [clean_segments String.eqb orb]. set (segs := split "/" p).
  assert (Hj : p = join "/" segs) by (symmetry; apply join_split).
  assert (W : forall s, In s segs -> has_char "/" s = false) by (intros s Hs; apply without_has_char; exact (split_without _ _ _ Hs)).
  assert (N : segs <> []) by (intro N; destruct (split_cases "/" p) as [[_ X]|[a [b [_ [_ X]]]]]; unfold segs in N; rewrite X in N; discriminate N).
  exists p, segs, (clean_segments [] segs ++ slash_end segs)%list.
  split; [exact Hpp|]. split; [exact Hj|]. split; [exact W|]. split; [exact (simplify segs [] (Forall_nil _))|].
  rewrite Hj at 1. rewrite (ends_join segs W N). unfold slash_end. destruct (String.eqb (last segs ".") ""); cbn [andb].
  - assert (G : Forall good (clean_segments [] segs)) by (apply clean_segments_good; constructor).
    set (l := clean_segments [] segs) in *. clearbody l. destruct (String.eqb_spec ("/" ++ join "/" l) "/") as [E|E]; cbn [negb].
    + destruct l as [|x l]; [reflexivity|]. exfalso.
      inversion G as [|? ? [G1 _] _]. injection E as E. destruct x; [now elim G1|]. destruct l; discriminate E.
    + destruct l as [|x l]; [now elim E|]. rewrite join_snoc by discriminate. now rewrite !append_assoc, append_nil_r.
  - now rewrite app_nil_r.
Qed.

Lemma redirected_simplest : forall so srt cfg0 cfg E L nr ch i, in_use so srt cfg0 cfg -> q_raw_uri (i_req i) <> "*" ->
  q_method (i_req i) <> "CONNECT" -> ~ clean (i_path i) ->
  exists p, simplest (i_path i) p /\
    (lacks_slash cfg0 p -> serve E L nr cfg ch i = ByLibrary (TRedirect (p ++ "/"))) /\
    (~ lacks_slash cfg0 p -> serve E L nr cfg ch i = ByLibrary (TRedirect p)).
Proof.
  intros so srt cfg0 cfg E L nr ch i H Hu Hm Hc. exists (clean_path (i_path i)). split; [apply clean_path_simplest|].
  unfold serve, mux_serve. rewrite (proj2 (String.eqb_neq _ _) Hu), (proj2 (String.eqb_neq _ _) Hm). cbv zeta.
  assert (R := redirect_iff so srt cfg0 cfg (clean_path (i_path i)) H).
  destruct (should_redirect _ _).
  - split; [reflexivity|]. intro N. elim N. now apply R.
  - split; [intro Y; apply R in Y; discriminate Y|]. intros _.
    destruct (String.eqb_spec (clean_path (i_path i)) (i_path i)) as [G|G]; [apply clean_path_iff in G; contradiction|reflexivity].
Qed.
