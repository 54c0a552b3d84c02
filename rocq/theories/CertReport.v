(** The text about certificates and the lines about the uptime. *)
From Coq Require Import String Ascii List Bool ZArith NArith Lia.
From Verif Require Import GoStr Tls TlsSpec TlsProofs TlsReport TlsReportSpec TlsReportProofs CertText CertTextSpec CertTextProofs CertDates.
Import ListNotations.
Local Open Scope string_scope.

Lemma entry_place : forall n i l e, entry_of n i l = Some e -> en_pos e = i + 1 /\ en_of e = n /\ en_remaining e = lk_remaining l.
Proof. intros n i l e H. unfold entry_of in H. destruct (format_serial _); [|discriminate]. injection H as <-. now repeat split. Qed.

Lemma join_remarks : forall a b, join "" (map remark_text (a ++ [b])) = join "" (map remark_text a) ++ remark_text b.
Proof.
  induction a as [|r a IH]; intros b; [reflexivity|]. cbn [app map]. specialize (IH b).
  destruct (a ++ [b])%list as [|x xs] eqn:E; [destruct a; discriminate E|].
  change (join "" (remark_text r :: map remark_text (x :: xs))) with (remark_text r ++ "" ++ join "" (map remark_text (x :: xs))).
  rewrite IH. destruct a as [|y a]; [reflexivity|].
  change (join "" (remark_text r :: map remark_text (y :: a))) with (remark_text r ++ "" ++ join "" (map remark_text (y :: a))).
  cbn [append]. now rewrite append_assoc.
Qed.

(** The text about a certificate that is no authority *)
Lemma site_text : forall chain i c now e, about chain i c now e -> ct_ca c = false -> in_range (ct_not_after c - now) ->
  (1000 <= ct_not_after c - now)%Z ->
  exists x date ps mark rest,
    entry_text e = "[" ++ itoa (N.of_nat (i + 1)) ++ "/" ++ itoa (N.of_nat (length chain)) ++ "] TLS cert #" ++ en_serial e ++
      " for DNS names [" ++ join " " (ct_dns c) ++ "], issued on " ++ date ++ ", signed by [" ++ cn (ct_issuer c) ++ "], expires in " ++
      join " " (map phrase ps) ++ mark ++ ". " ++ rest /\
    dated (ct_not_before c / one_day)%Z x /\ written_date x date /\ tells_truly 2 ps (ct_not_after c - now) /\
    (mark = ", which is the earliest in your chain" /\ called_earliest e \/ mark = "" /\ ~ called_earliest e).
Proof.
  intros chain i c now e H C R P. destruct (about_inv _ _ _ _ _ H) as (links & l & _ & _ & _ & Hc & Hr & _ & _ & Ha & He).
  rewrite (range_sub _ _ R) in Hr. rewrite C in Ha. assert (K := entry_leaf _ _ _ _ He Ha). rewrite Hc in K.
  destruct (entry_place _ _ _ _ He) as [E1 [E2 E3]]. rewrite Hr in E3.
  destruct (date_text_true (ct_not_before c)) as [x [D W]].
  destruct (durafmt_true 2 (ct_not_after c - now) ltac:(lia) P) as [ps [T1 T2]].
  exists x, (date_text (ct_not_before c)), ps, (if lk_earliest l then ", which is the earliest in your chain" else ""), (join "" (map remark_text (remarks_of l))).
  split; [|split; [exact D|split; [exact W|split; [exact T2|]]]].
  - unfold entry_text. rewrite K, E1, E2, E3. unfold as_string. rewrite T1. rewrite !append_assoc. reflexivity.
  - unfold called_earliest. rewrite K. destruct (lk_earliest l); [left|right]; split; try reflexivity. discriminate.
Qed.

Lemma authority_text : forall chain i c now e, about chain i c now e -> ct_ca c = true -> in_range (ct_not_after c - now) ->
  (1000 <= ct_not_after c - now)%Z ->
  exists kind ps,
    entry_text e = "[" ++ itoa (N.of_nat (i + 1)) ++ "/" ++ itoa (N.of_nat (length chain)) ++ "] " ++ kind ++ " CA #" ++ en_serial e ++
      " Common name [" ++ cn (ct_subject c) ++ "], signed by [" ++ cn (ct_issuer c) ++ "], expires in " ++ join " " (map phrase ps) ++ ". " /\
    tells_truly 2 ps (ct_not_after c - now) /\
    (kind = "Root" /\ cn (ct_issuer c) = cn (ct_subject c) \/ kind = "Intermediate" /\ cn (ct_issuer c) <> cn (ct_subject c)).
Proof.
  intros chain i c now e H C R P. destruct (about_inv _ _ _ _ _ H) as (links & l & _ & _ & _ & Hc & Hr & _ & _ & Ha & He).
  rewrite (range_sub _ _ R) in Hr. rewrite C in Ha. assert (K := entry_ca _ _ _ _ He Ha). rewrite Hc in K.
  destruct (entry_place _ _ _ _ He) as [E1 [E2 E3]]. rewrite Hr in E3.
  destruct (durafmt_true 2 (ct_not_after c - now) ltac:(lia) P) as [ps [T1 T2]].
  exists (if is_root c then "Root" else "Intermediate"), ps. split; [|split; [exact T2|]].
  - unfold entry_text. rewrite K, E1, E2, E3. unfold as_string. rewrite T1. rewrite !append_assoc. reflexivity.
  - unfold is_root. rewrite C. cbn [andb]. destruct (String.eqb_spec (cn (ct_issuer c)) (cn (ct_subject c))); [left|right]; now split.
Qed.

(** The last sentence about such a certificate *)
Lemma last_sentence : forall chain i c now e, about chain i c now e -> ct_ca c = false -> in_range (ct_not_before c + browser_limit - now) ->
  exists pre, entry_text e = pre ++ remark_text (if (0 <? ct_not_before c + browser_limit - now)%Z
    then Disruption (ct_not_before c + browser_limit - now) else GraceExpired (ct_not_before c + browser_limit - now)).
Proof.
  intros chain i c now e H C R. destruct (about_inv _ _ _ _ _ H) as (links & l & _ & _ & _ & Hc & _ & _ & Hb & Ha & He).
  rewrite expiry_limit, (range_sub _ _ R) in Hb. rewrite C in Ha. assert (K := entry_leaf _ _ _ _ He Ha).
  unfold entry_text. rewrite K. unfold remarks_of. rewrite join_remarks, Hb. eexists. rewrite <- !append_assoc. reflexivity.
Qed.

Lemma disruption_text : forall chain i c now e, about chain i c now e -> ct_ca c = false -> in_range (ct_not_before c + browser_limit - now) ->
  (1000 <= ct_not_before c + browser_limit - now)%Z ->
  exists pre ps, entry_text e = pre ++ "You may experience disruption in " ++ join " " (map phrase ps) ++ ". " /\
    tells_truly 2 ps (ct_not_before c + browser_limit - now).
Proof.
  intros chain i c now e H C R P. destruct (last_sentence _ _ _ _ _ H C R) as [pre E].
  destruct (Z.ltb_spec 0 (ct_not_before c + browser_limit - now)); [|lia].
  destruct (durafmt_true 2 (ct_not_before c + browser_limit - now) ltac:(lia) P) as [ps [T1 T2]].
  exists pre, ps. split; [|exact T2]. rewrite E. cbn [remark_text]. unfold as_string. now rewrite T1.
Qed.

Lemma grace_text : forall chain i c now e, about chain i c now e -> ct_ca c = false -> (- 2 ^ 63 < ct_not_before c + browser_limit - now)%Z ->
  (1000 <= now - (ct_not_before c + browser_limit))%Z ->
  exists pre ps, entry_text e = pre ++ "Validity grace period expired -" ++ join " " (map phrase ps) ++ " ago, update now. " /\
    tells_truly 2 ps (now - (ct_not_before c + browser_limit)).
Proof.
  intros chain i c now e H C R P.
  assert (R' : in_range (ct_not_before c + browser_limit - now)) by (unfold in_range; change (2 ^ 63)%Z with 9223372036854775808%Z in *; lia).
  destruct (last_sentence _ _ _ _ _ H C R') as [pre E].
  destruct (Z.ltb_spec 0 (ct_not_before c + browser_limit - now)); [lia|].
  destruct (durafmt_true 2 (now - (ct_not_before c + browser_limit)) ltac:(lia) P) as [ps [T1 T2]].
  exists pre, ps. split; [|exact T2]. rewrite E. cbn [remark_text]. unfold as_string. rewrite durafmt_negative.
  - replace (- (ct_not_before c + browser_limit - now))%Z with (now - (ct_not_before c + browser_limit))%Z by lia. rewrite T1.
    change (pre ++ "Validity grace period expired " ++ ("-" ++ join " " (map phrase ps)) ++ " ago, update now. " =
            pre ++ "Validity grace period expired " ++ "-" ++ join " " (map phrase ps) ++ " ago, update now. ").
    now rewrite append_assoc.
  - unfold int64_min. change (2 ^ 63)%Z with 9223372036854775808%Z in R. lia.
Qed.

(** The messages: one, with all paragraphs *)
Lemma join_concat : forall l, join "" l = String.concat "" l.
Proof.
  induction l as [|s l IH]; [reflexivity|]. destruct l as [|s' l]; [reflexivity|].
  change (join "" (s :: s' :: l)) with (s ++ "" ++ join "" (s' :: l)). rewrite IH. reflexivity.
Qed.

Lemma messages_text : forall links ms, cert_messages links = Some ms ->
  exists es levels, report links = Some (es, levels) /\ map fst ms = levels /\
    forall l m, In (l, m) ms -> m = "Snapshot of your cert chain size " ++ itoa (N.of_nat (length links)) ++ " explained. " ++ String.concat "" (map entry_text es).
Proof.
  intros links ms H. unfold cert_messages in H. destruct (report links) as [[es levels]|]; [|discriminate]. injection H as <-.
  exists es, levels. split; [reflexivity|]. split; [rewrite map_map; cbn; apply map_id|].
  intros l m I. apply in_map_iff in I. destruct I as [x [X _]]. rewrite <- join_concat. exact (eq_sym (f_equal snd X)).
Qed.

(** * The uptime *)

Lemma uptime_in : forall start turns t l, In (t, l) (uptime_lines start turns) <-> In t turns /\ uptime_line start t = Some l.
Proof.
  induction turns as [|t0 turns IH]; intros t l; cbn [uptime_lines].
  - split; [contradiction|intros [[] _]].
  - rewrite in_app_iff, IH. cbn [In]. destruct (uptime_line start t0) as [l0|] eqn:E.
    + split.
      * intros [[X|[]]|[X Y]]; [injection X as <- <-; split; [now left|exact E]|split; [now right|exact Y]].
      * intros [[<-|X] Y]; [left; left; congruence|right; now split].
    + split; [intros [[]|[X Y]]; split; [now right|exact Y]|]. intros [[<-|X] Y]; [congruence|right; now split].
Qed.

Lemma uptime_told : forall start turns t micros text, in_range (t - start) -> In (t, (micros, text)) (uptime_lines start turns) ->
  In t turns /\ (1000 * micros <= t - start < 1000 * (micros + 1))%Z /\
  exists k u, text = "server uptime is " ++ phrase (k, u) /\ (1 <= k /\ k * lasting u <= t - start < (k + 1) * lasting u)%Z /\
    forall v, (lasting v <= t - start)%Z -> (lasting v <= lasting u)%Z.
Proof.
  intros start turns t micros text R H. apply uptime_in in H. destruct H as [Hin H]. unfold uptime_line in H. cbv zeta in H.
  rewrite (range_sub _ _ R) in H. destruct (Z.ltb_spec 10000000000 (t - start)) as [L|L]; [|discriminate]. injection H as <- <-.
  split; [exact Hin|]. split.
  - rewrite Z.quot_div_nonneg by lia. assert (D := Z.div_mod (t - start) 1000 ltac:(lia)). assert (M := Z.mod_pos_bound (t - start) 1000 ltac:(lia)). lia.
  - destruct (durafmt_one (t - start) ltac:(lia)) as [k [u [E [B F]]]]. exists k, u. split; [now rewrite E|]. split; [exact B|exact F].
Qed.

Lemma uptime_when : forall start turns t, in_range (t - start) -> In t turns ->
  ((exists l, In (t, l) (uptime_lines start turns)) <-> (10 * 1000000000 < t - start)%Z).
Proof.
  intros start turns t R Hin. split.
  - intros [l H]. apply uptime_in in H. destruct H as [_ H]. unfold uptime_line in H. cbv zeta in H. rewrite (range_sub _ _ R) in H.
    destruct (Z.ltb_spec 10000000000 (t - start)); [lia|discriminate].
  - intros H. eexists. apply uptime_in. split; [exact Hin|]. unfold uptime_line. cbv zeta. rewrite (range_sub _ _ R).
    destruct (Z.ltb_spec 10000000000 (t - start)); [reflexivity|lia].
Qed.

Lemma daily_from : forall turns t0, daily (t0 :: turns) -> forall t, In t turns -> (t0 + 24 * 3600 * 1000000000 <= t)%Z.
Proof.
  induction turns as [|t1 turns IH]; intros t0 D t H; [contradiction|]. destruct D as [D1 D2]. destruct H as [<-|H]; [exact D1|].
  specialize (IH t1 D2 t H). lia.
Qed.

Lemma first_day : forall start t0 turns t l, daily (t0 :: turns) -> (start <= t0 <= start + 10 * 1000000000)%Z ->
  In (t, l) (uptime_lines start (t0 :: turns)) -> (t0 + 24 * 3600 * 1000000000 <= t)%Z.
Proof.
  intros start t0 turns t l D B H. apply uptime_in in H. destruct H as [[<-|Hin] H]; [|exact (daily_from _ _ D _ Hin)].
  exfalso. unfold uptime_line in H. cbv zeta in H. rewrite range_sub in H.
  - destruct (Z.ltb_spec 10000000000 (t0 - start)); [lia|discriminate].
  - unfold in_range. change (2 ^ 63)%Z with 9223372036854775808%Z. lia.
Qed.

(** * Cases *)

(** A week and a day less than two weeks are told alike. *)
Lemma weeks_alike : exists start turns t t' m m' text, daily turns /\ In (t, (m, text)) (uptime_lines start turns) /\
  In (t', (m', text)) (uptime_lines start turns) /\ (t' - t = 6 * one_day)%Z.
Proof.
  exists 0%Z, (map (fun k => (Z.of_nat k * one_day + 5)%Z) (seq 0 15)), (7 * one_day + 5)%Z, (13 * one_day + 5)%Z, 604800000000%Z, 1123200000000%Z, "server uptime is 1 week".
  split; [vm_compute; repeat split; congruence|].
  split; [apply uptime_in; split; [apply in_map_iff; exists 7; split; [reflexivity|apply in_seq; lia]|vm_compute; reflexivity]|].
  split; [apply uptime_in; split; [apply in_map_iff; exists 13; split; [reflexivity|apply in_seq; lia]|vm_compute; reflexivity]|]. reflexivity.
Qed.

(** A certificate for three years, 400 days after its issue *)
Lemma grace_case : exists chain i c now e, about chain i c now e /\ ct_ca c = false /\ (now < ct_not_after c)%Z /\
  (1000 <= now - (ct_not_before c + browser_limit))%Z /\
  exists pre, entry_text e = pre ++ "Validity grace period expired -2 days ago, update now. ".
Proof.
  exists [(leaf 4660 0 1095, 400 * day)%Z], 0, (leaf 4660 0 1095), (400 * day)%Z.
  eexists. split; [eexists _, _, _; split; [vm_compute; reflexivity|]; split; [vm_compute; reflexivity|]; split; reflexivity|].
  split; [reflexivity|]. split; [reflexivity|]. split; [vm_compute; congruence|].
  match goal with |- exists pre, entry_text ?e = pre ++ ?x =>
    exists (String.substring 0 (String.length (entry_text e) - String.length x) (entry_text e)) end.
  vm_compute. reflexivity.
Qed.
