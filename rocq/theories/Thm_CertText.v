(** The words of the report about certificates and of the uptime (C132). *)
From Coq Require Import String Ascii List Bool ZArith NArith Lia.
From Verif Require Import GoStr Tls TlsSpec TlsProofs TlsReport TlsReportSpec TlsReportProofs CertText CertTextSpec CertTextProofs CertDates CertReport.
Import ListNotations.
Local Open Scope string_scope.

(** Durations of a microsecond or more are told in at most the given number of units, the largest first, no
    longer than they are, and shorter by less than the last unit told. *)
Theorem C132_durations : forall n d, 1 <= n -> (1000 <= d)%Z -> exists ps, durafmt n d = join " " (map phrase ps) /\ tells_truly n ps d.
Proof. exact durafmt_true. Qed.
Print Assumptions C132_durations.

Example C132_durations_case : durafmt 2 (400 * one_day + 3 * 3600000000000)%Z = "1 year 5 weeks" /\ durafmt 2 (366 * one_day + 7) = "1 year 1 day".
Proof. split; vm_compute; reflexivity. Qed.

(** Dates are those of the calendar: counted on from 1 January 1970, day by day. *)
Theorem C132_dates : forall n x, dated n x <-> date_of n = x.
Proof. exact dated_exactly. Qed.
Print Assumptions C132_dates.

Example C132_dates_case : date_of 18321 = (2020, 2, 29)%Z /\ date_of (-1) = (1969, 12, 31)%Z /\ date_text 1614556800000000000 = "2021-03-01".
Proof. split; [|split]; vm_compute; reflexivity. Qed.

(** What is said about a certificate that is no authority *)
Theorem C132_site : forall chain i c now e, about chain i c now e -> ct_ca c = false -> in_range (ct_not_after c - now) ->
  (1000 <= ct_not_after c - now)%Z ->
  exists x date ps mark rest,
    entry_text e = "[" ++ itoa (N.of_nat (i + 1)) ++ "/" ++ itoa (N.of_nat (length chain)) ++ "] TLS cert #" ++ en_serial e ++
      " for DNS names [" ++ join " " (ct_dns c) ++ "], issued on " ++ date ++ ", signed by [" ++ cn (ct_issuer c) ++ "], expires in " ++
      join " " (map phrase ps) ++ mark ++ ". " ++ rest /\
    dated (ct_not_before c / one_day)%Z x /\ written_date x date /\ tells_truly 2 ps (ct_not_after c - now) /\
    (mark = ", which is the earliest in your chain" /\ called_earliest e \/ mark = "" /\ ~ called_earliest e).
Proof. exact site_text. Qed.
Print Assumptions C132_site.

(** ... and about one that is. *)
Theorem C132_authority : forall chain i c now e, about chain i c now e -> ct_ca c = true -> in_range (ct_not_after c - now) ->
  (1000 <= ct_not_after c - now)%Z ->
  exists kind ps,
    entry_text e = "[" ++ itoa (N.of_nat (i + 1)) ++ "/" ++ itoa (N.of_nat (length chain)) ++ "] " ++ kind ++ " CA #" ++ en_serial e ++
      " Common name [" ++ cn (ct_subject c) ++ "], signed by [" ++ cn (ct_issuer c) ++ "], expires in " ++ join " " (map phrase ps) ++ ". " /\
    tells_truly 2 ps (ct_not_after c - now) /\
    (kind = "Root" /\ cn (ct_issuer c) = cn (ct_subject c) \/ kind = "Intermediate" /\ cn (ct_issuer c) <> cn (ct_subject c)).
Proof. exact authority_text. Qed.
Print Assumptions C132_authority.

(** The last sentence, as long as browsers accept the certificate *)
Theorem C132_disruption : forall chain i c now e, about chain i c now e -> ct_ca c = false -> in_range (ct_not_before c + browser_limit - now) ->
  (1000 <= ct_not_before c + browser_limit - now)%Z ->
  exists pre ps, entry_text e = pre ++ "You may experience disruption in " ++ join " " (map phrase ps) ++ ". " /\
    tells_truly 2 ps (ct_not_before c + browser_limit - now).
Proof. exact disruption_text. Qed.
Print Assumptions C132_disruption.

(** Afterwards a negative time is told: "expired -2 days ago".  This holds of every such certificate ... *)
Theorem C132_grace : forall chain i c now e, about chain i c now e -> ct_ca c = false -> (- 2 ^ 63 < ct_not_before c + browser_limit - now)%Z ->
  (1000 <= now - (ct_not_before c + browser_limit))%Z ->
  exists pre ps, entry_text e = pre ++ "Validity grace period expired -" ++ join " " (map phrase ps) ++ " ago, update now. " /\
    tells_truly 2 ps (now - (ct_not_before c + browser_limit)).
Proof. exact grace_text. Qed.
Print Assumptions C132_grace.

(** ... and there are such: one for three years, 400 days after its issue. *)
Theorem C132_grace_refuted : exists chain i c now e, about chain i c now e /\ ct_ca c = false /\ (now < ct_not_after c)%Z /\
  (1000 <= now - (ct_not_before c + browser_limit))%Z /\
  exists pre, entry_text e = pre ++ "Validity grace period expired -2 days ago, update now. ".
Proof. exact grace_case. Qed.
Print Assumptions C132_grace_refuted.

(** The message is made of the paragraphs of all certificates, in order. *)
Theorem C132_message : forall links ms, cert_messages links = Some ms ->
  exists es levels, report links = Some (es, levels) /\ map fst ms = levels /\
    forall l m, In (l, m) ms -> m = "Snapshot of your cert chain size " ++ itoa (N.of_nat (length links)) ++ " explained. " ++ String.concat "" (map entry_text es).
Proof. exact messages_text. Qed.
Print Assumptions C132_message.

Example C132_message_case : option_map (cert_messages)
    (parse_tls_links [(leaf 4660 0 825, 100 * day)%Z; (authority 4661 "Inter" "Root" 0 3000, 100 * day)%Z]) =
  Some (Some [(Debug, "Snapshot of your cert chain size 2 explained. " ++
    "[1/2] TLS cert #12-34 for DNS names [site.example], issued on 1970-01-01, signed by [Inter], expires in 1 year 51 weeks, which is the earliest in your chain. " ++
    "Total validity period of 825 days is above legal browser max 398. You may experience disruption in 42 weeks 4 days. " ++
    "[2/2] Intermediate CA #12-35 Common name [Inter], signed by [Root], expires in 7 years 49 weeks. ")]).
Proof. vm_compute. reflexivity. Qed.

(** * The uptime *)

(** A turn of the loop tells the uptime exactly if it is more than ten seconds ... *)
Theorem C132_when : forall start turns t, in_range (t - start) -> In t turns ->
  ((exists l, In (t, l) (uptime_lines start turns)) <-> (10 * 1000000000 < t - start)%Z).
Proof. exact uptime_when. Qed.
Print Assumptions C132_when.

(** ... in microseconds, and in whole numbers of the longest unit that fits ... *)
Theorem C132_uptime_partial : forall start turns t micros text, in_range (t - start) -> In (t, (micros, text)) (uptime_lines start turns) ->
  In t turns /\ (1000 * micros <= t - start < 1000 * (micros + 1))%Z /\
  exists k u, text = "server uptime is " ++ phrase (k, u) /\ (1 <= k /\ k * lasting u <= t - start < (k + 1) * lasting u)%Z /\
    forall v, (lasting v <= t - start)%Z -> (lasting v <= lasting u)%Z.
Proof. exact uptime_told. Qed.
Print Assumptions C132_uptime_partial.

(** ... so not in days: days 7 and 13 are told alike. *)
Theorem C132_days_refuted : exists start turns t t' m m' text, daily turns /\ In (t, (m, text)) (uptime_lines start turns) /\
  In (t', (m', text)) (uptime_lines start turns) /\ (t' - t = 6 * one_day)%Z.
Proof. exact weeks_alike. Qed.
Print Assumptions C132_days_refuted.

(** Nothing is told during the first day. *)
Theorem C132_first_day : forall start t0 turns t l, daily (t0 :: turns) -> (start <= t0 <= start + 10 * 1000000000)%Z ->
  In (t, l) (uptime_lines start (t0 :: turns)) -> (t0 + 24 * 3600 * 1000000000 <= t)%Z.
Proof. exact first_day. Qed.
Print Assumptions C132_first_day.

Example C132_uptime_case : daily [2; one_day + 3; 2 * one_day + 5]%Z /\
  uptime_lines 0 [2; one_day + 3; 2 * one_day + 5]%Z =
    [(one_day + 3, (86400000000, "server uptime is 1 day")); (2 * one_day + 5, (172800000000, "server uptime is 2 days"))]%Z.
Proof. split; [vm_compute; repeat split; congruence|vm_compute; reflexivity]. Qed.
