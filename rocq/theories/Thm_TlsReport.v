(** The report about the certificate chain (C86). *)
From Coq Require Import String List Bool ZArith NArith.
From Verif Require Import GoStr Tls TlsSpec TlsReport TlsReportSpec TlsReportProofs.
Import ListNotations.
Local Open Scope Z_scope.

(** Each paragraph is about its certificate. *)
Theorem C86_paragraph : forall chain i c now e, about chain i c now e ->
  en_pos e = S i /\ en_of e = length chain /\ format_serial (ct_serial c) = Some (en_serial e) /\
  (in_range (ct_not_after c - now) -> en_remaining e = ct_not_after c - now) /\
  (ct_ca c = false -> exists m rs, en_kind e = Site (ct_dns c) (ct_not_before c) (cn (ct_issuer c)) m rs) /\
  (ct_ca c = true -> exists root, en_kind e = Authority root (cn (ct_subject c)) (cn (ct_issuer c)) /\ (root = true <-> cn (ct_issuer c) = cn (ct_subject c))).
Proof. exact paragraph. Qed.
Print Assumptions C86_paragraph.

(** A validity above the 398 days of browsers is pointed out exactly when there is one, in days, as long
    as it is below 292 years ... *)
Theorem C86_limit_partial : forall chain i c now e days max, about chain i c now e -> in_range (ct_not_after c - ct_not_before c) ->
  (said e (AboveMax days max) <-> ct_ca c = false /\ too_long c /\ max = 398 /\ days * one_day <= ct_not_after c - ct_not_before c < (days + 1) * one_day).
Proof. exact limit_said. Qed.
Print Assumptions C86_limit_partial.

(** ... but a certificate without a well-defined end is said to be valid for 106751 days. *)
Theorem C86_days_refuted : exists chain i c now e, about chain i c now e /\ said e (AboveMax 106751 398) /\ 2913000 * one_day <= ct_not_after c - ct_not_before c.
Proof. exact days_refuted. Qed.
Print Assumptions C86_days_refuted.

(** For those valid for too long the time of the disruption is right (what is missing: the others) ... *)
Theorem C86_disruption_partial : forall chain i c now e, about chain i c now e -> ct_ca c = false -> too_long c ->
  in_range (ct_not_before c + browser_limit - now) ->
  (forall left, said e (Disruption left) <-> now < disrupted_at c /\ left = disrupted_at c - now) /\
  (forall since, said e (GraceExpired since) <-> disrupted_at c <= now /\ since = disrupted_at c - now).
Proof. exact disruption_said. Qed.
Print Assumptions C86_disruption_partial.

(** ... and for the others it is said to be 398 days after the issue, too, ... *)
Theorem C86_always : forall chain i c now e, about chain i c now e -> ct_ca c = false -> in_range (ct_not_before c + browser_limit - now) ->
  if 0 <? ct_not_before c + browser_limit - now then said e (Disruption (ct_not_before c + browser_limit - now))
  else said e (GraceExpired (ct_not_before c + browser_limit - now)).
Proof. exact always_said. Qed.
Print Assumptions C86_always.

(** ... after they have expired. *)
Theorem C86_disruption_refuted : exists chain i c now e left, about chain i c now e /\ ct_ca c = false /\ ~ too_long c /\
  now < ct_not_after c < now + left /\ said e (Disruption left).
Proof. exact disruption_refuted. Qed.
Print Assumptions C86_disruption_refuted.

(** The certificate that expires first is pointed out exactly if it is no authority. *)
Theorem C86_earliest_partial : forall chain i c now e, about chain i c now e ->
  (called_earliest e <-> ct_ca c = false /\ exists links, parse_tls_links chain = Some links /\ earliest_at links i).
Proof. exact earliest_said. Qed.
Print Assumptions C86_earliest_partial.

Theorem C86_earliest_refuted : exists chain links es, parse_tls_links chain = Some links /\ report links = Some (es, [Warn]) /\
  ~ exists i e, nth_error es i = Some e /\ called_earliest e.
Proof. exact earliest_refuted. Qed.
Print Assumptions C86_earliest_refuted.

(** The levels are those of C55. *)
Theorem C86_levels : forall links, option_map snd (report links) = log_cert_stats links.
Proof. exact report_levels. Qed.
Print Assumptions C86_levels.

(** Day 100 of a certificate for 825 days, serial number 1234 (hexadecimal). *)
Example C86_case : exists e, about [(leaf 4660 0 825, 100 * day); (authority 4661 "Inter" "Root" 0 3000, 100 * day)] 0 (leaf 4660 0 825) (100 * day) e /\
  en_serial e = "12-34"%string /\ called_earliest e /\ said e (AboveMax 825 398) /\ said e (Disruption (298 * day)) /\ too_long (leaf 4660 0 825).
Proof.
  eexists. split.
  { eexists _, _, _. split; [vm_compute; reflexivity|]. split; [vm_compute; reflexivity|]. split; [reflexivity|]. vm_compute. reflexivity. }
  split; [reflexivity|]. split; [reflexivity|]. split; [left; reflexivity|]. split; [right; left; reflexivity|reflexivity].
Qed.
