(** Certificates of the proxy (C53 to C56).

    Chains come with the time at which each certificate was looked at.  Verify of x509 is a parameter. *)
From Coq Require Import String Ascii List Bool ZArith NArith.
From Verif Require Import GoStr Tls TlsSpec TlsProofs.
Import ListNotations.
Local Open Scope string_scope.

(** C53: exactly one certificate is flagged, the first one of those with the least time left ... *)
Theorem C53_one : forall chain, chain <> [] -> exists links i, parse_tls_links chain = Some links /\
  map lk_cert links = map fst chain /\ earliest_at links i /\ forall j, flagged_at links j <-> j = i.
Proof. exact earliest_flagged. Qed.
Print Assumptions C53_one.

(** ... which then is the one that expires first, although the time is read for each certificate anew. *)
Theorem C53_expires_first : forall chain links i t0 c now, parse_tls_links chain = Some links -> flagged_at links i -> nth_error chain i = Some (c, now) ->
  (forall d n, In (d, n) chain -> (t0 <= n < t0 + 1000000000)%Z /\ (exists s, ct_not_after d = s * 1000000000)%Z /\ (int64_min <= ct_not_after d - n <= int64_max)%Z) ->
  forall d n, In (d, n) chain -> (ct_not_after c <= ct_not_after d)%Z.
Proof. exact earliest_expires_first. Qed.
Print Assumptions C53_expires_first.

Example C53_case : option_map (map lk_earliest) (parse_tls_links [(inter_ca, 5); (site 1 900, 7); (site 2 20, 8); (site 3 20, 8); (root_ca, 9)]%Z) =
  Some [false; false; true; false; false].
Proof. vm_compute. reflexivity. Qed.

(** C54: what is printed is right ... *)
Theorem C54_shows_partial : forall n t, format_serial n = Some t -> shows t n.
Proof. exact format_serial_shows. Qed.
Print Assumptions C54_shows_partial.

(** ... but some serials, ... *)
Theorem C54_refuted : exists n, forall t, format_serial n <> Some t.
Proof. exact serial_refuted. Qed.
Print Assumptions C54_refuted.

(** ... those with an odd number of digits other than 1 and 31, panic. *)
Theorem C54_panics_exactly : forall n, format_serial n = None <-> exists d, has_digits n d /\ Nat.odd d = true /\ 3 <= d /\ d <> 31.
Proof. exact format_serial_panics. Qed.
Print Assumptions C54_panics_exactly.

Example C54_case : format_serial 4660 = Some "12-34" /\ format_serial 10 = Some "0A" /\ format_serial 256 = None /\
  format_serial 0 = Some "00" /\ format_serial (16 ^ 30) = Some "01-00-00-00-00-00-00-00-00-00-00-00-00-00-00-00".
Proof. repeat split; vm_compute; reflexivity. Qed.

(** C55: a chain that verifies and whose serials print gives one event a day, a warning exactly if some
    certificate has less than 30 days left. *)
Theorem C55_day_partial : forall verify clock chain links, check_cert_chain verify clock chain = Checked links ->
  (forall l, In l links -> format_serial (ct_serial (lk_cert l)) <> None) ->
  exists events, (forall rest, health_check (Checked links :: rest) = events :: health_check rest) /\ right_event links events.
Proof. exact day_right. Qed.
Print Assumptions C55_day_partial.

Theorem C55_days_partial : forall days, (forall d, In d days -> exists links, d = Checked links /\ (exists ts, parse_tls_links ts = Some links) /\
    forall l, In l links -> format_serial (ct_serial (lk_cert l)) <> None) ->
  Forall2 (fun d events => exists links, d = Checked links /\ right_event links events) days (health_check days).
Proof. exact health_days. Qed.
Print Assumptions C55_days_partial.

Example C55_case : health_check (map (fun d => check_cert_chain (dates (d * day)) (fun _ => d * day)%Z [Some (site 4660 100); Some inter_ca; Some root_ca]) [10; 50; 71; 72]%Z) =
  [[Debug]; [Debug]; [Warn]; [Warn]].
Proof. vm_compute. reflexivity. Qed.

(** A certificate about to expire with an odd serial never gives a warning, and the daemon ends. *)
Theorem C55_serial_refuted : exists now verify clock chain links, verifies_at now verify /\ (forall o c, verify c o <> Some []) /\
  check_cert_chain verify clock chain = Checked links /\ (exists l, In l links /\ (lk_remaining l < thirty_days)%Z) /\
  forall later, health_check (check_cert_chain verify clock chain :: later) = [].
Proof. exact odd_serial_silent. Qed.
Print Assumptions C55_serial_refuted.

Theorem C55_dead : forall before links after, log_cert_stats links = None ->
  length (health_check (before ++ Checked links :: after)) <= length before.
Proof. exact health_dead. Qed.
Print Assumptions C55_dead.

(** An expired certificate gives no warning ... *)
Theorem C55_expired_refuted : exists now verify clock c, verifies_at now verify /\ (ct_not_after c - now < thirty_days)%Z /\
  format_serial (ct_serial c) <> None /\ health_check [check_cert_chain verify clock [Some c]] = [[]].
Proof. exact expired_refuted. Qed.
Print Assumptions C55_expired_refuted.

(** ... whatever the chain. *)
Theorem C55_expired_silent : forall now verify clock leaf chain, verifies_at now verify -> (ct_not_after leaf < now)%Z ->
  (forall o, verify leaf o <> Some []) -> ~ In None chain ->
  check_cert_chain verify clock (Some leaf :: chain) = Unverified /\ forall rest, health_check (check_cert_chain verify clock (Some leaf :: chain) :: rest) = [] :: health_check rest.
Proof. exact expired_silent. Qed.
Print Assumptions C55_expired_silent.

(** C56: roots and intermediates are right as long as names are told apart by their common name, ... *)
Theorem C56_pools_partial : forall chain, cn_decides chain -> exists inter root, split_cert_pools (map Some chain) = Some (inter, root) /\
  (forall c, In c root <-> In c chain /\ self_issued c) /\ (forall c, In c inter <-> In c chain /\ subordinate c) /\
  vo_roots (verify_options_of (inter, root)) = (match root with [] => None | _ => Some root end) /\
  vo_inter (verify_options_of (inter, root)) = (match inter with [] => None | _ => Some inter end).
Proof. exact pools_right. Qed.
Print Assumptions C56_pools_partial.

Theorem C56_refuted : exists c inter root, split_cert_pools [Some c] = Some (inter, root) /\ In c root /\ subordinate c /\ ~ self_issued c.
Proof. exact roots_refuted. Qed.
Print Assumptions C56_refuted.

(** ... because only common names are compared. *)
Theorem C56_common_names : forall chain inter root, split_cert_pools (map Some chain) = Some (inter, root) ->
  (forall c, In c root <-> In c chain /\ ct_ca c = true /\ cn (ct_issuer c) = cn (ct_subject c)) /\
  (forall c, In c inter <-> In c chain /\ ct_ca c = true /\ cn (ct_issuer c) <> cn (ct_subject c)).
Proof. exact pools_cn. Qed.
Print Assumptions C56_common_names.

Example C56_case : split_cert_pools [Some (site 1 3); Some inter_ca; Some root_ca] = Some ([inter_ca], [root_ca]) /\ cn_decides [site 1 3; inter_ca; root_ca].
Proof. split; [vm_compute; reflexivity|]. intros c [<-|[<-|[<-|[]]]]; cbn; intros H; try discriminate. reflexivity. Qed.
