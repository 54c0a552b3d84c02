(** C52 and C71 for clients with zones, those with link-local addresses. *)
From Coq Require Import String List ZArith NArith.
From Verif Require Import GoStr Iprex IprexSpec IpText IpTextSpec SystemSpec SystemCases AccessLog AccessLogSpec
  AccessLogCases IpTextCases AddrReadSpec AddrReadProofs AddrZone AddrZoneSpec AddrZoneProofs AddrZoneCases.
Import ListNotations.
Local Open Scope string_scope.

(** C52: the zone does not matter for what is found. *)
Theorem C52_zone : forall gs z port, address gs -> ~ mapped gs -> zone_name z ->
  extract_addr (zoned_addr gs z port) = extract_addr (remote_addr gs port).
Proof. exact zone_left_out. Qed.
Print Assumptions C52_zone.

(** C52: so the same clients are named as without one. *)
Theorem C52_zone_partial : forall gs z port, address gs -> ~ mapped gs -> zone_name z ->
  (names (extract_addr (zoned_addr gs z port)) gs <-> legible gs).
Proof. exact zoned_named. Qed.
Print Assumptions C52_zone_partial.

Example C52_zone_case : address printer /\ ~ mapped printer /\ zone_name "eth0.100" /\ legible printer.
Proof. destruct printer_ok as (H1 & H2 & H3 & _). repeat split; try assumption; try apply H3; try apply H1. exact printer_legible. Qed.

(** C52 fails for clients that have the same address on two links. *)
Theorem C52_links_refuted : forall gs z z' port, address gs -> ~ mapped gs -> zone_name z -> zone_name z' ->
  extract_addr (zoned_addr gs z port) = extract_addr (zoned_addr gs z' port).
Proof. exact links_alike. Qed.
Print Assumptions C52_links_refuted.

(** C52 fails for link-local addresses with an interface identifier of four groups, the usual ones: the last group is
    left out, and what is logged names another client. *)
Theorem C52_link_refuted : forall a b c d z port, address (link_local a b c d) -> (a <> 0)%N -> (b <> 0 \/ c <> 0)%N -> zone_name z ->
  names (extract_addr (zoned_addr (link_local a b c d) z port)) [0xfe80; 0; 0; 0; 0; a; b; c]%N.
Proof. exact link_shifted. Qed.
Print Assumptions C52_link_refuted.

Example C52_link_case : address (link_local 0x21a 0x2bff 0xfe3c 0x4d5e) /\
  zoned_addr (link_local 0x21a 0x2bff 0xfe3c 0x4d5e) "eth0" 51000 = "[fe80::21a:2bff:fe3c:4d5e%eth0]:51000" /\
  extract_addr (zoned_addr (link_local 0x21a 0x2bff 0xfe3c 0x4d5e) "eth0" 51000) = "fe80::21a:2bff:fe3c".
Proof. exact notebook_ok. Qed.

(** C71, the line of a response to a client with a zone *)
Theorem C71_zone_partial : forall t x e gs z port, logs t x [e] -> address gs -> ~ mapped gs -> zone_name z -> x_addr x = zoned_addr gs z port ->
  (names (l_addr e) gs <-> legible gs).
Proof. exact line_zone. Qed.
Print Assumptions C71_zone_partial.

Theorem C71_links_refuted : forall t x x' e e' gs z z' port, logs t x [e] -> logs t x' [e'] -> address gs -> ~ mapped gs -> zone_name z -> zone_name z' ->
  x_addr x = zoned_addr gs z port -> x_addr x' = zoned_addr gs z' port -> l_addr e = l_addr e'.
Proof. exact line_links. Qed.
Print Assumptions C71_links_refuted.

Example C71_zone_case : exists e e', logs visit (Wire "/mse6/x" (zoned_addr printer "eth0.100" 51000) 1%Z 1%Z None) [e] /\
  logs visit (Wire "/mse6/x" (zoned_addr printer "wlan0" 51000) 1%Z 1%Z None) [e'] /\ l_addr e = "fe80::7".
Proof. exact printer_lines. Qed.
