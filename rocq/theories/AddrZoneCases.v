(** Lines about clients with zones. *)
From Coq Require Import String List ZArith NArith.
From Verif Require Import GoStr Iprex IprexSpec IpText IpTextSpec SystemSpec SystemCases AccessLog AccessLogSpec
  AccessLogCases IpTextCases AddrReadSpec AddrReadProofs AddrZone AddrZoneSpec AddrZoneProofs.
Import ListNotations.
Local Open Scope string_scope.

Lemma line_zone : forall t x e gs z port, logs t x [e] -> address gs -> ~ mapped gs -> zone_name z -> x_addr x = zoned_addr gs z port ->
  (names (l_addr e) gs <-> legible gs).
Proof. intros t x e gs z port H A Nm Hz Hx. rewrite (line_found t x e H), Hx. now apply zoned_named. Qed.

Lemma line_links : forall t x x' e e' gs z z' port, logs t x [e] -> logs t x' [e'] -> address gs -> ~ mapped gs -> zone_name z -> zone_name z' ->
  x_addr x = zoned_addr gs z port -> x_addr x' = zoned_addr gs z' port -> l_addr e = l_addr e'.
Proof.
  intros t x x' e e' gs z z' port H H' A Nm Hz Hz' Hx Hx'. rewrite (line_found t x e H), (line_found t x' e' H'), Hx, Hx'. now apply links_alike.
Qed.

(** A printer on one link and one with the same address on another *)
Definition printer : list N := [0xfe80; 0; 0; 0; 0; 0; 0; 7]%N.

Lemma printer_ok : address printer /\ ~ mapped printer /\ zone_name "eth0.100" /\ zone_name "wlan0".
Proof.
  split; [split; [reflexivity|repeat constructor]|]. split; [intros (x & y & F); discriminate F|]. split; split; reflexivity.
Qed.

Lemma printer_legible : legible printer.
Proof.
  apply (proj1 (client_named_iff printer 443 (proj1 printer_ok))).
  assert (E : extract_addr (remote_addr printer 443) = compressed_v6 ["fe80"] ["7"]) by (vm_compute; reflexivity).
  rewrite E. apply (names_short ["fe80"] ["7"] 6); [reflexivity|repeat constructor| |]; (constructor; [split; [reflexivity|split; repeat constructor]|constructor]).
Qed.

(** A notebook, with the interface identifier of its network card *)
Lemma notebook_ok : address (link_local 0x21a 0x2bff 0xfe3c 0x4d5e) /\
  zoned_addr (link_local 0x21a 0x2bff 0xfe3c 0x4d5e) "eth0" 51000 = "[fe80::21a:2bff:fe3c:4d5e%eth0]:51000" /\
  extract_addr (zoned_addr (link_local 0x21a 0x2bff 0xfe3c 0x4d5e) "eth0" 51000) = "fe80::21a:2bff:fe3c".
Proof. split; [split; [reflexivity|repeat constructor]|]. split; vm_compute; reflexivity. Qed.

Lemma printer_lines : exists e e', logs visit (Wire "/mse6/x" (zoned_addr printer "eth0.100" 51000) 1%Z 1%Z None) [e] /\
  logs visit (Wire "/mse6/x" (zoned_addr printer "wlan0" 51000) 1%Z 1%Z None) [e'] /\ l_addr e = "fe80::7".
Proof.
  destruct (one_line _ visit (Wire "/mse6/x" (zoned_addr printer "eth0.100" 51000) 1%Z 1%Z None) l_addr "fe80::7") as (e & H1 & H2); [vm_compute; reflexivity|].
  destruct (one_line _ visit (Wire "/mse6/x" (zoned_addr printer "wlan0" 51000) 1%Z 1%Z None) l_addr "fe80::7") as (e' & H1' & _); [vm_compute; reflexivity|].
  exists e, e'. split; [exact H1|]. split; [exact H1'|exact H2].
Qed.
