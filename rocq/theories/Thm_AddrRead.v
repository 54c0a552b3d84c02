(** What the addresses in the log say when they are read (C52, C71). *)
From Coq Require Import String Ascii List Bool ZArith NArith Lia.
From Verif Require Import GoStr Iprex IprexSpec IpText IpTextSpec SystemSpec SystemCases AccessLog AccessLogSpec
  AccessLogCases IpTextCases AddrReadSpec AddrReadProofs AddrReadCases.
Import ListNotations.
Local Open Scope string_scope.

(** C52: the text of an address stands for that address, *)
Theorem C52_text : forall gs, address gs -> names (host_text gs) gs.
Proof. exact text_names. Qed.
Print Assumptions C52_text.

(** and no text stands for two. *)
Theorem C52_one : forall t gs hs, names t gs -> names t hs -> gs = hs.
Proof. exact names_one. Qed.
Print Assumptions C52_one.

Example C52_text_case : address resident /\ host_text resident = "2001:db8::8a2e:7334" /\
  resident = [0x2001; 0xdb8; 0; 0; 0; 0; 0x8a2e; 0x7334]%N /\
  names "::ffff:7334" [0; 0; 0; 0; 0; 0; 0xffff; 0x7334]%N /\ names "192.0.2.1" [0; 0; 0; 0; 0; 65535; 0xc000; 0x201]%N.
Proof.
  split; [exact (proj1 resident_legible)|]. split; [vm_compute; reflexivity|]. split; [reflexivity|]. split.
  - apply (names_short [] ["ffff"; "7334"] 6); [reflexivity|lia|constructor|]. repeat constructor; cbn; lia.
  - apply (names_octets 192 0 2 1); reflexivity.
Qed.

(** C52, for every client: the log names them if and only if their address is legible. *)
Theorem C52_named_partial : forall gs port, address gs -> (names (extract_addr (remote_addr gs port)) gs <-> legible gs).
Proof. exact client_named_iff. Qed.
Print Assumptions C52_named_partial.

(** C52: those that are named are told apart. *)
Theorem C52_apart_partial : forall gs hs p q, address gs -> address hs -> legible gs -> legible hs ->
  extract_addr (remote_addr gs p) = extract_addr (remote_addr hs q) -> gs = hs.
Proof. exact clients_apart. Qed.
Print Assumptions C52_apart_partial.

(** C52 fails for all the others: the log names somebody else. *)
Theorem C52_others_refuted : forall gs port, address gs -> ~ legible gs ->
  exists hs, address hs /\ hs <> gs /\ names (extract_addr (remote_addr gs port)) hs.
Proof. exact illegible. Qed.
Print Assumptions C52_others_refuted.

Example C52_named_case : address resident /\ legible resident /\ address (caller 0x2001) /\ ~ legible (caller 0x2001) /\
  extract_addr (remote_addr (caller 0x2001) 443) = "db8:1:2:3::6".
Proof.
  split; [exact (proj1 resident_legible)|]. split; [exact (proj1 (proj2 resident_legible))|].
  split; [split; [reflexivity|repeat constructor]|]. split; [exact caller_not_legible|]. vm_compute. reflexivity.
Qed.

(** C71: the line about a response names its client if and only if the address is legible. *)
Theorem C71_named_partial : forall t x e gs port, logs t x [e] -> address gs -> x_addr x = remote_addr gs port ->
  (names (l_addr e) gs <-> legible gs).
Proof. exact line_named. Qed.
Print Assumptions C71_named_partial.

(** C71 fails for all the others. *)
Theorem C71_others_refuted : forall t x e gs port, logs t x [e] -> address gs -> x_addr x = remote_addr gs port -> ~ legible gs ->
  exists hs, address hs /\ hs <> gs /\ names (l_addr e) hs.
Proof. exact line_others. Qed.
Print Assumptions C71_others_refuted.

Example C71_named_case : exists e, logs visit (Wire "/mse6/x" (remote_addr resident 51000) 1 1 None) [e] /\ address resident /\ legible resident.
Proof.
  destruct (one_line _ visit (Wire "/mse6/x" (remote_addr resident 51000) 1 1 None) l_addr "2001:db8::8a2e:7334") as (e & H1 & H2); [vm_compute; reflexivity|].
  destruct resident_legible as (R1 & R2 & _). exists e. split; [exact H1|]. split; assumption.
Qed.
