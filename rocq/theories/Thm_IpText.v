(** IPv6 addresses in the log: exactly which are told as they are, and what is told of the others (C52, C71,
    C82). *)
From Coq Require Import String Ascii List Bool ZArith NArith Lia.
From Verif Require Import GoStr Iprex IprexSpec IprexProofs IpText IpTextSpec IpTextProofs SystemSpec SystemCases AccessLog AccessLogSpec
  AccessLogCases Startup IpTextCases.
Import ListNotations.
Local Open Scope string_scope.

(** C52: of all texts of IPv6 addresses without embedded IPv4 part or zone exactly the legible ones are found
    whole. *)
Theorem C52_exactly_partial : forall p addr q, ipv6_text addr -> no_v6_lookalike p -> no_v6_lookalike q ->
  ~ colon_digits_dot (p ++ "[" ++ addr ++ "]" ++ q) ->
  (extract_addr (p ++ "[" ++ addr ++ "]" ++ q) = addr <-> legible_text addr).
Proof. exact legible_exact. Qed.
Print Assumptions C52_exactly_partial.

(** C52: of the others at most the last four groups before the double colon and the first three behind it. *)
Theorem C52_rest_partial : forall p bs cs q, 1 <= List.length bs -> 1 <= List.length cs -> Forall is_group bs -> Forall is_group cs ->
  no_v6_lookalike p -> ~ colon_digits_dot (p ++ "[" ++ compressed_v6 bs cs ++ "]" ++ q) ->
  extract_addr (p ++ "[" ++ compressed_v6 bs cs ++ "]" ++ q) = compressed_v6 (skipn (List.length bs - 4) bs) (firstn 3 cs).
Proof. exact logged_mid. Qed.
Print Assumptions C52_rest_partial.

(** C52, for every client: which of the addresses of sixteen bytes are logged as they are. *)
Theorem C52_clients_partial : forall gs port, address gs ->
  (extract_addr (remote_addr gs port) = host_text gs <-> legible gs).
Proof. exact clients_logged. Qed.
Print Assumptions C52_clients_partial.

(** C52 fails for clients that are not told apart, and for a third that is named in their stead: the first
    group of 2001:db8:1:2:3::6 is left out whatever it is. *)
Theorem C52_another_refuted : forall g port, (0 < g < 65536)%N ->
  address (caller g) /\ address bystander /\ caller g <> bystander /\
  extract_addr (remote_addr (caller g) port) = host_text bystander.
Proof. exact taken_for_another. Qed.
Print Assumptions C52_another_refuted.

Example C52_clients_case : address resident /\ legible resident /\ host_text resident = "2001:db8::8a2e:7334" /\
  ~ legible (caller 0x2001) /\ host_text (caller 0x2001) = "2001:db8:1:2:3::6" /\ host_text bystander = "db8:1:2:3::6".
Proof.
  destruct resident_legible as (H1 & H2 & H3). split; [exact H1|]. split; [exact H2|]. split; [exact H3|].
  split; [exact caller_not_legible|]. split; vm_compute; reflexivity.
Qed.

(** C71: the line about a response names an IPv6 client if and only if its address is legible. *)
Theorem C71_client_partial : forall t x e gs port, logs t x [e] -> address gs -> x_addr x = remote_addr gs port ->
  (l_addr e = host_text gs <-> legible gs).
Proof. exact line_client. Qed.
Print Assumptions C71_client_partial.

(** C71 fails for lines that name a third client. *)
Theorem C71_client_refuted : exists t x x' e e', logs t x [e] /\ logs t x' [e'] /\
  x_addr x = remote_addr (caller 0x2001) 51000 /\ x_addr x' = remote_addr (caller 0x2a02) 51000 /\
  address (caller 0x2001) /\ address (caller 0x2a02) /\ address bystander /\
  l_addr e = host_text bystander /\ l_addr e' = host_text bystander.
Proof. exact line_of_another. Qed.
Print Assumptions C71_client_refuted.

Example C71_client_case : exists e, logs visit (Wire "/mse6/x" (remote_addr resident 51000) 1 1 None) [e] /\ address resident /\ legible resident.
Proof.
  destruct (one_line _ visit (Wire "/mse6/x" (remote_addr resident 51000) 1 1 None) l_addr "2001:db8::8a2e:7334") as (e & H1 & H2); [vm_compute; reflexivity|].
  destruct resident_legible as (R1 & R2 & _). exists e. split; [exact H1|]. split; assumption.
Qed.

(** C82: the same for failed handshakes. *)
Theorem C82_client_partial : forall gs rest, address gs -> ~ mapped gs -> no_v6_lookalike rest ->
  ~ colon_digits_dot ("http: TLS handshake error from [" ++ host_text gs ++ "]" ++ rest) ->
  (snd (net_event ("http: TLS handshake error from [" ++ host_text gs ++ "]" ++ rest)) = host_text gs <-> legible gs).
Proof. exact handshake_client. Qed.
Print Assumptions C82_client_partial.

Example C82_client_case : address resident /\ ~ mapped resident /\ no_v6_lookalike ":55012: EOF" /\
  ~ colon_digits_dot ("http: TLS handshake error from [" ++ host_text resident ++ "]:55012: EOF").
Proof.
  split; [exact (proj1 resident_legible)|]. split; [intros (x & y & F); discriminate F|].
  split; [apply lookalike_dec; vm_compute; reflexivity|]. apply no_dot. vm_compute. reflexivity.
Qed.
