(** Lines about clients, and clients that are taken for others. *)
From Coq Require Import String Ascii List Bool ZArith NArith Lia.
From Verif Require Import GoStr Header Iprex IprexSpec IprexProofs IpText IpTextSpec IpTextProofs Exchange Jwt Machine MachineSpec
  Handler HandlerSpec SystemSpec SystemProofs SystemCases AccessLog AccessLogSpec AccessLogProofs AccessLogCases Startup.
Import ListNotations.
Local Open Scope string_scope.

(** The address of a line is what is found in the address of the connection. *)
Lemma line_found : forall t x e, logs t x [e] -> l_addr e = extract_addr (x_addr x).
Proof.
  intros t x e H.
  destruct (logs_cases t x [e] H) as [(r' & _ & _ & El)|[(dice & st & m & _ & _ & El)|[(c0 & lab & ls & Sv & L & El)|[F _]]]];
    [now injection El as ->|now injection El as ->| |discriminate F].
  pose proof (so_far_run _ _ _ _ _ _ L) as J. unfold so_far in J.
  destruct (s_pc (ls_state ls)) eqn:Ep; try (rewrite J in El; discriminate El); try (destruct J as [J _]; rewrite J in El; discriminate El).
  destruct J as (r1 & e1 & J1 & J2 & (pre & post & s1 & m & enc & _ & _ & _ & _ & _ & Q)). rewrite J2 in El. injection El as <-. now rewrite Q.
Qed.

Lemma line_client : forall t x e gs port, logs t x [e] -> address gs -> x_addr x = remote_addr gs port ->
  (l_addr e = host_text gs <-> legible gs).
Proof. intros t x e gs port H Ha Hx. rewrite (line_found t x e H), Hx. now apply clients_logged. Qed.

Lemma handshake_client : forall gs rest, address gs -> ~ mapped gs -> no_v6_lookalike rest ->
  ~ colon_digits_dot ("http: TLS handshake error from [" ++ host_text gs ++ "]" ++ rest) ->
  (snd (net_event ("http: TLS handshake error from [" ++ host_text gs ++ "]" ++ rest)) = host_text gs <-> legible gs).
Proof.
  intros gs rest Ha Nm Hr Hd.
  assert (E : host_text gs = ip_text gs).
  { unfold host_text. destruct (to4 gs) as [xy|] eqn:E4; [|reflexivity]. exfalso. apply Nm, to4_iff. now exists xy. }
  rewrite E in *. unfold net_event. cbn [snd].
  apply (v6_message "http: TLS handshake error from " gs rest Ha Nm); [apply lookalike_dec; vm_compute; reflexivity|exact Hr|exact Hd].
Qed.

(** Clients of which the lines tell another address *)
Definition caller (g : N) : list N := [g; 0xdb8; 1; 2; 3; 0; 0; 6]%N.
Definition bystander : list N := [0xdb8; 1; 2; 3; 0; 0; 0; 6]%N.

Lemma caller_address : forall g, (g < 65536)%N -> address (caller g).
Proof. intros g H. split; [reflexivity|]. repeat constructor; exact H. Qed.

Lemma bystander_address : address bystander.
Proof. split; [reflexivity|]. repeat constructor. Qed.

Lemma caller_text : forall g, (g <> 0)%N -> host_text (caller g) = compressed_v6 (map hex_group [g; 0xdb8; 1; 2; 3]%N) ["6"].
Proof.
  intros g H. unfold host_text, caller. assert (E4 : to4 [g; 0xdb8; 1; 2; 3; 0; 0; 6]%N = None) by (destruct g; reflexivity).
  rewrite E4. unfold ip_text. destruct g as [|g]; [congruence|]. reflexivity.
Qed.

Lemma caller_remote : forall g port, (g <> 0)%N -> remote_addr (caller g) port = "[" ++ host_text (caller g) ++ "]:" ++ itoa port.
Proof.
  intros g port H. unfold remote_addr, caller. assert (E4 : to4 [g; 0xdb8; 1; 2; 3; 0; 0; 6]%N = None) by (destruct g; reflexivity).
  now rewrite E4.
Qed.

Lemma caller_logged : forall g port, (0 < g < 65536)%N -> extract_addr (remote_addr (caller g) port) = host_text bystander.
Proof.
  intros g port Hg. assert (Hn : g <> 0%N) by lia. rewrite (caller_remote g port Hn), (caller_text g Hn).
  change ("[" ++ compressed_v6 (map hex_group [g; 3512; 1; 2; 3]%N) ["6"] ++ "]:" ++ itoa port)
    with ("" ++ "[" ++ compressed_v6 (map hex_group [g; 3512; 1; 2; 3]%N) ["6"] ++ "]" ++ (":" ++ itoa port)).
  rewrite logged_mid.
  - reflexivity.
  - cbn; lia.
  - cbn; lia.
  - apply hex_groups.
  - apply (hex_groups [6%N]).
  - exact empty_lookalike.
  - apply (bracket_no_dot _ port). rewrite <- (caller_text g Hn). unfold host_text, caller.
    assert (E4 : to4 [g; 0xdb8; 1; 2; 3; 0; 0; 6]%N = None) by (destruct g; reflexivity). rewrite E4. apply ip_text_no_dot.
Qed.

Lemma taken_for_another : forall g port, (0 < g < 65536)%N ->
  address (caller g) /\ address bystander /\ caller g <> bystander /\
  extract_addr (remote_addr (caller g) port) = host_text bystander.
Proof.
  intros g port H. split; [apply caller_address; apply H|]. split; [exact bystander_address|].
  split; [intros F; discriminate F|now apply caller_logged].
Qed.

Definition from_v6 (g : N) : wire := Wire "/mse6/x" (remote_addr (caller g) 51000) 1 1 None.


Lemma line_of_another : exists t x x' e e', logs t x [e] /\ logs t x' [e'] /\
  x_addr x = remote_addr (caller 0x2001) 51000 /\ x_addr x' = remote_addr (caller 0x2a02) 51000 /\
  address (caller 0x2001) /\ address (caller 0x2a02) /\ address bystander /\
  l_addr e = host_text bystander /\ l_addr e' = host_text bystander.
Proof.
  destruct (one_line _ visit (from_v6 0x2001) l_addr (host_text bystander)) as (e & H1 & H2); [vm_compute; reflexivity|].
  destruct (one_line _ visit (from_v6 0x2a02) l_addr (host_text bystander)) as (e' & H3 & H4); [vm_compute; reflexivity|].
  exists visit, (from_v6 0x2001), (from_v6 0x2a02), e, e'. split; [exact H1|]. split; [exact H3|].
  split; [reflexivity|]. split; [reflexivity|]. split; [apply caller_address; reflexivity|]. split; [apply caller_address; reflexivity|].
  split; [exact bystander_address|]. split; assumption.
Qed.

(** A client whose address is told as it is. *)
Definition resident : list N := [0x2001; 0xdb8; 0; 0; 0; 0; 0x8a2e; 0x7334]%N.

Lemma resident_legible : address resident /\ legible resident /\ host_text resident = "2001:db8::8a2e:7334".
Proof.
  split; [split; [reflexivity|repeat constructor]|]. split; [|vm_compute; reflexivity].
  right. right. exists 2, 4. split; [|right; right; lia]. apply abbreviated_iff. split; [vm_compute; reflexivity|lia].
Qed.

Lemma caller_not_legible : ~ legible (caller 0x2001).
Proof.
  intros H. apply (clients_logged (caller 0x2001) 51000 (caller_address 0x2001 eq_refl)) in H. vm_compute in H. discriminate H.
Qed.
