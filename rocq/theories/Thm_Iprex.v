(** Client addresses in log messages (C50, C51, C52). *)
From Coq Require Import String Ascii List Bool NArith.
From Verif Require Import GoStr Regex RegexSpec Iprex IprexSpec IprexProofs.
Import ListNotations.
Local Open Scope string_scope.

(** C50: the address is a part of the message that matches one of the patterns, or none occurs. *)
Theorem C50_extract_sound_complete : forall msg,
  (exists pat r, In pat [pat_ipv64e; pat_ipv6s; pat_ipv6; pat_ipv4] /\ re_compile pat = Some r /\
     exists pre post, msg = pre ++ extract_addr msg ++ post /\ Matches r pre (extract_addr msg) post) \/
  (extract_addr msg = "not found" /\
   forall pat r, In pat [pat_ipv64e; pat_ipv6s; pat_ipv6; pat_ipv4] -> re_compile pat = Some r ->
     ~ Occurs r msg).
Proof. exact extract_sound. Qed.
Print Assumptions C50_extract_sound_complete.

Example C50_both_cases :
  extract_addr "http: TLS handshake error from 10.1.2.3:4711: EOF" = "10.1.2.3" /\
  extract_addr "listener closed" = "not found".
Proof. vm_compute. split; reflexivity. Qed.

(** C51: every IPv4 address is extracted from "address:port" exactly. *)
Theorem C51_ipv4_host_port : forall a b c d port,
  is_octet a -> is_octet b -> is_octet c -> is_octet d ->
  extract_addr (dotted a b c d ++ ":" ++ itoa port) = dotted a b c d.
Proof. exact extract_host_port. Qed.
Print Assumptions C51_ipv4_host_port.

(** C51 inside a longer message, such as those of net/http. *)
Theorem C51_ipv4_in_message : forall pre a b c d post,
  all_chars (fun x => negb (is_digit x)) pre = true ->
  is_octet a -> is_octet b -> is_octet c -> is_octet d -> head_not is_digit post = true ->
  no_v6_lookalike (pre ++ dotted a b c d ++ post) ->
  extract_addr (pre ++ dotted a b c d ++ post) = dotted a b c d.
Proof. exact extract_ipv4. Qed.
Print Assumptions C51_ipv4_in_message.

Example C51_in_message_case :
  all_chars (fun x => negb (is_digit x)) "http: TLS handshake error from " = true /\
  head_not is_digit ":51712: remote error: tls: bad certificate" = true /\
  no_v6_lookalike ("http: TLS handshake error from " ++ dotted 192 168 0 255 ++
                   ":51712: remote error: tls: bad certificate").
Proof. split; [|split]; [reflexivity | reflexivity | apply lookalike_dec; vm_compute; reflexivity]. Qed.

(** C52 does not hold: a valid IPv6 address with five groups before the double colon is cut. *)
Theorem C52_ipv6_refuted : exists addr port, ipv6_text addr /\
  extract_addr ("[" ++ addr ++ "]:" ++ itoa port) <> addr.
Proof. exact v6_refuted. Qed.
Print Assumptions C52_ipv6_refuted.

(** C52, the part that holds: the full form, one to four groups followed by "::" and one to three
    groups, and a leading "::" followed by up to seven groups.  Missing: the forms for which
    [C52_ipv6_refuted] gives a counterexample (five or more groups before the double colon, four or
    more after it), a trailing "::", embedded IPv4 addresses and zones. *)
Theorem C52_ipv6_partial : forall p addr q, found_v6 addr ->
  no_v6_lookalike p -> no_v6_lookalike q ->
  ~ colon_digits_dot (p ++ "[" ++ addr ++ "]" ++ q) ->
  extract_addr (p ++ "[" ++ addr ++ "]" ++ q) = addr.
Proof. exact extract_v6. Qed.
Print Assumptions C52_ipv6_partial.

Example C52_case :
  found_v6 (compressed_v6 ["2001"; "db8"] ["8a2e"; "7334"]) /\
  no_v6_lookalike "http: TLS handshake error from " /\ no_v6_lookalike ":55012: EOF" /\
  extract_addr ("http: TLS handshake error from [2001:db8::8a2e:7334]:55012: EOF") = "2001:db8::8a2e:7334".
Proof.
  split; [|split; [|split]].
  - apply found_mid; [cbn; auto with arith | cbn; auto with arith | |];
      repeat (constructor; [apply group_dec; reflexivity|]); constructor.
  - apply lookalike_dec. vm_compute. reflexivity.
  - apply lookalike_dec. vm_compute. reflexivity.
  - vm_compute. reflexivity.
Qed.
