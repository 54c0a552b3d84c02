(** Lines about clients, read. *)
From Coq Require Import String List NArith.
From Verif Require Import GoStr Iprex IpText IpTextSpec SystemSpec AccessLog AccessLogSpec IpTextCases AddrReadSpec AddrReadProofs.

Lemma line_named : forall t x e gs port, logs t x (e :: nil) -> address gs -> x_addr x = remote_addr gs port ->
  (names (l_addr e) gs <-> legible gs).
Proof. intros t x e gs port H Ha Hx. rewrite (line_found t x e H), Hx. now apply client_named_iff. Qed.

Lemma line_others : forall t x e gs port, logs t x (e :: nil) -> address gs -> x_addr x = remote_addr gs port -> ~ legible gs ->
  exists hs, address hs /\ hs <> gs /\ names (l_addr e) hs.
Proof. intros t x e gs port H Ha Hx Nl. rewrite (line_found t x e H), Hx. now apply illegible. Qed.
