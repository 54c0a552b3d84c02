(** What the claims about certificates (C53 to C56) mean. *)
From Coq Require Import String Ascii List Bool ZArith NArith.
From Verif Require Import GoStr Tls.
Import ListNotations.
Local Open Scope string_scope.

(** * Serial numbers *)

(** Value of an upper-case hexadecimal digit. *)
Definition hex_value1 (c : ascii) : option N :=
  let n := N_of_ascii c in
  if N.leb 48 n && N.leb n 57 then Some (n - 48)%N
  else if N.leb 65 n && N.leb n 70 then Some (n - 55)%N
  else None.

Fixpoint hex_value (acc : N) (s : string) : option N :=
  match s with
  | "" => Some acc
  | String c s' => match hex_value1 c with Some d => hex_value (acc * 16 + d) s' | None => None end
  end.

(** Two hexadecimal digits. *)
Definition pair_of_digits (p : string) : Prop := String.length p = 2 /\ exists n, hex_value 0 p = Some n.

(** C54: pairs of digits with dashes in between that give the number, the first pair not being 00
    unless it is the only one. *)
Definition shows (out : string) (serial : N) : Prop :=
  exists ps, out = join "-" ps /\ ps <> [] /\ Forall pair_of_digits ps /\ hex_value 0 (String.concat "" ps) = Some serial /\
    (hd "" ps = "00" -> ps = ["00"]).

(** The number has [d] hexadecimal digits. *)
Definition has_digits (n : N) (d : nat) : Prop :=
  (n = 0%N /\ d = 1) \/ (1 <= d /\ (16 ^ N.of_nat (d - 1) <= n < 16 ^ N.of_nat d)%N).

(** * The earliest certificate *)

(** C53 *)
Definition earliest_at (links : list link) (i : nat) : Prop :=
  exists l, nth_error links i = Some l /\
    (forall j m, nth_error links j = Some m -> (lk_remaining l <= lk_remaining m)%Z) /\
    (forall j m, nth_error links j = Some m -> j < i -> (lk_remaining l < lk_remaining m)%Z).

Definition flagged_at (links : list link) (i : nat) : Prop := exists l, nth_error links i = Some l /\ lk_earliest l = true.

(** * Warnings *)

(** C55: one event, a warning exactly if some certificate has less than 30 days left. *)
Definition thirty_days : Z := 30 * 24 * 3600 * 1000000000.

Definition right_event (links : list link) (events : list level) : Prop :=
  exists e, events = [e] /\ (e = Warn <-> exists l, In l links /\ (lk_remaining l < thirty_days)%Z).

(** * Trust roots *)

(** C56 *)
Definition self_issued (c : cert) : Prop := ct_ca c = true /\ ct_issuer c = ct_subject c.
Definition subordinate (c : cert) : Prop := ct_ca c = true /\ ct_issuer c <> ct_subject c.

(** In this chain names are told apart by their common name. *)
Definition cn_decides (chain : list cert) : Prop :=
  forall c, In c chain -> cn (ct_issuer c) = cn (ct_subject c) -> ct_issuer c = ct_subject c.

(** * x509 *)

(** What Verify promises: the chains it finds start with the certificate in question, and no certificate
    in them has expired. *)
Definition verifies_at (now : Z) (verify : cert -> verify_options -> option (list (list cert))) : Prop :=
  forall leaf o chains ch, verify leaf o = Some chains -> In ch chains ->
    (exists rest, ch = leaf :: rest) /\ forall c, In c ch -> (now <= ct_not_after c)%Z.
