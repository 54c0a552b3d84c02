(** Vocabulary for statements about clients with zones. *)
From Coq Require Import String Ascii List NArith.
From Verif Require Import GoStr IprexSpec.
Import ListNotations.
Local Open Scope string_scope.

(** Names of interfaces: Linux allows no colon.  The percent sign is left out as well. *)
Definition zone_name (z : string) : Prop := count_chars (Ascii.eqb ":") z = 0 /\ count_chars (Ascii.eqb "%") z = 0.

(** The link-local address with an interface identifier of four groups (RFC 4291, section 2.5.6) *)
Definition link_local (a b c d : N) : list N := [0xfe80; 0; 0; 0; a; b; c; d]%N.
