(** Which keys of a document come to be used (C44, C47). *)
From Coq Require Import String List.
From Verif Require Import Jwt JwtSpec.
Import ListNotations.

(** An entry that can be used: marked for the algorithm, with a public key that fits it *)
Definition usable_entry (alg : string) (d : jwk) (k : key) : Prop :=
  jk_alg d = alg /\ jk_raw d = Some k /\ fits alg k /\ forall s, k <> KSecret s.

(** [k] is in the first usable entry for [kid], with none for another algorithm before it. *)
Inductive first_entry (alg kid : string) (k : key) : list jwk -> Prop :=
| fe_here : forall d ks, usable_entry alg d k -> jk_kid d = kid -> first_entry alg kid k (d :: ks)
| fe_later : forall d ks, jk_alg d = alg -> (jk_kid d = kid -> forall k', ~ usable_entry alg d k') ->
    first_entry alg kid k ks -> first_entry alg kid k (d :: ks).
