(** What C123 means. *)
From Coq Require Import String List.
From Verif Require Import GoStr Jwt JwtSpec Process ProcessSpec.
Import ListNotations.
Local Open Scope string_scope.

(** The kids in some documents, each once *)
Definition kids_in (docs : list (list jwk)) : list string := nodup string_dec (flat_map (map jk_kid) docs).

(** The key configured, if there is one *)
Definition own_keys (j0 : jwt) : nat := if String.eqb (j_key j0) "" then 0 else 1.

(** Documents that come one after the other, whatever becomes of each *)
Inductive loads : jwt -> list (option (list jwk)) -> jwt -> Prop :=
| loads_none : forall j, loads j [] j
| loads_one : forall j doc j1 e docs j', load_jwks doc j = Some (j1, e) -> loads j1 docs j' -> loads j (doc :: docs) j'.
