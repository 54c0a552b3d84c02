(** C48: definitions of jwt go by the names they have in the configuration. *)
From Coq Require Import String Ascii List Bool ZArith NArith.
From Verif Require Import GoStr Header Policy Config ConfigSpec Jwt JwtSpec Handler HandlerSpec JwtNames.
Import ListNotations.
Local Open Scope string_scope.

(** A definition is accepted at boot exactly if it is acceptable under the name it stands under, whatever else it says ... *)
Theorem C48_checked : forall so n j, (exists j', jwt_checked so n j = Some j') <->
  acceptable (so_pem so n) (so_doc so n) (Jwt n (j_alg j) (j_key j) (j_url j) (j_rsa j) (j_ec j) (j_secret j) (j_skew j) (j_count j)).
Proof. exact checked_iff. Qed.
Print Assumptions C48_checked.

(** ... and keeps that name. *)
Theorem C48_named : forall so srt cfg0 cfg, in_use so srt cfg0 cfg -> forall n o, In (n, o) (c_jwt cfg) -> exists j, o = Some j /\ j_name j = n.
Proof. exact in_use_named. Qed.
Print Assumptions C48_named.

Example C48_checked_case : exists j', jwt_checked (Sources (fun _ => (None, "")) (fun _ => "") (fun _ => None)) "open" (Jwt "" "none" "" "" [] [] [] "" 0) = Some j' /\ j_name j' = "open".
Proof. eexists. split; vm_compute; reflexivity. Qed.
