(** Keys that a refresh does not bring into use (C89). *)
From Coq Require Import String Ascii List Bool ZArith NArith.
From Verif Require Import GoStr Header Policy Config ConfigSpec Routing Exchange ExchangeSpec Jwt JwtSpec JwtCases JwksRate JwksRateSpec
  Machine MachineSpec MachineRaces Handler HandlerSpec HandlerCases SystemSpec Startup StartupSpec Process ProcessSpec ProcessProofs ProcessCases KeyRetry.
From Verif Require KidSpec.
Import Verif.Config Verif.JwtSpec Verif.Startup Verif.Process Verif.ProcessSpec ListNotations.
Local Open Scope string_scope.

(** C89 fails for keys published behind one for another algorithm: the refresh that the request started is done with
    the document, the key in it is not in use, and the request is refused again. *)
Theorem C89_refuted : exists m es p k n j0 j ks d key f i ch token cl skew, after m es p /\ defined m n j0 /\ now_is p n j /\ honest (dm_lib m) /\
  refresher p k n f /\ past_keys f /\ In (Load k (Some ks)) es /\ In d ks /\ jk_alg d = j_alg j0 /\ jk_raw d = Some key /\ fits (j_alg j0) key /\
  find_key (keys j) (jk_kid d) = None /\
  ch_now ch = unix (p_now p) /\ bearer (authorization i) token /\ KidSpec.names_kid token (jk_kid d) /\ lib_verify (dm_lib m) (j_alg j0) key token = Some cl /\
  skew_configured (j_skew j0) skew /\ moderate (ch_now ch) skew /\ in_time (ch_now ch) skew cl /\
  map (fun v => (v_in v, status_of (v_out v))) (p_visits p) = [(i, Some 401%Z); (i, Some 401%Z)] /\
  status_of (serve (li_env (dm_listener m)) (dm_lib m) (dm_new m) (config_at m p) ch i) = Some 401%Z.
Proof. exact vain. Qed.
Print Assumptions C89_refuted.
