(** A key that is published behind one for another algorithm never comes to be used. *)
From Coq Require Import String Ascii List Bool ZArith NArith.
From Verif Require Import GoStr Header Policy Config ConfigSpec Routing Exchange ExchangeSpec Jwt JwtSpec JwtCases JwksRate JwksRateSpec
  Machine MachineSpec MachineRaces Handler HandlerSpec HandlerCases SystemSpec Startup StartupSpec Process ProcessSpec ProcessProofs ProcessCases.
From Verif Require KidSpec.
Import Verif.Config Verif.JwtSpec Verif.Startup Verif.Process Verif.ProcessSpec ListNotations.
Local Open Scope string_scope.

(** Two keys, for two kinds of tokens *)
Definition doc_mixed : list jwk := [Jwk "k5" "ES256" (Some (KEc 256 9)); Jwk "k9" "RS256" (Some (KRsa 1))].
(** The refresh that the first request starts is done with it; then the request is repeated. *)
Definition in_vain : list event :=
  (day1 ++ [Load 0 (Some doc_mixed); Load 0 None; Arrive (with_token "/admin" old_k9) (chance_at 1600000000)])%list.

Lemma vain_happens : after daemon0 in_vain (state_after in_vain).
Proof. apply reaches. vm_compute. reflexivity. Qed.

Lemma vain : exists m es p k n j0 j ks d key f i ch token cl skew, after m es p /\ defined m n j0 /\ now_is p n j /\ honest (dm_lib m) /\
  refresher p k n f /\ past_keys f /\ In (Load k (Some ks)) es /\ In d ks /\ jk_alg d = j_alg j0 /\ jk_raw d = Some key /\ fits (j_alg j0) key /\
  find_key (keys j) (jk_kid d) = None /\
  ch_now ch = unix (p_now p) /\ bearer (authorization i) token /\ KidSpec.names_kid token (jk_kid d) /\ lib_verify (dm_lib m) (j_alg j0) key token = Some cl /\
  skew_configured (j_skew j0) skew /\ moderate (ch_now ch) skew /\ in_time (ch_now ch) skew cl /\
  map (fun v => (v_in v, status_of (v_out v))) (p_visits p) = [(i, Some 401%Z); (i, Some 401%Z)] /\
  status_of (serve (li_env (dm_listener m)) (dm_lib m) (dm_new m) (config_at m p) ch i) = Some 401%Z.
Proof.
  exists daemon0, in_vain, (state_after in_vain), 0, "auth", rs256, (auth_after in_vain), doc_mixed, (Jwk "k9" "RS256" (Some (KRsa 1))), (KRsa 1), FTest,
    (with_token "/admin" old_k9), (chance_at 1600000000), old_k9, no_dates, 120%Z.
  destruct k9_retry as (_ & _ & _ & K1 & _ & K2 & _ & _ & _ & _ & K3 & _ & K4 & _ & _ & _ & K5 & K6 & K7 & K8 & _).
  split; [exact vain_happens|]. split; [exact K1|]. split; [vm_compute; reflexivity|]. split; [exact K2|]. split; [vm_compute; reflexivity|]. split; [exact I|].
  split; [cbn; tauto|]. split; [cbn; tauto|]. split; [reflexivity|]. split; [reflexivity|]. split; [exact K5|]. split; [vm_compute; reflexivity|].
  split; [vm_compute; reflexivity|]. split; [exact K3|]. split; [exact K4|]. split; [exact K6|].
  split; [left; now split|]. split; [exact K7|]. split; [exact K8|]. split; vm_compute; reflexivity.
Qed.
