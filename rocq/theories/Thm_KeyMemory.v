(** C135: verifying tokens while keys are loaded. *)
From Coq Require Import String List.
From Verif Require Import Jwt KeyMemory KeyMemorySpec KeyMemoryProofs KeyMemoryCases.
Import ListNotations.

(** The claim: a request that verifies a token while keys are loaded sees the keys of one moment, among them all that
    were there when it began, and accesses nothing in memory but keys. *)

(** When no load is about to store anything, memory holds the set of Jwt.v. *)
Theorem C135_rest : forall l s, reached l s -> m_new s = None ->
  firstn (h_len (m_head s)) (array s (h_ptr (m_head s))) = map Some (set_of (loaded l)).
Proof. exact at_rest. Qed.
Print Assumptions C135_rest.

(** What a request sees exactly: as far as the array it has the pointer of reaches, the keys in their places, and
    beyond that what is beyond the array. *)
Theorem C135_exact : forall l s r j c, reached l s -> In r (m_readers s) -> nth_error (r_seen r) j = Some c ->
  exists p, r_ptr r = Some p /\
    (j < List.length (array s p) -> exists kp, c = Got kp /\ nth_error (set_of (loaded l)) j = Some kp) /\
    (List.length (array s p) <= j -> c = Beyond).
Proof. exact seen_exactly. Qed.
Print Assumptions C135_exact.

(** A request does not miss keys whose load was over when it began. *)
Theorem C135_fresh : forall l' l s s' i r n, reached l s -> m_new s = None -> i = List.length (m_readers s) ->
  reached (l ++ Look :: l') s' -> nth_error (m_readers s') i = Some r -> r_len r = Some n -> List.length (set_of (loaded l)) <= n.
Proof. exact fresh_from. Qed.
Print Assumptions C135_fresh.

(** What holds of the rest: if lengths are always stored behind pointers and copied before them, requests see the set of
    one moment. *)
Theorem C135_orderly_partial : forall l s r, all_orderly l -> reached l s -> In r (m_readers s) -> r_len r <> None -> sees_a_set l r.
Proof. exact orderly_seen. Qed.
Print Assumptions C135_orderly_partial.

(** In general it is false: a request gets beyond the array, and takes what is there for a key. *)
Theorem C135_refuted : exists l s r, reached l s /\ m_new s = None /\ In r (m_readers s) /\ r_len r <> None /\ In Beyond (r_seen r) /\ ~ sees_a_set l r.
Proof. exact torn_seen. Qed.
Print Assumptions C135_refuted.

(** A second key is found by a refresh while a request looks: at worst *)
Example C135_torn_case : exists s, reached torn s /\ map r_seen (m_readers s) = [[Got first_key; Beyond]].
Proof. exact torn_runs. Qed.
(** and in order. *)
Example C135_neat_case : all_orderly neat /\ exists s, reached neat s /\ map r_seen (m_readers s) = [[Got first_key]] /\ map r_len (m_readers s) = [Some 1].
Proof. exact (conj neat_orderly neat_runs). Qed.
