(** Cases for Thm_KeyMemory. *)
From Coq Require Import String List Arith NArith.
From Verif Require Import Jwt KeyMemory KeyMemorySpec.
Import ListNotations.
Local Open Scope string_scope.

Definition first_key : string * key := ("2024-01", KRsa 1%N).
Definition second_key : string * key := ("2024-02", KRsa 2%N).
Definition stored : list access := [Store WPtr; Store WLen; Store WCap].

(** A refresh finds a second key.  A request copies the pointer before it is stored and the length after. *)
Definition torn : list access := (Upsert first_key 1 :: stored ++ Upsert second_key 2 :: Look :: CopyPtr 0 :: stored ++ [CopyLen 0; Visit 0; Visit 0])%list.
Lemma torn_runs : exists s, reached torn s /\ map r_seen (m_readers s) = [[Got first_key; Beyond]].
Proof. eexists. split; [vm_compute; reflexivity|reflexivity]. Qed.

Lemma torn_seen : exists l s r, reached l s /\ m_new s = None /\ In r (m_readers s) /\ r_len r <> None /\ In Beyond (r_seen r) /\ ~ sees_a_set l r.
Proof.
  exists torn. eexists. eexists. split; [vm_compute; reflexivity|]. split; [reflexivity|]. split; [left; reflexivity|]. split; [discriminate|]. split; [right; now left|].
  intros (kps & rest & _ & _ & E). cbn [r_seen List.length] in E. assert (F : In Beyond (map Got (firstn 2 (set_of kps)))) by (rewrite <- E; right; now left).
  apply in_map_iff in F. destruct F as (kp & F & _). discriminate F.
Qed.

(** The same with the length copied first *)
Definition neat : list access := (Upsert first_key 1 :: stored ++ Upsert second_key 2 :: Look :: CopyLen 0 :: stored ++ [CopyPtr 0; Visit 0])%list.
Lemma neat_orderly : all_orderly neat.
Proof.
  intros l1 a l2 s E H.
  do 12 (destruct l1 as [|b l1]; [cbn in E; injection E as <- _; first [exact I | injection H as <-; cbn; intros ? ? F; injection F as <- <-; cbn; intuition discriminate | injection H as <-; cbn; intros ? F; injection F as <-; discriminate]|cbn in E; injection E as <- E]).
  destruct l1; discriminate E.
Qed.
Lemma neat_runs : exists s, reached neat s /\ map r_seen (m_readers s) = [[Got first_key]] /\ map r_len (m_readers s) = [Some 1].
Proof. eexists. split; [vm_compute; reflexivity|split; reflexivity]. Qed.
