(** Cases for Thm_IprexShared. *)
From Coq Require Import String List.
From Verif Require Import Iprex IprexShared IprexSharedSpec.
Import ListNotations.
Local Open Scope string_scope.

Definition two_clients : list move :=
  ([Begin "192.0.2.7:4711"; Begin "[2001:db8::1]:4712"; Goes 0; Goes 1; Goes 1; Goes 0; Goes 0; Goes 1; Goes 0; Goes 1]
    ++ repeat (Goes 1) 6 ++ repeat (Goes 0) 6)%list.
Lemma two_found : exists s, searched two_clients s /\ map ca_at (fi_calls s) = [Returned "192.0.2.7"; Returned "2001:db8::1"].
Proof.
  assert (E : match finder_run finder_init two_clients with Some s => map ca_at (fi_calls s) = [Returned "192.0.2.7"; Returned "2001:db8::1"] | None => False end)
    by (vm_compute; reflexivity).
  destruct (finder_run finder_init two_clients) as [s|] eqn:R; [|destruct E]. exists s. split; [exact R|exact E].
Qed.

Definition one_client : list move := (Begin "192.0.2.7:4711" :: repeat (Goes 0) 12)%list.
Lemma one_settled : exists s, searched one_client s /\ (forall x, get_slot x (fi_patterns s) <> None) /\ (forall i x, ~ about_to_write s i x).
Proof.
  assert (E : match finder_run finder_init one_client with
              | Some s => map ca_at (fi_calls s) = [Returned "192.0.2.7"] /\ map (fun x => match get_slot x (fi_patterns s) with Some _ => true | None => false end) [SlotS; Slot6; SlotE; Slot4] = [true; true; true; true]
              | None => False end) by (vm_compute; split; reflexivity).
  destruct (finder_run finder_init one_client) as [s|] eqn:R; [|destruct E]. destruct E as [E1 E2]. exists s. split; [exact R|]. split.
  - intros x F. cbn [map] in E2. destruct x; rewrite F in E2; discriminate E2.
  - intros i x (c & En & Ec). assert (H : In (ca_at c) [Returned "192.0.2.7"]) by (rewrite <- E1; apply in_map, (nth_error_In _ _ En)).
    destruct H as [H|[]]. rewrite Ec in H. discriminate H.
Qed.
