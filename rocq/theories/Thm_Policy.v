(** Weighted routing policies (C10 to C13). *)
From Coq Require Import String List Bool ZArith QArith Permutation Floats.SpecFloat.
From Verif Require Import GoStr Policy PolicySpec PolicyProofs.
Import ListNotations.
Local Open Scope string_scope.

(** C10: of N equally likely dice values 0, 1/N, ..., (N-1)/N, the number that resolve to a label
    differs from N times the configured weight by at most the number of entries for that label, so
    the share of the label tends to its weight. *)
Theorem C10_share : forall N srt p L,
  (0 < N)%nat -> reorders srt -> nonneg p -> (total_weight p == 1)%Q ->
  (inject_Z (Z.of_nat N) * weight_of L p - inject_Z (Z.of_nat (entries_of L p))
     <= inject_Z (Z.of_nat (cases N (fun d => fst (resolve_q srt d p)) L)))%Q /\
  (inject_Z (Z.of_nat (cases N (fun d => fst (resolve_q srt d p)) L))
     <= inject_Z (Z.of_nat N) * weight_of L p + inject_Z (Z.of_nat (entries_of L p)))%Q.
Proof. exact share_theorem. Qed.
Print Assumptions C10_share.

(** C10, exactly: when N times every weight is whole there is no error at all. *)
Theorem C10_share_exact : forall N srt p L,
  (0 < N)%nat -> reorders srt -> nonneg p -> (total_weight p == 1)%Q ->
  Forall (fun l => exists z, inject_Z (Z.of_nat N) * lw_weight l == inject_Z z)%Q p ->
  (inject_Z (Z.of_nat (cases N (fun d => fst (resolve_q srt d p)) L))
     == inject_Z (Z.of_nat N) * weight_of L p)%Q.
Proof. exact share_exact_theorem. Qed.
Print Assumptions C10_share_exact.

Example C10_case :
  let p := [LW "green" (8 # 10)%Q; LW "blue" (1 # 10)%Q; LW "blue" (1 # 10)%Q] in
  nonneg p /\ (total_weight p == 1)%Q /\ cases 20 (fun d => fst (resolve_q (@rev _) d p)) "blue" = 4%nat.
Proof. cbv zeta. split; [repeat constructor; discriminate | split; vm_compute; reflexivity]. Qed.

(** C11: with exact weights every dice value below the sum gives a label of the policy that has a
    positive weight. *)
Theorem C11_own_label : forall srt p dice, reorders srt -> nonneg p ->
  (0 <= dice)%Q -> (dice < total_weight p)%Q ->
  exists l, In l p /\ lw_label l = fst (resolve_q srt dice p) /\ (0 < lw_weight l)%Q.
Proof. exact resolve_own. Qed.
Print Assumptions C11_own_label.

(** C11: and a dice value that is not below the sum gives "default". *)
Theorem C11_default : forall srt p dice, reorders srt -> nonneg p ->
  (total_weight p <= dice)%Q -> fst (resolve_q srt dice p) = "default".
Proof. exact resolve_default. Qed.
Print Assumptions C11_default.

Example C11_case :
  let p := [LW "green" (8 # 10)%Q; LW "off" 0%Q; LW "blue" (2 # 10)%Q] in
  nonneg p /\ (99 # 100 < total_weight p)%Q /\ fst (resolve_q (@rev _) (1 # 100)%Q p) = "blue".
Proof. cbv zeta. split; [repeat constructor; discriminate | split; vm_compute; reflexivity]. Qed.

(** C11 does not hold for binary64 weights: ten weights of 0.1 add up to less than 1 and a dice
    value below 1 falls through to "default". *)
Theorem C11_float_refuted : forall srt, srt ten_tenths = ten_tenths ->
  f64_lt f64_pred_one f64_one = true /\
  fst (resolve_f srt f64_pred_one ten_tenths) = "default" /\
  ~ In "default" (map lw_label ten_tenths).
Proof. exact float_default. Qed.
Print Assumptions C11_float_refuted.

(** C11 for binary64 weights, the part that holds: a dice value below the sum as the machine
    computes it gives a label of the policy.  Missing: dice values between the computed sum and the
    exact sum. *)
Theorem C11_float_partial : forall srt dice (p : fpolicy), reorders srt -> p <> [] ->
  f64_lt dice (fold_left f64_add (map lw_weight (srt p)) f64_zero) = true ->
  In (fst (resolve_f srt dice p)) (map lw_label p).
Proof. exact (resolve_in f64 f64_zero f64_add f64_lt). Qed.
Print Assumptions C11_float_partial.

Example C11_float_case :
  f64_lt (S754_finite false 8106479329266893 (-53))
    (fold_left f64_add (map lw_weight (rev ten_tenths)) f64_zero) = true.
Proof. vm_compute. reflexivity. Qed.

(** C12 does not hold: two requests that sort the shared slice at the same time can leave a policy
    in which a configured label no longer occurs. *)
Theorem C12_race_refuted : exists m ps,
  run_sorts Q qlt race_dflt race_policy [sort_start Q; sort_start Q] race_sched = (m, ps) /\
  ps = [PDone Q; PDone Q] /\
  ~ Permutation m race_policy /\ ~ In "blue" (map lw_label m).
Proof. exact race_loses. Qed.
Print Assumptions C12_race_refuted.

(** C12, the part that holds: any number of requests, if no two of them exchange elements at the same
    time, leave the configured labels and weights, in some order.  Missing: overlapping exchanges. *)
Theorem C12_no_overlap_partial : forall (num : Type) lt (dflt : label_weight num) m n sched,
  exclusive num lt dflt m (repeat (sort_start num) n) sched ->
  swappers (snd (run_sorts num lt dflt m (repeat (sort_start num) n) sched)) = 0%nat ->
  Permutation (fst (run_sorts num lt dflt m (repeat (sort_start num) n) sched)) m.
Proof. exact exclusive_perm. Qed.
Print Assumptions C12_no_overlap_partial.

(** C12: requests served one after another leave the policy as it was, whatever the dice. *)
Theorem C12_sequential_partial :
  forall (h : list ((fpolicy -> fpolicy) * f64)) (p : fpolicy),
  Forall (fun c => reorders (fst c)) h ->
  Permutation (fold_left (fun p c => snd (resolve_f (fst c) (snd c) p)) h p) p.
Proof. exact (choices_perm f64 f64_zero f64_add f64_lt). Qed.
Print Assumptions C12_sequential_partial.

(** C12: a request that sorts alone never needs the exclusion. *)
Theorem C12_alone_partial : forall (num : Type) lt (dflt : label_weight num) sched m ps,
  (List.length ps <= 1)%nat -> exclusive num lt dflt m ps sched.
Proof. exact alone_exclusive. Qed.
Print Assumptions C12_alone_partial.

Example C12_case :
  let r := run_sorts Q qlt race_dflt race_policy (repeat (sort_start Q) 2)
             [0; 1; 0; 0; 0; 0; 1; 0; 0; 1]%nat in
  map lw_label (fst r) = ["blue"; "green"] /\ swappers (snd r) = 1%nat /\
  exclusive Q qlt race_dflt race_policy (repeat (sort_start Q) 2) [0; 1; 0; 0; 0; 0; 0; 0]%nat.
Proof. vm_compute. repeat split; repeat constructor. Qed.

(** C13 does not hold: for every generator, requests that each follow an error response in the same
    second all use the same dice value. *)
Theorem C13_reseed_refuted :
  forall (st num : Type) (seed : Z -> st) (next : st -> st * num) t n g,
  exists d, dice_of st num seed next g (concat (repeat [Reply t; Choose] n)) = repeat d n.
Proof. exact reseeded_constant. Qed.
Print Assumptions C13_reseed_refuted.

(** A counter as the generator: without replies the values differ, with replies they repeat. *)
Example C13_case :
  dice_of Z Z (fun t => t) (fun g => (g + 1, g)%Z) 5%Z [Choose; Choose; Choose] = [5; 6; 7]%Z /\
  dice_of Z Z (fun t => t) (fun g => (g + 1, g)%Z) 5%Z (concat (repeat [Reply 40%Z; Choose] 3)) = [41; 41; 41]%Z.
Proof. vm_compute. split; reflexivity. Qed.
