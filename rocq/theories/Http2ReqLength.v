(** Proofs for Thm_Http2Length: lengths that are no numbers. *)
From Coq Require Import String Ascii List Bool ZArith NArith Lia.
From Verif Require Import GoStr NumberSpec NumberProofs Header HeaderSpec HeaderProofs Exchange Handler Http2 Http2Spec Http2Proofs Http2Req Http2ReqSpec Http2ReqProofs Http2ReqBody Http2LengthSpec.
Import ListNotations.
Local Open Scope string_scope.

Lemma uint_broken : forall d a n c rest, (0 <= a)%Z -> digits_val a d = Some n -> (n <= max_uint)%Z -> digit_val c = None -> uint_from a (d ++ String c rest) = 0%Z.
Proof.
  unfold max_uint. induction d as [|x d IH]; intros a n c rest A D N C; cbn [digits_val append uint_from] in *; [now rewrite C|].
  destruct (digit_val x) as [v|] eqn:X; [|discriminate D]. apply digit_val_range in X. assert (G := digits_grow d (a * 10 + v) n ltac:(lia) D). cbv zeta.
  destruct (Z.ltb_spec 18446744073709551615 (a * 10 + v)) as [L|L]; [lia|]. apply (IH _ n); [lia|exact D|exact N|exact C].
Qed.

Lemma no_digit : forall c, ~ (48 <= N_of_ascii c <= 57)%N -> digit_val c = None.
Proof. intros c H. bytewise c; try reflexivity; elim H; cbn; lia. Qed.

Lemma parse_broken : forall d n c rest, numeral d n -> (n <= 18446744073709551615)%Z -> ~ (48 <= N_of_ascii c <= 57)%N -> parse_int (d ++ String c rest) = 0%Z.
Proof.
  intros d n c rest H N C. destruct (numeral_digits d n H) as [_ D]. destruct (numeral_start d n H) as (x & t & E & X). unfold parse_int.
  assert (U : uint_from 0 (d ++ String c rest) = 0%Z) by (apply (uint_broken d 0 n); [lia|exact D|exact N|now apply no_digit]). rewrite E in U |- *. cbn [append] in U |- *.
  destruct (Ascii.eqb_spec x "-") as [->|_]; [cbv in X; destruct X; congruence|]. destruct (Ascii.eqb_spec x "+") as [->|_]; [cbv in X; destruct X; congruence|].
  cbv zeta. rewrite U. reflexivity.
Qed.

Lemma parse_letters : forall c rest, ~ (48 <= N_of_ascii c <= 57)%N -> c <> "-"%char -> c <> "+"%char -> parse_int (String c rest) = 0%Z.
Proof.
  intros c rest C M P. unfold parse_int. destruct (Ascii.eqb_spec c "-") as [->|_]; [now elim M|]. destruct (Ascii.eqb_spec c "+") as [->|_]; [now elim P|].
  cbn [uint_from]. rewrite (no_digit c C). reflexivity.
Qed.

Lemma served_misread : forall s i v vs, h2_read s = H2Served i -> hs_ended s = false -> field_values "content-length" (hs_fields s) = v :: vs -> misread v ->
  q_length (i_req i) = 0%Z /\ (q_data_ok (i_req i) = true <-> hs_complete s = true /\ total (hs_frames s) = "").
Proof.
  intros s i v vs H He Hv M. destruct (served_inv s i H) as (V & _ & _ & _ & _ & g & raw & _ & E). cbv zeta in E.
  destruct (split_fields (hs_fields s)) as [ps rs] eqn:SP. destruct (parts_regular _ ps rs V SP) as [R F]. cbn [snd] in E.
  assert (L : values "Content-Length" (h2_header rs) = v :: vs).
  { rewrite <- Hv, (F "content-length" eq_refl). apply (plain_values rs "content-length" R); [reflexivity|cbn; intuition discriminate]. }
  assert (P : parse_int v = 0%Z).
  { destruct M as (d & c & rest & -> & C & [(-> & M1 & M2)|(n & N1 & N2)]); [exact (parse_letters c rest C M1 M2)|exact (parse_broken d n c rest N1 N2 C)]. }
  rewrite L, He, P in E. rewrite E. cbv zeta. cbn [i_req q_length q_data_ok]. split; [reflexivity|]. rewrite receive_ok.
  split; intros [A B]; (split; [exact A|]).
  - destruct B as [B|B]; [discriminate B|]. destruct (total (hs_frames s)); [reflexivity|]. cbn [String.length] in B. lia.
  - right. rewrite B. reflexivity.
Qed.
