From Coq Require Import String Ascii List Bool ZArith NArith Lia.
From Verif Require Import GoStr NumberSpec NumberProofs HeadProofs Header HeaderSpec HeaderProofs Config Exchange ExchangeSpec ExchangeProofs Machine MachineSpec Handler HandlerSpec
  SystemSpec SystemProofs ConformSpec ConformProofs Http2 Http2Spec Http2Proofs Http1 Http1Spec.
Import ListNotations.
Local Open Scope string_scope.

(** * Chunks *)

Lemma hex_ascii_value : forall n, (n < 16)%N -> hex_value (hex_ascii n) n.
Proof.
  intros n H. unfold hex_ascii, hex_value. destruct (N.ltb_spec n 10) as [L|L]; rewrite N_ascii_embedding by lia; [left|right; left]; lia.
Qed.

Lemma hex_digits_number : forall fuel n acc, (N.to_nat n < fuel)%nat -> exists s, hex_digits fuel n acc = s ++ acc /\ hex_number s n.
Proof.
  induction fuel as [|fuel IH]; intros n acc H; [lia|]. cbn [hex_digits]. cbv zeta.
  assert (M : (n mod 16 < 16)%N) by (apply N.mod_lt; discriminate). assert (D : n = (16 * (n / 16) + n mod 16)%N) by (apply N.div_mod; discriminate).
  destruct (N.eqb_spec (n / 16) 0) as [E|E].
  - exists (String (hex_ascii (n mod 16)) ""). split; [reflexivity|]. apply hn_one. assert (Q : n = (n mod 16)%N) by lia. rewrite Q at 2. now apply hex_ascii_value.
  - destruct (IH (n / 16)%N (String (hex_ascii (n mod 16)) acc)) as (s & Es & Hs); [|].
    { clear IH. assert (P : n <> 0%N) by (intros ->; now apply E). assert (Q : (n / 16 < n)%N) by (clear - P; apply N.div_lt; lia). clear - Q H. revert Q. generalize (n / 16)%N. lia. }
    exists (s ++ String (hex_ascii (n mod 16)) ""). split; [rewrite Es, append_assoc; reflexivity|]. rewrite D at 2. apply hn_more; [exact Hs|now apply hex_ascii_value].
Qed.

Lemma hex_text_number : forall n, hex_number (hex_text n) n.
Proof.
  intros n. destruct (hex_digits_number (S (N.to_nat n)) n "") as (s & E & H); [lia|]. unfold hex_text. rewrite E. now rewrite append_nil_r.
Qed.

Lemma chunks_read : forall p rest, in_chunks (chunks p ++ rest) p rest.
Proof.
  intros p rest. unfold chunks. destruct (String.eqb_spec p "") as [->|N]; [exact (ic_end rest)|].
  rewrite !append_assoc. replace (in_chunks _ p rest) with (in_chunks (hex_text (N.of_nat (String.length p)) ++ crlf ++ p ++ crlf ++ "0" ++ crlf ++ crlf ++ rest) (p ++ "") rest) by (now rewrite append_nil_r).
  eapply ic_more; [apply hex_text_number|destruct p; [now elim N|cbn; lia]|now rewrite Nnat.Nat2N.id|apply ic_end].
Qed.

(** * Lines *)

Lemma dropped_values : forall k ds h, values k (filter (fun q : string * string => negb (existsb (String.eqb (fst q)) ds)) h) = if existsb (String.eqb k) ds then [] else values k h.
Proof.
  intros k ds h. unfold values. induction h as [|[a b] h IH]; [now destruct (existsb _ ds)|]. cbn [filter fst].
  destruct (String.eqb_spec a k) as [->|N].
  - destruct (existsb (String.eqb k) ds) eqn:E; cbn [negb]; [exact IH|]. cbn [filter fst]. rewrite String.eqb_refl. cbn [map]. now rewrite IH.
  - destruct (existsb (String.eqb a) ds); cbn [negb]; [exact IH|]. cbn [filter fst]. apply String.eqb_neq in N. rewrite N. exact IH.
Qed.

Lemma if_nil : forall (b : bool), (if b then [] else []) = @nil string.
Proof. now destruct b. Qed.

Lemma itoa_Z_atoi : forall n, (Z.of_nat n <= 9223372036854775807)%Z -> atoi (itoa_Z (Z.of_nat n)) = Some (Z.of_nat n).
Proof.
  intros n H. apply atoi_iff. split; [|lia]. exists (itoa_Z (Z.of_nat n)), (Z.of_nat n). split; [apply itoa_Z_numeral|]. left. now split.
Qed.

Lemma itoa_Z_nonempty : forall n, itoa_Z (Z.of_nat n) <> "".
Proof. intros n X. pose proof (itoa_Z_numeral n) as Y. rewrite X in Y. inversion Y as [|s m c Y1 Y2 Y3]. destruct s; discriminate. Qed.

(** What a header with a true length, or none, makes of a message *)
Definition honest_length (r : response) : Prop :=
  values "Content-Length" (rp_header r) = [] \/ values "Content-Length" (rp_header r) = [itoa_Z (Z.of_nat (String.length (rp_body r)))].

Lemma allowed_iff : forall st, body_allowed st = true <-> ~ bodiless false st.
Proof.
  intros st. unfold body_allowed, bodiless. rewrite negb_true_iff, !orb_false_iff, andb_false_iff, !Z.leb_gt, !Z.eqb_neq. split; [intros H [X|X]; [discriminate X|lia]|].
  intros H. split; [split|]; [|intros E|intros E]; [|apply H; tauto|apply H; tauto].
  destruct (Z.lt_ge_cases st 100) as [L|L]; [now left|]. destruct (Z.lt_ge_cases 199 st) as [G|G]; [now right|]. exfalso. apply H. right. left. lia.
Qed.

Lemma carries_none : forall sniff now c r, bodiless (hc_head c) (rp_status r) -> carries (hc_head c) (h1_write sniff now c r) "".
Proof.
  intros sniff now c r B. assert (E : h1_bytes (h1_write sniff now c r) = "").
  { unfold h1_write. cbn [h1_bytes]. destruct (hc_head c) eqn:Hd; [reflexivity|].
    assert (A : body_allowed (rp_status r) = false) by (destruct (body_allowed (rp_status r)) eqn:A; [now apply allowed_iff in A|reflexivity]).
    rewrite A. cbn [negb andb orb]. reflexivity. }
  split; intros _; [rewrite E|intros next; rewrite E]; apply cr_none; exact B.
Qed.


Section Shape.
  Variables (sniff : string -> string) (now : string) (c : h1_client) (r : response).
  Hypothesis Hd : hc_head c = false.
  Hypothesis A : body_allowed (rp_status r) = true.
  Hypothesis TE : values "Transfer-Encoding" (rp_header r) = [].
  Let m := h1_write sniff now c r.
  Let len := itoa_Z (Z.of_nat (String.length (rp_body r))).

  Lemma te_none : get "Transfer-Encoding" (rp_header r) = "".
  Proof. rewrite get_values by reflexivity. now rewrite TE. Qed.
  Lemma cl_none : values "Content-Length" (rp_header r) = [] -> get "Content-Length" (rp_header r) = "".
  Proof. intros H. rewrite get_values by reflexivity. now rewrite H. Qed.

  Definition counts : bool := Z.leb (zlen (rp_body r)) 2048 && match values "Trailer" (rp_header r) with [] => true | _ :: _ => false end.

  Ltac flat := rewrite ?te_none, ?A, ?Hd; cbn [negb andb orb String.eqb]; rewrite ?andb_true_r, ?andb_false_r, ?orb_false_r; fold counts.
  Ltac lines_ := rewrite !values_app, dropped_values, !optional_values, ?if_nil;
    repeat match goal with |- context [if String.eqb (String ?a ?b) (String ?d ?e) then _ else _] =>
      let x := eval vm_compute in (String.eqb (String a b) (String d e)) in change (String.eqb (String a b) (String d e)) with x end; cbv iota; rewrite ?if_nil, ?app_nil_r; cbn [app].

  Lemma shape_counted : values "Content-Length" (rp_header r) = [] -> counts = true ->
    values "Transfer-Encoding" (h1_lines m) = [] /\ values "Content-Length" (h1_lines m) = [len] /\ h1_bytes m = rp_body r.
  Proof.
    intros CL Ct. unfold m, h1_write. cbn [h1_lines h1_bytes]. rewrite (cl_none CL). change (atoi "") with (@None Z). flat. rewrite Ct. cbn [negb andb orb].
    rewrite ?andb_false_r, ?orb_false_r. split; [|split]; [lines_..|reflexivity].
    - now rewrite TE, if_nil.
    - rewrite CL, if_nil. cbn [app]. fold len. destruct (String.eqb_spec (itoa_Z (zlen (rp_body r))) "") as [X|_]; [now apply itoa_Z_nonempty in X|reflexivity].
  Qed.

  Lemma shape_chunked : values "Content-Length" (rp_header r) = [] -> counts = false -> hc_11 c = true ->
    values "Transfer-Encoding" (h1_lines m) = ["chunked"] /\ values "Content-Length" (h1_lines m) = [] /\ h1_bytes m = chunks (rp_body r).
  Proof.
    intros CL Ct V. unfold m, h1_write. cbn [h1_lines h1_bytes]. rewrite (cl_none CL), V. change (atoi "") with (@None Z). flat. rewrite Ct. cbn [negb andb orb].
    rewrite ?andb_false_r, ?orb_false_r. split; [|split]; [lines_..|reflexivity].
    - rewrite TE, if_nil. reflexivity.
    - rewrite CL, if_nil. reflexivity.
  Qed.

  Lemma shape_close : values "Content-Length" (rp_header r) = [] -> counts = false -> hc_11 c = false ->
    values "Transfer-Encoding" (h1_lines m) = [] /\ values "Content-Length" (h1_lines m) = [] /\ h1_bytes m = rp_body r /\ h1_close m = true.
  Proof.
    intros CL Ct V. unfold m, h1_write. cbn [h1_lines h1_bytes h1_close]. rewrite (cl_none CL), V. change (atoi "") with (@None Z). flat. rewrite Ct. cbn [negb andb orb].
    rewrite ?andb_false_r, ?orb_false_r. split; [|split; [|split]]; [lines_|lines_|reflexivity|now rewrite ?orb_true_r].
    - rewrite TE, if_nil. reflexivity.
    - rewrite CL, if_nil. reflexivity.
  Qed.

  Lemma shape_declared : values "Content-Length" (rp_header r) = [len] -> (Z.of_nat (String.length (rp_body r)) <= 9223372036854775807)%Z ->
    values "Transfer-Encoding" (h1_lines m) = [] /\ values "Content-Length" (h1_lines m) = [len] /\ h1_bytes m = rp_body r.
  Proof.
    intros CL Big. assert (D : get "Content-Length" (rp_header r) = len) by (rewrite get_values by reflexivity; now rewrite CL).
    assert (N : String.eqb len "" = false) by (apply String.eqb_neq, itoa_Z_nonempty).
    unfold m, h1_write. cbn [h1_lines h1_bytes]. rewrite D.
    assert (At : atoi len = Some (Z.of_nat (String.length (rp_body r)))) by exact (itoa_Z_atoi _ Big). rewrite At. cbv beta iota.
    assert (L : Z.leb 0 (Z.of_nat (String.length (rp_body r))) = true) by (apply Z.leb_le; lia). rewrite L. cbv beta iota. rewrite A. unfold zlen. cbv iota. rewrite Z.ltb_irrefl. flat. rewrite N. cbn [negb andb orb].
    rewrite ?andb_false_r, ?orb_false_r. split; [|split]; [lines_..|reflexivity].
    - rewrite TE, if_nil. reflexivity.
    - rewrite CL. destruct (_ && negb _); reflexivity.
  Qed.
End Shape.

Lemma carries_body : forall sniff now c r, ~ bodiless (hc_head c) (rp_status r) -> values "Transfer-Encoding" (rp_header r) = [] -> honest_length r ->
  (Z.of_nat (String.length (rp_body r)) <= 9223372036854775807)%Z -> carries (hc_head c) (h1_write sniff now c r) (rp_body r).
Proof.
  intros sniff now c r B TE HL Big. assert (Hd : hc_head c = false) by (destruct (hc_head c); [elim B; now left|reflexivity]). rewrite Hd in *.
  assert (A : body_allowed (rp_status r) = true) by now apply allowed_iff.
  assert (St : h1_status (h1_write sniff now c r) = rp_status r) by reflexivity. unfold carries. rewrite St.
  assert (R1 : forall (l : string), values "Transfer-Encoding" (h1_lines (h1_write sniff now c r)) = [] /\
      values "Content-Length" (h1_lines (h1_write sniff now c r)) = [itoa_Z (Z.of_nat (String.length (rp_body r)))] /\ h1_bytes (h1_write sniff now c r) = rp_body r ->
      forall e rest, client_reads false (rp_status r) (h1_lines (h1_write sniff now c r)) (h1_bytes (h1_write sniff now c r) ++ rest) e (rp_body r) rest).
  { intros _ (T & L & E) e rest. rewrite E. eapply cr_sized; [exact B|exact T|exact L|apply itoa_Z_numeral|reflexivity]. }
  assert (R2 : (forall e rest, client_reads false (rp_status r) (h1_lines (h1_write sniff now c r)) (h1_bytes (h1_write sniff now c r) ++ rest) e (rp_body r) rest) ->
      (h1_close (h1_write sniff now c r) = true -> client_reads false (rp_status r) (h1_lines (h1_write sniff now c r)) (h1_bytes (h1_write sniff now c r)) true (rp_body r) "") /\
      (h1_close (h1_write sniff now c r) = false -> forall next, client_reads false (rp_status r) (h1_lines (h1_write sniff now c r)) (h1_bytes (h1_write sniff now c r) ++ next) false (rp_body r) next)).
  { intros R. split; intros _; [rewrite <- (append_nil_r (h1_bytes _)); apply R|intros next; apply R]. }
  destruct HL as [CL|CL]; [|now apply R2, (R1 ""), shape_declared].
  destruct (counts r) eqn:Ct; [now apply R2, (R1 ""), shape_counted|]. destruct (hc_11 c) eqn:V.
  - destruct (shape_chunked sniff now c r Hd A TE CL Ct V) as (T & _ & E). apply R2. intros e rest. apply cr_chunks; [exact B|exact T|]. rewrite E. apply chunks_read.
  - destruct (shape_close sniff now c r Hd A TE CL Ct V) as (T & L & E & K). rewrite K, E. split; [|discriminate]. intros _. now apply cr_close.
Qed.

(** * Replies *)

Lemma framed_here : forall sniff now c t r, replies t r -> sized (t_req t) -> timely_run t -> canonical_answers (t_run t) ->
  (200 <= rp_status r <= 999)%Z -> (Z.of_nat (String.length (rp_body r)) <= 9223372036854775807)%Z ->
  hc_head c = true \/ (to_upper (q_method (t_req t)) <> "HEAD" /\ to_upper (q_method (t_req t)) <> "CONNECT") ->
  (bodiless (hc_head c) (rp_status r) -> carries (hc_head c) (h1_write sniff now c r) "") /\
  (~ bodiless (hc_head c) (rp_status r) -> carries (hc_head c) (h1_write sniff now c r) (rp_body r)).
Proof.
  intros sniff now c t r H Hq Ht Hc Hs Big Hm. split; [apply carries_none|]. intros B. apply carries_body; [exact B|exact (no_transfer t r H Hq Ht Hc)| |exact Big].
  destruct Hm as [Hm|[M1 M2]]; [elim B; now left|]. apply (length_any t r H Hq Hc); [|lia|exact M1|exact M2]. intros E. apply B. right. right. now left.
Qed.

(** * Both framings, closing, dates and types *)

Lemma no_both : forall sniff now c r, values "Transfer-Encoding" (rp_header r) = [] -> values "Transfer-Encoding" (h1_lines (h1_write sniff now c r)) <> [] ->
  hc_11 c = true /\ values "Content-Length" (h1_lines (h1_write sniff now c r)) = [].
Proof.
  intros sniff now c r TE. unfold h1_write. cbn [h1_lines]. rewrite (te_none r TE). cbn [String.eqb negb andb orb]. rewrite ?andb_true_r, ?andb_false_r, ?orb_false_r.
  rewrite !values_app, !dropped_values, !optional_values, TE, !if_nil.
  change (String.eqb "Date" "Transfer-Encoding") with false. change (String.eqb "Content-Length" "Transfer-Encoding") with false. change (String.eqb "Content-Type" "Transfer-Encoding") with false.
  change (String.eqb "Connection" "Transfer-Encoding") with false. change (String.eqb "Transfer-Encoding" "Transfer-Encoding") with true.
  change (String.eqb "Date" "Content-Length") with false. change (String.eqb "Content-Length" "Content-Length") with true. change (String.eqb "Content-Type" "Content-Length") with false.
  change (String.eqb "Connection" "Content-Length") with false. change (String.eqb "Transfer-Encoding" "Content-Length") with false.
  cbv iota. rewrite ?if_nil. cbn [app]. rewrite ?app_nil_r.
  destruct (match match atoi (get "Content-Length" (rp_header r)) with Some z => if Z.leb 0 z then Some z else None | None => None end with Some _ => true | None => _ end) eqn:HC; cbn [negb andb orb].
  - rewrite ?andb_false_r, ?orb_false_r. cbn [andb]. intros X. now elim X.
  - destruct (hc_head c) eqn:Hd; cbn [negb andb orb]; [intros X; now elim X|]. destruct (body_allowed (rp_status r)) eqn:A; cbn [negb andb orb]; [|rewrite ?andb_false_r; intros X; now elim X].
    destruct (hc_11 c) eqn:V; cbn [negb andb orb]; [|intros X; now elim X]. intros _. split; [reflexivity|].
    destruct (match atoi _ with Some z => _ | None => _ end) as [z|] eqn:An; [discriminate HC|]. cbn [negb andb orb] in HC. rewrite ?andb_true_r in HC |- *.
    rewrite !existsb_app. change (existsb (String.eqb "Content-Length") ["Content-Length"]) with true. rewrite ?orb_true_r. cbn [app existsb orb]. rewrite ?orb_true_r.
    change (String.eqb "Content-Length" "Content-Length") with true. cbn [orb]. rewrite HC. reflexivity.
Qed.
