(** What is logged before a load of keys panics. *)
From Coq Require Import String Ascii List Bool ZArith NArith Lia.
From Verif Require Import GoStr Jwt JwtSpec JwtLoadSpec JwtKeys KeyLog KeyLogSpec KeyLogProofs.
Import ListNotations.
Local Open Scope string_scope.

Definition ec_entry (d : jwk) : Prop := exists bits n, jk_raw d = Some (KEc bits n).

Lemma panic_alg : forall ks j err ls, load_keys_told j ks err = (ls, None) -> mem_str (j_alg j) rsa_algs = false /\ mem_str (j_alg j) ec_algs = true.
Proof.
  induction ks as [|k ks IH]; intros j err ls H; [discriminate H|]. cbn [load_keys_told] in H.
  destruct (String.eqb_spec (j_alg j) (jk_alg k)) as [A|A]; [|rewrite orb_true_r in H; discriminate H]. cbn [negb] in H. rewrite orb_false_r in H.
  destruct (mem_str (jk_alg k) valid_alg); [|discriminate H]. cbn [negb] in H.
  assert (STEP : forall j1 err1, j_alg j1 = j_alg j ->
    (let '(l, r) := load_keys_told j1 ks err1 in (([] ++ Parsed (j_name j) (j_alg j) :: l)%list, r)) = (ls, None) ->
    mem_str (j_alg j) rsa_algs = false /\ mem_str (j_alg j) ec_algs = true).
  { intros j1 err1 J X. destruct (load_keys_told j1 ks err1) as [l r] eqn:L. injection X as _ ->. rewrite <- J. exact (IH j1 err1 l L). }
  rewrite <- A in H. destruct (mem_str (j_alg j) rsa_algs) eqn:R.
  - destruct (jk_raw k) as [[n|b n|b|b]|]; (apply STEP in H; [exact H|reflexivity]).
  - destruct (mem_str (j_alg j) ec_algs) eqn:E; [now split|]. apply STEP in H; [exact H|reflexivity].
Qed.

Lemma panic_keys : forall ks j err ls, load_keys_told j ks err = (ls, None) ->
  exists a d rest, ks = (a ++ d :: rest)%list /\ (forall x, In x a -> jk_alg x = j_alg j /\ ec_entry x) /\ jk_alg d = j_alg j /\ ~ ec_entry d /\
    ls = map (fun _ => Parsed (j_name j) (j_alg j)) a.
Proof.
  induction ks as [|k ks IH]; intros j err ls H; [discriminate H|]. destruct (panic_alg _ _ _ _ H) as [R C]. cbn [load_keys_told] in H.
  destruct (String.eqb_spec (j_alg j) (jk_alg k)) as [A|A]; [|rewrite orb_true_r in H; discriminate H]. cbn [negb] in H. rewrite orb_false_r in H.
  destruct (mem_str (jk_alg k) valid_alg); [|discriminate H]. cbn [negb] in H. rewrite <- A, R, C in H.
  assert (STOP : ~ ec_entry k -> ([], None) = (ls, @None (jwt * bool)) -> exists a d rest, (k :: ks = a ++ d :: rest)%list /\ (forall x, In x a -> jk_alg x = j_alg j /\ ec_entry x) /\
    jk_alg d = j_alg j /\ ~ ec_entry d /\ ls = map (fun _ => Parsed (j_name j) (j_alg j)) a).
  { intros K X. injection X as <-. exists [], k, ks. split; [reflexivity|]. split; [intros x []|]. split; [now symmetry|]. split; [exact K|reflexivity]. }
  assert (STEP : forall j1 err1, j_alg j1 = j_alg j -> j_name j1 = j_name j -> ec_entry k ->
    (let '(l, r) := load_keys_told j1 ks err1 in (([] ++ Parsed (j_name j) (j_alg j) :: l)%list, r)) = (ls, None) ->
    exists a d rest, (k :: ks = a ++ d :: rest)%list /\ (forall x, In x a -> jk_alg x = j_alg j /\ ec_entry x) /\ jk_alg d = j_alg j /\ ~ ec_entry d /\
      ls = map (fun _ => Parsed (j_name j) (j_alg j)) a).
  { intros j1 err1 J1 J2 K X. destruct (load_keys_told j1 ks err1) as [l r] eqn:L. injection X as <- ->.
    destruct (IH j1 err1 l L) as (a & d & rest & E1 & E2 & E3 & E4 & E5).
    rewrite J1 in E2, E3, E5. rewrite J2 in E5. exists (k :: a), d, rest. split; [now rewrite E1|]. split; [|split; [exact E3|split; [exact E4|]]].
    - intros x [<-|I]; [split; [now symmetry|exact K]|now apply E2].
    - cbn [map app]. now rewrite E5. }
  destruct (jk_raw k) as [[n|b n|b|b]|] eqn:W.
  - apply STOP; [|exact H]. intros (b & m & Y). rewrite W in Y. discriminate Y.
  - assert (K : ec_entry k) by (exists b, n; exact W). destruct (bit_size_ok (j_alg j) b); (eapply STEP; [| |exact K|exact H]; reflexivity).
  - apply STOP; [|exact H]. intros (b' & m & Y). rewrite W in Y. discriminate Y.
  - apply STOP; [|exact H]. intros (b' & m & Y). rewrite W in Y. discriminate Y.
  - apply STOP; [|exact H]. intros (b & m & Y). rewrite W in Y. discriminate Y.
Qed.

Lemma panic_told : forall ks cause j, load_jwks (Some ks) j = None ->
  exists a d rest, ks = (a ++ d :: rest)%list /\ (forall x, In x (a ++ [d]) -> jk_alg x = j_alg j) /\ (forall x, In x a -> exists bits n, jk_raw x = Some (KEc bits n)) /\
    (forall bits n, jk_raw d <> Some (KEc bits n)) /\
    map key_text (fst (load_told (Some ks) cause j)) = (says_fetched (j_name j) (List.length ks) (j_url j) :: repeat (says_parsed (j_name j) (j_alg j)) (List.length a))%list.
Proof.
  intros ks cause j H. rewrite <- (told_same (Some ks) cause j) in H. unfold load_told in *. destruct ks as [|k ks]; [discriminate H|].
  destruct (load_keys_told j (k :: ks) false) as [ls [r|]] eqn:L; [destruct r; discriminate H|].
  destruct (panic_keys _ _ _ _ L) as (a & d & rest & E1 & E2 & E3 & E4 & E5). exists a, d, rest. split; [exact E1|]. split; [|split; [|split]].
  - intros x I. apply in_app_or in I. destruct I as [I|[<-|[]]]; [now apply E2|exact E3].
  - intros x I. now apply E2.
  - intros bits n X. apply E4. now exists bits, n.
  - cbn [fst]. rewrite E5. cbn [map key_text]. f_equal. rewrite map_map. clear. induction a as [|d a IH]; [reflexivity|]. cbn [map List.length repeat]. now rewrite IH.
Qed.
