(** Lemmas for Thm_KeyLog. *)
From Coq Require Import String Ascii List Bool ZArith NArith Lia.
From Verif Require Import GoStr Jwt JwtSpec JwtProofs JwtKeys JwtLoadSpec JwtLoad KeyLog KeyLogSpec.
Import ListNotations.
Local Open Scope string_scope.

(** Logging changes nothing. *)
Lemma keys_told_same : forall ks j err, snd (load_keys_told j ks err) = load_keys j ks err.
Proof.
  induction ks as [|k ks IH]; intros j err; [reflexivity|]. cbn [load_keys_told load_keys].
  destruct (mem_str (jk_alg k) valid_alg); cbn [negb orb andb]; [|reflexivity].
  destruct (String.eqb (j_alg j) (jk_alg k)); cbn [negb]; [|reflexivity].
  destruct (mem_str (jk_alg k) rsa_algs).
  - destruct (jk_raw k) as [[n|b n|s|n]|].
    + rewrite <- IH. now destruct (load_keys_told _ ks false).
    + rewrite <- IH. now destruct (load_keys_told _ ks true).
    + rewrite <- IH. now destruct (load_keys_told _ ks true).
    + rewrite <- IH. now destruct (load_keys_told _ ks true).
    + rewrite <- IH. now destruct (load_keys_told _ ks true).
  - destruct (mem_str (jk_alg k) ec_algs).
    + destruct (jk_raw k) as [[n|b n|s|n]|]; try reflexivity. destruct (bit_size_ok (jk_alg k) b).
      * rewrite <- IH. now destruct (load_keys_told _ ks false).
      * rewrite <- IH. now destruct (load_keys_told _ ks true).
    + rewrite <- IH. now destruct (load_keys_told _ ks true).
Qed.

Lemma told_same : forall doc cause j, snd (load_told doc cause j) = load_jwks doc j.
Proof.
  intros [[|k ks]|] cause j; try reflexivity. unfold load_told, load_jwks. rewrite <- keys_told_same.
  now destruct (load_keys_told j (k :: ks) false).
Qed.

(** One entry for the algorithm: a line, unless it is the end. *)
Lemma keys_told_step : forall j d ks err r, In (j_alg j) signing -> jk_alg d = j_alg j -> load_keys j (d :: ks) err = Some r ->
  exists j1 err1, j_alg j1 = j_alg j /\ j_name j1 = j_name j /\ load_keys j1 ks err1 = Some r /\
    (err1 = false <-> exists k, usable_entry (j_alg j) d k) /\
    fst (load_keys_told j (d :: ks) err) = Parsed (j_name j) (j_alg j) :: fst (load_keys_told j1 ks err1).
Proof.
  intros j d ks err r Ha Hd H. cbn [load_keys_told load_keys] in *. rewrite Hd in *.
  rewrite (signing_valid _ Ha), String.eqb_refl in *. cbn [negb orb andb] in *.
  assert (F : forall j1 e1, load_keys j1 ks e1 = Some r -> j_alg j1 = j_alg j -> j_name j1 = j_name j ->
     (e1 = false <-> exists k, usable_entry (j_alg j) d k) ->
     exists j2 err2, j_alg j2 = j_alg j /\ j_name j2 = j_name j /\ load_keys j2 ks err2 = Some r /\
       (err2 = false <-> exists k, usable_entry (j_alg j) d k) /\
       fst (let '(ls, rr) := load_keys_told j1 ks e1 in (([] ++ Parsed (j_name j) (j_alg j) :: ls)%list, rr)) =
         Parsed (j_name j) (j_alg j) :: fst (load_keys_told j2 ks err2)).
  { intros j1 e1 H1 A1 N1 E1. exists j1, e1. do 4 (split; [assumption|]). now destruct (load_keys_told j1 ks e1). }
  destruct (mem_str (j_alg j) rsa_algs) eqn:Rs.
  - destruct (jk_raw d) as [[n|b n|s|n]|] eqn:R; apply F; try exact H; try reflexivity; (split; [|try reflexivity]); try discriminate.
    + intros _. exists (KRsa n). split; [exact Hd|]. split; [exact R|]. split; [|discriminate]. apply rsa_fits. now apply in_alg.
    + intros [k (_ & R' & Ft & _)]. rewrite R in R'. injection R' as <-. apply ec_fits in Ft. destruct Ft as [Ft _]. apply in_alg in Ft. rewrite (rsa_not_ec _ Rs) in Ft. discriminate Ft.
    + intros [k (_ & R' & _ & Ns)]. rewrite R in R'. injection R' as <-. now elim (Ns s).
    + intros [k (_ & R' & Ft & _)]. rewrite R in R'. injection R' as <-. destruct Ft.
    + intros [k (_ & R' & _)]. rewrite R in R'. discriminate R'.
  - destruct (mem_str (j_alg j) ec_algs) eqn:Ec.
    + destruct (jk_raw d) as [[n|b n|s|n]|] eqn:R; try discriminate H. destruct (bit_size_ok (j_alg j) b) eqn:B; apply F; try exact H; try reflexivity; (split; [|try reflexivity]); try discriminate.
      * intros _. exists (KEc b n). split; [exact Hd|]. split; [exact R|]. split; [|discriminate]. apply ec_fits. split; [now apply in_alg|exact B].
      * intros [k (_ & R' & Ft & _)]. rewrite R in R'. injection R' as <-. apply ec_fits in Ft. destruct Ft as [_ Ft]. congruence.
    + apply F; try exact H; try reflexivity. split; [discriminate|]. intros [k (_ & R' & Ft & Ns)].
      destruct k as [n|b n|s|n]; [apply rsa_fits, in_alg in Ft; congruence|apply ec_fits in Ft; destruct Ft as [Ft _]; apply in_alg in Ft; congruence|now elim (Ns s)|destruct Ft].
Qed.

(** Where a document is read to *)
Lemma cut_at : forall alg ks, exists a rest, up_to_other alg ks a rest.
Proof.
  intros alg ks. induction ks as [|d ks (a & rest & E & H1 & H2)].
  - exists [], []. split; [reflexivity|]. split; [intros d []|exact I].
  - destruct (String.eqb_spec (jk_alg d) alg) as [Q|Q].
    + exists (d :: a), rest. split; [now rewrite E|]. split; [|exact H2]. intros x [<-|Hx]; [exact Q|now apply H1].
    + exists [], (d :: ks). split; [reflexivity|]. split; [intros x []|exact Q].
Qed.

Lemma keys_told_lines : forall a rest j err r, In (j_alg j) signing -> (forall d, In d a -> jk_alg d = j_alg j) ->
  match rest with [] => True | d :: _ => jk_alg d <> j_alg j end ->
  load_keys j (a ++ rest) err = Some r ->
  fst (load_keys_told j (a ++ rest) err) = (map (fun _ => Parsed (j_name j) (j_alg j)) a ++
    match rest with [] => [] | d :: _ => [OtherAlg (j_name j) (jk_alg d) (j_alg j)] end)%list /\
  (snd r = true <-> rest <> [] \/ (a = [] /\ err = true) \/ exists a' d, a = (a' ++ [d])%list /\ forall k, ~ usable_entry (j_alg j) d k).
Proof.
  induction a as [|d a IH]; intros rest j err r Ha Hs Hr H.
  - cbn [app map] in *. destruct rest as [|d rest].
    + cbn [load_keys load_keys_told fst] in *. injection H as <-. split; [reflexivity|]. cbn [snd]. split.
      * intros ->. right. left. now split.
      * intros [N|[[_ E]|(a' & d & E & _)]]; [now elim N|exact E|]. destruct a'; discriminate E.
    + cbn [load_keys load_keys_told] in *. destruct (String.eqb_spec (j_alg j) (jk_alg d)) as [Q|Q]; [now elim Hr|].
      rewrite andb_false_r in H. rewrite orb_true_r. injection H as <-. split; [reflexivity|]. cbn [snd]. split; [intros _; left; discriminate|reflexivity].
  - assert (Hd : jk_alg d = j_alg j) by (apply Hs; now left).
    cbn [app] in H |- *. destruct (keys_told_step j d (a ++ rest) err r Ha Hd H) as (j1 & err1 & A1 & N1 & H1 & E1 & ->).
    assert (Hs1 : forall x, In x a -> jk_alg x = j_alg j1) by (intros x Hx; rewrite A1; apply Hs; now right).
    rewrite <- A1 in Ha, Hr. destruct (IH rest j1 err1 r Ha Hs1 Hr H1) as [L B]. rewrite L, N1, A1. split; [reflexivity|].
    rewrite B, A1. split.
    + intros [N|[[-> E]|(a' & x & -> & U)]].
      * now left.
      * right. right. exists [], d. split; [reflexivity|]. intros k U. assert (F : err1 = false) by (apply E1; now exists k). congruence.
      * right. right. exists (d :: a'), x. split; [reflexivity|exact U].
    + intros [N|[[F _]|(a' & x & E & U)]]; [now left|discriminate F|]. destruct a' as [|y a'].
      * injection E as -> ->. right. left. split; [reflexivity|]. destruct err1; [reflexivity|]. destruct (proj1 E1 eq_refl) as [k K]. now elim (U k).
      * injection E as -> ->. right. right. now exists a', x.
Qed.

Lemma told_lines : forall ks cause j r a rest, In (j_alg j) signing -> up_to_other (j_alg j) ks a rest -> load_jwks (Some ks) j = Some r ->
  map key_text (fst (load_told (Some ks) cause j)) =
    (says_fetched (j_name j) (List.length ks) (j_url j) :: repeat (says_parsed (j_name j) (j_alg j)) (List.length a) ++
     match rest with [] => [] | d :: _ => [says_other (j_name j) (jk_alg d) (j_alg j)] end)%list.
Proof.
  intros ks cause j r a rest Ha (E & H1 & H2) H. destruct ks as [|k ks].
  { destruct a; [|discriminate E]. cbn [app] in E. subst rest. reflexivity. }
  unfold load_told. unfold load_jwks in H. destruct (load_keys j (k :: ks) false) as [[j' err]|] eqn:Ek; [|discriminate H].
  assert (L : fst (load_keys_told j (k :: ks) false) = (map (fun _ => Parsed (j_name j) (j_alg j)) a ++
    match rest with [] => [] | d :: _ => [OtherAlg (j_name j) (jk_alg d) (j_alg j)] end)%list).
  { rewrite E in Ek |- *. exact (proj1 (keys_told_lines a rest j false (j', err) Ha H1 H2 Ek)). }
  destruct (load_keys_told j (k :: ks) false) as [ls rr]. cbn [fst] in L |- *. rewrite L. cbn [map key_text]. f_equal.
  rewrite map_app, map_map. f_equal.
  - clear. induction a as [|d a IH]; [reflexivity|]. cbn [map List.length repeat]. now rewrite IH.
  - now destruct rest.
Qed.

Lemma lines_warned : forall name alg a rest n url, warned (Fetched name n url :: map (fun _ : jwk => Parsed name alg) a ++
    match rest with [] => [] | d :: _ => [OtherAlg name (jk_alg d) alg] end) <-> rest <> [].
Proof.
  intros name alg a rest n url. split.
  - intros (l & [<-|Hl] & W); [discriminate W|]. apply in_app_or in Hl. destruct Hl as [Hl|Hl].
    + apply in_map_iff in Hl. destruct Hl as (d & <- & _). discriminate W.
    + destruct rest; [destruct Hl|discriminate].
  - intros N. destruct rest as [|d rest]; [now elim N|]. exists (OtherAlg name (jk_alg d) alg). split; [|reflexivity].
    right. apply in_or_app. right. now left.
Qed.

Lemma told_warned : forall doc cause j j' err, In (j_alg j) signing -> load_jwks doc j = Some (j', err) ->
  (warned (fst (load_told doc cause j)) <-> doc = None \/ exists ks d, doc = Some ks /\ In d ks /\ jk_alg d <> j_alg j) /\
  (warned (fst (load_told doc cause j)) -> err = true) /\
  (err = true /\ ~ warned (fst (load_told doc cause j)) <->
   doc = Some [] \/ exists a d, doc = Some (a ++ [d])%list /\ (forall x, In x (a ++ [d]) -> jk_alg x = j_alg j) /\ forall k, ~ usable_entry (j_alg j) d k).
Proof.
  intros [[|k ks]|] cause j j' err Ha H.
  - cbn [load_jwks load_told fst] in *. injection H as <- <-.
    assert (Nw : ~ warned [Fetched (j_name j) 0 (j_url j)]) by (intros (l & [<-|[]] & W); discriminate W).
    split; [split; [intros W; contradiction|]|split; [contradiction|]].
    + intros [F|(ks & d & F & Hd & _)]; [discriminate F|]. injection F as <-. destruct Hd.
    + split; [intros _; now left|intros _; now split].
  - unfold load_jwks in H. unfold load_told. destruct (load_keys j (k :: ks) false) as [[j1 e1]|] eqn:Ek; [|discriminate H]. injection H as <- <-.
    destruct (cut_at (j_alg j) (k :: ks)) as (a & rest & E & H1 & H2).
    pose proof (keys_told_lines a rest j false (j1, e1) Ha H1 H2) as K. rewrite <- E in K. destruct (K Ek) as [L B]. clear K. cbn [snd] in B.
    destruct (load_keys_told j (k :: ks) false) as [ls rr]. cbn [fst] in L |- *. rewrite L.
    pose proof (lines_warned (j_name j) (j_alg j) a rest (List.length (k :: ks)) (j_url j)) as W. rewrite W.
    assert (Wd : rest <> [] <-> exists d, In d (k :: ks) /\ jk_alg d <> j_alg j).
    { split.
      - intros N. destruct rest as [|d rest]; [now elim N|]. exists d. split; [rewrite E; apply in_or_app; right; now left|exact H2].
      - intros (d & Hd & Nd) ->. rewrite app_nil_r in E. rewrite E in Hd. now apply Nd, H1. }
    split; [|split].
    + rewrite Wd. split.
      * intros (d & Hd & Nd). right. now exists (k :: ks), d.
      * intros [F|(ks' & d & F & Hd & Nd)]; [discriminate F|]. injection F as <-. now exists d.
    + intros N. apply B. now left.
    + split.
      * intros [F N]. right. destruct rest as [|d rest]; [|exfalso; apply N; discriminate]. rewrite app_nil_r in E.
        apply B in F. destruct F as [F|[[_ F]|(a' & d & Ea & U)]]; [now elim F|discriminate F|].
        exists a', d. rewrite E, Ea. split; [reflexivity|]. split; [|exact U]. rewrite <- Ea. exact H1.
      * intros [F|(a' & d & F & Hs & U)]; [discriminate F|]. injection F as F.
        assert (Nr : rest = []). { destruct rest as [|x rest]; [reflexivity|]. exfalso. destruct (proj1 Wd ltac:(discriminate)) as (y & Hy & Ny). apply Ny, Hs. now rewrite <- F. }
        subst rest. rewrite app_nil_r in E. split; [|now intros N; apply N]. apply B. right. right. exists a', d. split; [now rewrite <- E|exact U].
  - cbn [load_jwks load_told fst] in *. injection H as <- <-.
    assert (W : warned [NotFetched (j_name j) (j_url j) cause]) by (exists (NotFetched (j_name j) (j_url j) cause); split; [now left|reflexivity]).
    split; [split; [intros _; now left|intros _; exact W]|]. split; [reflexivity|]. split; [intros [_ N]; contradiction|].
    intros [F|(a & d & F & _)]; discriminate F.
Qed.

(** * Cases *)

(** A definition with keys from a URL, validated with one document *)
Definition paid : jwt := Jwt "pay" "RS256" "" "https://id.example/keys" [] [] [] "" 0.
Definition first_doc : list jwk := [Jwk "2026-01" "RS256" (Some (KRsa 65537))].
(** A document whose only key cannot be read: its modulus is no base64. *)
Definition broken_doc : list jwk := [Jwk "2026-02" "RS256" None].
Definition in_use : jwt := match validate_jwt_def (None, "") "" (Some first_doc) paid with ROk j => j | _ => paid end.

Lemma in_use_reached : reached (None, "") "" paid [first_doc] in_use.
Proof.
  pose proof (reached_boot (None, "") "" paid (Some first_doc) in_use) as H. cbn in H. apply H; [|reflexivity].
  repeat split.
Qed.

Lemma parsed_untrue : exists pem kid0 j0 docs j doc cause j', reached pem kid0 j0 docs j /\ In (j_alg j) signing /\ j_url j <> "" /\
  load_jwks (Some doc) j = Some (j', true) /\ keys j' = keys j /\ List.length doc = 1 /\
  map key_text (fst (load_told (Some doc) cause j)) =
    [says_fetched (j_name j) 1 (j_url j); says_parsed (j_name j) (j_alg j)] /\
  ~ warned (fst (load_told (Some doc) cause j)).
Proof.
  exists (None, ""), "", paid, [first_doc], in_use, broken_doc, "", (counted in_use).
  split; [exact in_use_reached|]. split; [now left|]. split; [discriminate|]. do 4 (split; [reflexivity|]).
  intros (l & H & W). cbn in H. destruct H as [<-|[<-|[]]]; discriminate W.
Qed.

(** * New keys *)

Lemma first_in_cut : forall alg kid k ks, first_entry alg kid k ks -> forall a rest, up_to_other alg ks a rest ->
  exists d, In d a /\ jk_kid d = kid /\ usable_entry alg d k.
Proof.
  intros alg kid k ks H. induction H as [d ks U K|d ks A N F IH]; intros a rest (E & H1 & H2).
  - destruct a as [|x a].
    + cbn [app] in E. subst rest. exfalso. apply H2. exact (proj1 U).
    + injection E as <- _. exists d. split; [now left|]. now split.
  - destruct a as [|x a].
    + cbn [app] in E. subst rest. exfalso. now apply H2.
    + injection E as <- E. destruct (IH a rest) as (y & Y & Q); [split; [exact E|split; [intros z Hz; apply H1; now right|exact H2]]|].
      exists y. split; [now right|exact Q].
Qed.

Lemma new_told : forall pem kid0 j0 docs j ks j' err a rest kid, reached pem kid0 j0 docs j -> In (j_alg j0) signing -> j_url j <> "" ->
  load_jwks (Some ks) j = Some (j', err) -> up_to_other (j_alg j0) ks a rest -> known j' kid -> ~ known j kid ->
  exists d k, In d a /\ jk_kid d = kid /\ usable_entry (j_alg j0) d k /\ find_key (keys j') kid = Some k.
Proof.
  intros pem kid0 j0 docs j ks j' err a rest kid R Sg Url H C Kn Nk.
  destruct (find_key (keys j') kid) as [k|] eqn:E; [|apply find_none_known in E; contradiction].
  pose proof (proj1 (load_exactly pem kid0 j0 docs j ks j' err R Sg Url H kid k) E) as [F|[_ F]].
  - exfalso. apply find_none_known in Nk. congruence.
  - destruct (first_in_cut _ _ _ _ F a rest C) as (d & D1 & D2 & D3). now exists d, k.
Qed.
