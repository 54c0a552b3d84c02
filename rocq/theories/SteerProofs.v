(** Lemmas for Thm_Steer. *)
From Coq Require Import String Ascii List Bool NArith.
From Verif Require Import GoStr RegexSpec Config Routing ConfigSpec ConfigProofs SteerSpec.
Import ListNotations.
Local Open Scope string_scope.

Lemma delim_dec : forall c, In c delims \/ ~ In c delims.
Proof. intros c. destruct (in_dec Ascii.ascii_dec c delims); [now left|now right]. Qed.

(** Every text is a part without delimiters and a rest. *)
Lemma authority_of : forall s, exists seg tail, s = seg ++ tail /\ no_chars delims seg /\ ends_authority tail.
Proof.
  induction s as [|c s [seg [tail [E [N T]]]]].
  - exists "", "". split; [reflexivity|]. split; [intros c _; reflexivity|now left].
  - destruct (delim_dec c) as [D|D].
    + exists "", (String c s). split; [reflexivity|]. split; [intros d _; reflexivity|]. right. exists c, s. split; [exact D|reflexivity].
    + exists (String c seg), tail. split; [cbn; now rewrite E|]. split; [|exact T]. intros d Hd. cbn [has_char].
      rewrite (N d Hd), orb_false_r. apply Ascii.eqb_neq. intros Q. apply D. rewrite <- Q. exact Hd.
Qed.

Lemma server_plain : forall u c, plain_server u -> In c ("@" :: delims)%char -> has_char c (server_of u) = false.
Proof.
  intros u c [Hs Hh] Hc. unfold server_of. rewrite !has_char_app, (Hh c Hc). cbn [has_char orb].
  destruct Hc as [<-|[<-|[<-|[<-|[]]]]]; cbn [orb Ascii.eqb]; rewrite no_char_itoa by reflexivity; reflexivity.
Qed.

Lemma at_in_app : forall a b user hp, has_char "@" a = false -> has_char "@" hp = false -> a ++ b = user ++ "@" ++ hp ->
  exists user', b = user' ++ "@" ++ hp.
Proof.
  induction a as [|c a IH]; intros b user hp Ha Hh E.
  - exists user. exact E.
  - destruct user as [|d user]; cbn [append] in E; injection E as E1 E2.
    + subst c. cbn [has_char] in Ha. rewrite Ascii.eqb_refl in Ha. discriminate.
    + cbn [has_char] in Ha. apply orb_false_iff in Ha. exact (IH b user hp (proj2 Ha) Hh E2).
Qed.

(** The host and port of a server's URL with text written behind it *)
Lemma host_port_glued : forall u seg tail hp, plain_server u -> no_chars delims seg -> ends_authority tail ->
  (host_port (url_string u ++ seg ++ tail) hp <-> renamed (server_of u) seg hp).
Proof.
  intros u seg tail hp Hu Ns Ht. assert (Hat := server_plain u "@" Hu (or_introl eq_refl)). unfold renamed. split.
  - intros (s & a & t & E & Hs & Ha & Hte & Hh & Hn).
    assert (E' : u_scheme u ++ "://" ++ (server_of u ++ seg) ++ tail = s ++ "://" ++ a ++ t).
    { rewrite <- E. unfold url_string, server_of. now rewrite !append_assoc. }
    change ("://" ++ (server_of u ++ seg) ++ tail) with (String ":" ("//" ++ (server_of u ++ seg) ++ tail)) in E'.
    change ("://" ++ a ++ t) with (String ":" ("//" ++ a ++ t)) in E'.
    destruct (split_first ":" _ _ _ _ E' (proj1 Hu) Hs) as [_ E2]. cbn [append] in E2. injection E2 as E2.
    assert (Na : no_chars delims (server_of u ++ seg)).
    { intros c Hc. rewrite has_char_app, (server_plain u c Hu (or_intror Hc)), (Ns c Hc). reflexivity. }
    destruct (auth_unique _ _ _ _ E2 Na Ha Ht Hte) as [E3 _]. destruct Hh as [Hh|[us Hh]].
    + left. rewrite <- Hh, <- E3 in *. rewrite has_char_app, Hat in Hn. split; [exact Hn|reflexivity].
    + right. split; [|exact Hn]. rewrite Hh in E3. exact (at_in_app _ _ _ _ Hat Hn E3).
  - intros H. exists (u_scheme u), (server_of u ++ seg), tail.
    split; [unfold url_string, server_of; now rewrite !append_assoc|]. split; [exact (proj1 Hu)|].
    split; [intros c Hc; rewrite has_char_app, (server_plain u c Hu (or_intror Hc)), (Ns c Hc); reflexivity|]. split; [exact Ht|].
    destruct H as [[H ->]|[[user ->] H]].
    + split; [now left|]. rewrite has_char_app, Hat, H. reflexivity.
    + split; [|exact H]. right. exists (server_of u ++ user). now rewrite append_assoc.
Qed.

Lemma app_cancel : forall p a b, p ++ a = p ++ b -> a = b.
Proof. induction p as [|c p IH]; intros a b E; [exact E|]. injection E as E. exact (IH a b E). Qed.

Lemma glued_unsafe : forall p uri seg, glued p uri seg -> ~ safe_removal p uri.
Proof.
  intros p uri seg [tail [E [N [D T]]]] H. specialize (H _ E). destruct seg as [|c seg]; [congruence|].
  destruct H as [H|[d [t [Hd H]]]]; [discriminate|]. cbn in H. injection H as -> _.
  specialize (D d Hd). cbn [has_char] in D. rewrite Ascii.eqb_refl in D. discriminate.
Qed.

Lemma removal_cases : forall p uri, safe_removal p uri \/ exists seg, glued p uri seg.
Proof.
  intros p uri. destruct (String.prefix p uri) eqn:F.
  - apply prefix_spec in F. destruct F as [rest ->]. destruct (authority_of rest) as [seg [tail [-> [N T]]]].
    destruct seg as [|c seg].
    + left. intros r E. apply app_cancel in E. subst r. exact T.
    + right. exists (String c seg), tail. split; [reflexivity|]. split; [discriminate|]. split; [exact N|exact T].
  - left. intros rest E. exfalso. assert (G : String.prefix p uri = true) by (apply prefix_spec; exists rest; exact E). congruence.
Qed.

Lemma steer_exactly : forall r u uri hp,
  plain_server u -> (exists x, uri = "/" ++ x) -> (exists x, r_path r = "/" ++ x) ->
  r_transform r = "" \/ (exists x, r_transform r = "/" ++ x) ->
  (host_port (resolve_upstream_uri r u uri) hp <->
   (hp = server_of u /\ (r_transform r = "/" -> safe_removal (r_path r) uri)) \/
   (r_transform r = "/" /\ exists seg, glued (r_path r) uri seg /\ renamed (server_of u) seg hp)).
Proof.
  intros r u uri hp Hu H1 H2 H3. destruct (String.eqb_spec (r_transform r) "/") as [E|E].
  - destruct (removal_cases (r_path r) uri) as [R|[seg G]].
    + rewrite (steer_partial r u uri hp Hu H1 H2 H3 (fun _ => R)). fold (server_of u). split.
      * intros ->. left. split; [reflexivity|intros _; exact R].
      * intros [[-> _]|[_ [seg [G _]]]]; [reflexivity|]. exfalso. exact (glued_unsafe _ _ _ G R).
    + pose proof (glued_unsafe _ _ _ G) as U. destruct G as [tail [Eu [N [D T]]]].
      assert (Er : resolve_upstream_uri r u uri = url_string u ++ seg ++ tail).
      { rewrite Eu. unfold resolve_upstream_uri. rewrite E. cbn [String.eqb Ascii.eqb Bool.eqb]. now rewrite replace_first_prefix. }
      rewrite Er, (host_port_glued u seg tail hp Hu D T). split.
      * intros H. right. split; [exact E|]. exists seg. split; [exists tail; repeat split; assumption|exact H].
      * intros [[_ H]|[_ [seg' [[tail' [Eu' [N' [D' T']]]] H]]]]; [exfalso; exact (U (H E))|].
        rewrite Eu in Eu'. apply app_cancel in Eu'. destruct (auth_unique _ _ _ _ Eu' D D' T T') as [-> _]. exact H.
  - rewrite (steer_partial r u uri hp Hu H1 H2 H3 (fun e => False_ind _ (E e))). fold (server_of u). split.
    + intros ->. left. split; [reflexivity|]. intros e. contradiction.
    + intros [[-> _]|[e _]]; [reflexivity|contradiction].
Qed.

Lemma steer_anywhere : forall r u hp, plain_server u -> (exists x, r_path r = "/" ++ x) -> r_transform r = "/" ->
  no_chars ("@" :: delims)%char hp -> host_port (resolve_upstream_uri r u (r_path r ++ "@" ++ hp ++ "/")) hp.
Proof.
  intros r u hp Hu [x Hx] Ht Nh. apply steer_exactly; [exact Hu| |exists x; exact Hx|right; exists ""; exact Ht|].
  - rewrite Hx. exists (x ++ "@" ++ hp ++ "/"). reflexivity.
  - right. split; [exact Ht|]. exists ("@" ++ hp). split.
    + exists "/". split; [now rewrite <- !append_assoc|]. split; [discriminate|]. split.
      * intros c Hc. cbn [append has_char]. rewrite (Nh c (or_intror Hc)), orb_false_r.
        destruct Hc as [<-|[<-|[<-|[]]]]; reflexivity.
      * right. exists "/"%char, "". split; [now left|reflexivity].
    + right. split; [exists ""; reflexivity|exact (Nh "@"%char (or_introl eq_refl))].
Qed.
