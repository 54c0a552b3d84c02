(** Lemmas for Thm_Confine. *)
From Coq Require Import String Ascii List Bool NArith.
From Verif Require Import GoStr Regex RegexSpec Config ConfigSpec ConfigProofs Routing Jwt JwtSpec Handler HandlerSpec HandlerProofs UrlProofs ConfineSpec.
Import ListNotations.
Local Open Scope string_scope.

Lemma simple_match : forall so srt cfg0 cfg r uri, in_use so srt cfg0 cfg -> simple_routes cfg0 -> In r (c_routes cfg) ->
  (match_uri r uri = true <-> exists t, uri = r_path r ++ t).
Proof.
  intros so srt cfg0 cfg r uri H Hs Hin. destruct (in_use_boot _ _ _ _ H) as [Hsrt [cfg1 [Hb [Hr _]]]].
  rewrite Hr in Hin. destruct (boot_routes_from _ _ _ _ _ Hsrt Hb r Hin) as [r0 [H0 Hbf]]. destruct (Hs r0 H0) as [Hl [_ Hsl]].
  rewrite (literal_route _ _ _ _ _ _ uri Hsrt Hb Hin r0 H0 Hbf Hl). destruct Hbf as [-> _].
  unfold slashed. apply prefix_spec in Hsl. destruct Hsl as [x Hx]. rewrite Hx. reflexivity.
Qed.

Lemma simple_path : forall so srt cfg0 cfg r, in_use so srt cfg0 cfg -> simple_routes cfg0 -> In r (c_routes cfg) ->
  has_char "%" (r_path r) = false /\ exists x, r_path r = "/" ++ x.
Proof.
  intros so srt cfg0 cfg r H Hs Hin. destruct (in_use_boot _ _ _ _ H) as [Hsrt [cfg1 [Hb [Hr _]]]].
  rewrite Hr in Hin. destruct (boot_routes_from _ _ _ _ _ Hsrt Hb r Hin) as [r0 [H0 Hbf]]. destruct (Hs r0 H0) as [_ [Hc Hsl]].
  destruct Hbf as [-> _]. unfold slashed. apply prefix_spec in Hsl. destruct Hsl as [x Hx]. rewrite Hx in *. split; [exact Hc|exists x; reflexivity].
Qed.

(** A route that matches an encoded URI matches the path. *)
Lemma raw_then_path : forall so srt cfg0 cfg raw path r, in_use so srt cfg0 cfg -> simple_routes cfg0 -> names_path raw path ->
  In r (c_routes cfg) -> match_uri r raw = true -> match_uri r path = true.
Proof.
  intros so srt cfg0 cfg raw path r H Hs N Hin M. apply (simple_match _ _ _ _ _ _ H Hs Hin).
  destruct N as [p [q [E [Hp [Hq [Hd D]]]]]]. destruct (in_use_boot _ _ _ _ H) as [Hsrt [cfg1 [Hb [Hr _]]]].
  assert (Hin' := Hin). rewrite Hr in Hin'. destruct (boot_routes_from _ _ _ _ _ Hsrt Hb r Hin') as [r0 [H0 Hbf]].
  destruct (Hs r0 H0) as [Hl [Hc Hsl]].
  apply (matched_path _ _ _ _ r r0 raw p q H Hin H0 Hbf Hl E Hq Hd) in M. destruct M as [t ->].
  rewrite decode_app in D by exact Hc. destruct (decode t) as [t'|]; [|discriminate D]. cbn in D. injection D as <-.
  exists t'. destruct Hbf as [-> _]. f_equal. unfold slashed. apply prefix_spec in Hsl. destruct Hsl as [x Hx]. rewrite Hx. reflexivity.
Qed.

Lemma find_subset : forall A (f g : A -> bool) l, (forall x, In x l -> f x = true -> g x = true) ->
  (List.find f l = List.find g l <-> forall x, List.find g l = Some x -> f x = true).
Proof.
  intros A f g l. induction l as [|a l IH]; intros H; cbn [List.find].
  - split; [intros _ x E; discriminate|reflexivity].
  - destruct (f a) eqn:F.
    + rewrite (H a (or_introl eq_refl) F). split; [intros _ x E; injection E as <-; exact F|reflexivity].
    + destruct (g a) eqn:G.
      * split; [intros E x Q; injection Q as <-; apply find_some in E; destruct E as [_ E]; exact E|].
        intros Q. specialize (Q a eq_refl). congruence.
      * apply IH. intros x Hx. apply H. now right.
Qed.

Lemma same_route_exactly : forall so srt cfg0 cfg raw path, in_use so srt cfg0 cfg -> simple_routes cfg0 -> names_path raw path ->
  (select_route (c_routes cfg) raw = select_route (c_routes cfg) path <->
   forall r, select_route (c_routes cfg) path = Some r -> exists t, raw = r_path r ++ t).
Proof.
  intros so srt cfg0 cfg raw path H Hs N. unfold select_route.
  rewrite (find_subset _ (fun r => match_uri r raw) (fun r => match_uri r path)).
  - split; intros Q r F; assert (Hin := F); apply find_some in Hin; destruct Hin as [Hin _]; specialize (Q r F);
      apply (simple_match _ _ _ _ _ _ H Hs Hin); exact Q.
  - intros r Hin M. exact (raw_then_path _ _ _ _ _ _ _ H Hs N Hin M).
Qed.

(** * Getting round all routes but the last *)

Lemma encoded_decodes : forall c s, decode (encoded c ++ s) = option_map (String c) (decode s).
Proof.
  intros c s. unfold encoded. cbn [append decode]. cbn [Ascii.eqb Bool.eqb].
  assert (A : (match digit (hex (N_of_ascii c / 16)), digit (hex (N_of_ascii c mod 16)) with
               | Some x, Some y => Ascii.eqb (ascii_of_N (16 * x + y)) c | _, _ => false end) = true).
  { apply (by_all (fun c => match digit (hex (N_of_ascii c / 16)), digit (hex (N_of_ascii c mod 16)) with
               | Some x, Some y => Ascii.eqb (ascii_of_N (16 * x + y)) c | _, _ => false end)). vm_compute. reflexivity. }
  destruct (digit (hex (N_of_ascii c / 16))) as [x|]; [|discriminate].
  destruct (digit (hex (N_of_ascii c mod 16))) as [y|]; [|discriminate]. apply Ascii.eqb_eq in A. rewrite A.
  destruct (decode s); reflexivity.
Qed.

Lemma encoded_no_question : forall c, has_char "?" (encoded c) = false.
Proof. intros c. apply negb_true_iff. apply (by_all (fun c => negb (has_char "?" (encoded c)))). vm_compute. reflexivity. Qed.

Lemma decode_plain : forall s, has_char "%" s = false -> decode s = Some s.
Proof.
  intros s H. rewrite <- (append_nil_r s) at 1. rewrite decode_app by exact H. cbn. now rewrite append_nil_r.
Qed.

Lemma round_all : forall so srt cfg0 cfg c rest r0, in_use so srt cfg0 cfg -> simple_routes cfg0 ->
  In r0 (c_routes cfg0) -> r_path r0 = "/" -> has_char "%" rest = false -> has_char "?" rest = false ->
  names_path ("/" ++ encoded c ++ rest) ("/" ++ String c rest) /\
  exists r, select_route (c_routes cfg) ("/" ++ encoded c ++ rest) = Some r /\ r_path r = "/".
Proof.
  intros so srt cfg0 cfg c rest r0 H Hs H0 P0 Np Nq. split.
  - exists ("/" ++ encoded c ++ rest), "". split; [now rewrite append_nil_r|]. split; [reflexivity|].
    split; [cbn [append has_char]; rewrite ?has_char_app, ?encoded_no_question, ?Nq; reflexivity|].
    split; [now left|]. change ("/" ++ encoded c ++ rest) with (String "/" (encoded c ++ rest)). cbn [decode].
    cbn [Ascii.eqb Bool.eqb]. rewrite encoded_decodes, decode_plain by exact Np. reflexivity.
  - destruct (in_use_boot _ _ _ _ H) as [Hsrt [cfg1 [Hb [Hr _]]]].
    destruct (boot_routes_all _ _ _ _ _ Hsrt Hb r0 H0) as [r [Hin Hbf]]. rewrite <- Hr in Hin.
    assert (Pr : r_path r = "/"). { destruct Hbf as [-> _]. rewrite P0. reflexivity. }
    unfold select_route. destruct (List.find (fun r1 => match_uri r1 ("/" ++ encoded c ++ rest)) (c_routes cfg)) as [r1|] eqn:F.
    + exists r1. split; [reflexivity|]. apply find_some in F. destruct F as [Hin1 M].
      apply (simple_match _ _ _ _ _ _ H Hs Hin1) in M. destruct M as [t E]. destruct (simple_path _ _ _ _ _ H Hs Hin1) as [Nc [x Px]].
      rewrite Px in *. destruct x as [|d x]; [reflexivity|]. exfalso. cbn [append] in E. unfold encoded in E. cbn [append] in E. injection E as <- _.
      cbn [append has_char] in Nc. discriminate Nc.
    + exfalso. assert (M := find_none _ _ F r Hin). cbv beta in M.
      rewrite (proj2 (simple_match _ _ _ _ r _ H Hs Hin)) in M; [discriminate|].
      exists (encoded c ++ rest). rewrite Pr. reflexivity.
Qed.
