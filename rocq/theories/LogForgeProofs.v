(** A client writes any line it likes into a log in colour. *)
From Coq Require Import String Ascii List Bool ZArith NArith Lia.
From Verif Require Import GoStr Header HeaderSpec Json JsonSpec JsonProofs Kid KidSpec KidProofs Policy Config ConfigSpec ConfigProofs Routing Exchange ExchangeProofs Jwt JwtSpec JwtProofs JwtCases Machine MachineSpec MachineRaces
  Handler HandlerSpec HandlerProofs HandlerCases SystemSpec SystemCases AccessLog PrivacySpec PrivacyProofs TraceLog TraceLogSpec TraceLogProofs TraceLogCases LogText LogTextSpec LogTextProofs.
Import ListNotations.
Local Open Scope string_scope.

(** * base64url has digits for all bytes. *)

Definition six (a b c d e f : bool) : N := N.of_nat (fold_left (fun n (x : bool) => n * 2 + if x then 1 else 0) [a; b; c; d; e; f] 0).

Lemma six_bits : forall a b c d e f, bits 6 (six a b c d e f) = [a; b; c; d; e; f] /\ (six a b c d e f < 64)%N.
Proof. intros [] [] [] [] [] []; split; reflexivity. Qed.

Lemma sextets : forall n bs, (List.length bs <= n)%nat ->
  exists ns junk, Forall (fun n => n < 64)%N ns /\ (flat_map (bits 6) ns = bs ++ junk)%list /\ (List.length junk < 6)%nat.
Proof.
  induction n as [|n IH]; intros bs Hn.
  - destruct bs; [|cbn in Hn; lia]. exists [], []. split; [constructor|]. split; [reflexivity|cbn; lia].
  - destruct bs as [|a [|b [|c [|d [|e [|f bs]]]]]].
    + exists [], []. split; [constructor|]. split; [reflexivity|cbn; lia].
    + destruct (six_bits a false false false false false) as [E L]. exists [six a false false false false false], [false; false; false; false; false].
      split; [now constructor|]. cbn [flat_map]. rewrite E. split; [reflexivity|cbn; lia].
    + destruct (six_bits a b false false false false) as [E L]. exists [six a b false false false false], [false; false; false; false].
      split; [now constructor|]. cbn [flat_map]. rewrite E. split; [reflexivity|cbn; lia].
    + destruct (six_bits a b c false false false) as [E L]. exists [six a b c false false false], [false; false; false].
      split; [now constructor|]. cbn [flat_map]. rewrite E. split; [reflexivity|cbn; lia].
    + destruct (six_bits a b c d false false) as [E L]. exists [six a b c d false false], [false; false].
      split; [now constructor|]. cbn [flat_map]. rewrite E. split; [reflexivity|cbn; lia].
    + destruct (six_bits a b c d e false) as [E L]. exists [six a b c d e false], [false].
      split; [now constructor|]. cbn [flat_map]. rewrite E. split; [reflexivity|cbn; lia].
    + cbn [List.length] in Hn. destruct (IH bs ltac:(lia)) as (ns & junk & F & E & L). destruct (six_bits a b c d e f) as [E' L'].
      exists (six a b c d e f :: ns), junk. split; [now constructor|]. cbn [flat_map]. rewrite E', E. split; [reflexivity|exact L].
Qed.

(** Digits are neither blanks nor periods. *)
Definition fine_digit (c : ascii) : bool := negb (existsb (N.eqb (N_of_ascii c)) [10; 13; 32; 46]%N).

Lemma digit_there : forall n, (n < 64)%N -> exists c, String.get (N.to_nat n) alphabet = Some c /\ fine_digit c = true.
Proof.
  intros n H. assert (A : forallb (fun k => match String.get k alphabet with Some c => fine_digit c | None => false end) (seq 0 64) = true) by (vm_compute; reflexivity).
  rewrite forallb_forall in A. specialize (A (N.to_nat n)). destruct (String.get (N.to_nat n) alphabet) as [c|].
  - exists c. split; [reflexivity|]. apply A. apply in_seq. lia.
  - exfalso. assert (X : false = true) by (apply A; apply in_seq; lia). discriminate X.
Qed.

Lemma digits_there : forall ns, Forall (fun n => n < 64)%N ns ->
  exists cs, Forall2 (fun c n => String.get (N.to_nat n) alphabet = Some c) cs ns /\ Forall (fun c => fine_digit c = true) cs.
Proof.
  intros ns F. induction F as [|n ns H F (cs & A & B)]; [exists []; split; constructor|]. destruct (digit_there n H) as (c & C & D).
  exists (c :: cs). split; now constructor.
Qed.

Lemma encodes : forall bytes, exists digits, b64 digits bytes /\ Forall (fun c => fine_digit c = true) (list_ascii_of_string digits).
Proof.
  intros bytes. destruct (sextets _ (flat_map (bits 8) (map N_of_ascii (list_ascii_of_string bytes))) (le_n _)) as (ns & junk & F & E & L).
  destruct (digits_there ns F) as (cs & A & B). exists (string_of_list_ascii cs). rewrite list_ascii_of_string_of_list_ascii. split; [|exact B].
  exists ns, junk. rewrite list_ascii_of_string_of_list_ascii. now repeat split.
Qed.

Lemma fine_one_line : forall s, Forall (fun c => fine_digit c = true) (list_ascii_of_string s) -> on_one_line s = s.
Proof.
  induction s as [|c s IH]; intros F; [reflexivity|]. cbn [list_ascii_of_string] in F. inversion F as [|c' l H F']; subst. cbn [on_one_line].
  unfold fine_digit in H. cbn [existsb] in H. destruct (N.eqb (N_of_ascii c) 10), (N.eqb (N_of_ascii c) 13); try discriminate H. cbn [orb]. now rewrite IH.
Qed.

Lemma fine_dotless : forall s, Forall (fun c => fine_digit c = true) (list_ascii_of_string s) -> forall a b, s <> a ++ "." ++ b.
Proof.
  intros s F a b ->. induction a as [|c a IH]; cbn [append list_ascii_of_string] in F; inversion F as [|c' l H F']; subst; [discriminate H|]. now apply IH.
Qed.

Lemma fine_spaceless : forall s, Forall (fun c => fine_digit c = true) (list_ascii_of_string s) -> without " " s.
Proof.
  induction s as [|c s IH]; intros F; [exact I|]. cbn [list_ascii_of_string] in F. inversion F as [|c' l H F']; subst.
  split; [|now apply IH]. intros ->. discriminate H.
Qed.

(** * JSON has a text for all UTF-8. *)

Lemma hex_is : forall n, (n < 16)%N -> hex_digit_is (hex_digit n) n.
Proof.
  intros n H. assert (A : In n [0; 1; 2; 3; 4; 5; 6; 7; 8; 9; 10; 11; 12; 13; 14; 15]%N) by (cbn [In]; lia).
  cbn [In] in A. clear H. assert (D : (within 48 57 (hex_digit n) /\ N_of_ascii (hex_digit n) - 48 = n)%N \/ (within 97 102 (hex_digit n) /\ N_of_ascii (hex_digit n) - 87 = n)%N).
  { repeat (destruct A as [A|A]; [subst n; first [left; split; [split; discriminate|reflexivity] | right; split; [split; discriminate|reflexivity]]|]). destruct A. }
  destruct D as [[D E]|[D E]]; rewrite <- E at 2; [now apply hd_digit|now apply hd_lower].
Qed.

Lemma chars_there : forall s, utf8 s -> exists t, chars t s.
Proof.
  intros s U. assert (W : forall lo hi c, rng lo hi c = true -> within lo hi c).
  { intros lo hi c H. unfold rng, code_of in H. apply andb_true_iff in H. destruct H as [H1 H2]. apply N.leb_le in H1, H2. now split. }
  induction U as [|a s Ha U (t & C)|a b s Ha Hb U (t & C)|a b c s Hab Hc U (t & C)|a b c d s Hab Hc Hd U (t & C)].
  - exists "". constructor.
  - apply W in Ha. destruct (N.ltb_spec (N_of_ascii a) 32) as [L|L].
    + exists (("\u" ++ String "0" (String "0" (String (hex_digit (N_of_ascii a / 16)) (String (hex_digit (N_of_ascii a mod 16)) "")))) ++ t).
      change (String a s) with (String a "" ++ s). apply (ch_unicode _ (0 * 4096 + 0 * 256 + (N_of_ascii a / 16) * 16 + N_of_ascii a mod 16)%N).
      * apply ue; [apply (hex_is 0); lia|apply (hex_is 0); lia|apply hex_is|apply hex_is].
        -- apply N.div_lt_upper_bound; lia.
        -- apply N.mod_lt. lia.
      * replace (0 * 4096 + 0 * 256 + N_of_ascii a / 16 * 16 + N_of_ascii a mod 16)%N with (N_of_ascii a); [now constructor|].
        rewrite (N.div_mod (N_of_ascii a) 16) at 1 by lia. lia.
      * exact C.
    + destruct (Ascii.eqb_spec a """"%char) as [->|Q]; [exists (String "\" (String (ascii_of_N 34) t)); apply (ch_short 34 34); [cbn; tauto|exact C]|].
      destruct (Ascii.eqb_spec a "\"%char) as [->|B]; [exists (String "\" (String (ascii_of_N 92) t)); apply (ch_short 92 92); [cbn; tauto|exact C]|].
      exists (String a "" ++ t). change (String a s) with (String a "" ++ s). apply (ch_plain _ (N_of_ascii a)); [now constructor|exact L| | |exact C]; intros E; injection E as E; contradiction.
  - exists (String a (String b "") ++ t). change (String a (String b s)) with (String a (String b "") ++ s).
    eapply ch_plain; [apply cp_2; now apply W| |discriminate|discriminate|exact C]. apply W in Ha. unfold within in Ha. lia.
  - exists (String a (String b (String c "")) ++ t). change (String a (String b (String c s))) with (String a (String b (String c "")) ++ s).
    eapply ch_plain; [apply cp_3; [|now apply W]| |discriminate|discriminate|exact C].
    + destruct Hab as [[H1 H2]|[[[H1|H1] H2]|[H1 H2]]]; apply W in H1; apply W in H2; tauto.
    + destruct Hab as [[H1 H2]|[[[H1|H1] H2]|[H1 H2]]]; apply W in H1; apply W in H2; unfold within in *; lia.
  - exists (String a (String b (String c (String d ""))) ++ t). change (String a (String b (String c (String d s)))) with (String a (String b (String c (String d ""))) ++ s).
    eapply ch_plain; [apply cp_4; [|now apply W|now apply W]| |discriminate|discriminate|exact C].
    + destruct Hab as [[H1 H2]|[[H1 H2]|[H1 H2]]]; apply W in H1; apply W in H2; tauto.
    + destruct Hab as [[H1 H2]|[[H1 H2]|[H1 H2]]]; apply W in H1; apply W in H2; unfold within in *; lia.
Qed.

(** * A token for every kid *)

Lemma kid_chars : chars "kid" "kid".
Proof.
  apply (ch_plain "k" 107 "id" "id"); [apply (cp_1 "k"); split; discriminate|discriminate|discriminate|discriminate|].
  apply (ch_plain "i" 105 "d" "d"); [apply (cp_1 "i"); split; discriminate|discriminate|discriminate|discriminate|].
  apply (ch_plain "d" 100 "" ""); [apply (cp_1 "d"); split; discriminate|discriminate|discriminate|discriminate|]. constructor.
Qed.

Lemma token_there : forall k, utf8 k -> exists token, names_kid token k /\ without " " token.
Proof.
  intros k U. destruct (chars_there k U) as (t & C).
  set (text := "{" ++ "" ++ ("""" ++ "kid" ++ """" ++ "" ++ ":" ++ "" ++ ("""" ++ t ++ """") ++ "") ++ "}").
  destruct (encodes text) as (head & B & F). exists (head ++ "." ++ "e30.c2ln"). split.
  - exists head, text, [], []. split; [split; [now apply fine_dotless|right; now exists "e30.c2ln"]|]. rewrite (fine_one_line head F). split; [exact B|]. split; [|split].
    + exists "", text, "". split; [constructor|]. split; [constructor|]. split; [cbn [append]; now rewrite append_nil_r|].
      unfold text. apply v_object; [reflexivity|constructor|]. apply m_one; [exact kid_chars|constructor|constructor|now apply v_string|constructor].
    + constructor. intros k' v [E|[]]. injection E as <- <-. constructor.
    + intros v [].
  - apply fine_spaceless in F. induction head as [|c head IH]; [cbn; repeat split; discriminate|]. destruct F as [F1 F2]. split; [exact F1|].
    clear - F2. induction head as [|c head IH]; [cbn; repeat split; discriminate|]. destruct F2 as [F1 F2]. split; [exact F1|now apply IH].
Qed.

(** * A request with that token *)

(** All tokens are signed, none with a key that is known. *)
Definition wary : library := Library (fun _ => Some 1) (fun _ => Some no_dates) (fun _ _ _ => None).

Lemma wary_honest : honest wary.
Proof. intros alg k token c H. discriminate H. Qed.

Definition stranger (token : string) : setting := Setting toy wary always live chance0 (t_in (secret_visit token "id=1" "xyz")) [].

Lemma stranger_routed : forall token, exists r, routed (stranger token) r /\ r_path r = "/admin" /\ r_jwt r = "auth".
Proof. intros token. exact (secret_routed token "id=1" "xyz"). Qed.

Lemma stranger_auth : forall token, get "Authorization" (q_header (t_req (stranger token))) = "Bearer " ++ token.
Proof. reflexivity. Qed.

Lemma stranger_refused : forall token, without " " token -> answered_with (stranger token) 401.
Proof.
  intros token W. destruct (stranger_routed token) as (r & (P & V & R) & _ & J).
  assert (B := bearer_of token W).
  apply (not_admitted_401 key_source isort_routes site live toy wary always chance0 (t_in (stranger token)) r live_in_use wary_honest P V R).
  - intros t _. discriminate.
  - change (get _ _) with ("Bearer " ++ token). intros [N|(j & L & A)]; [rewrite J in N; discriminate N|].
    assert (G : In (j_alg j) signing). { rewrite J in L. vm_compute in L. injection L as <-. vm_compute. tauto. }
    destruct (valid_usable wary (ch_now chance0) j _ token B G A) as (kid & k & c & _ & X). discriminate X.
Qed.

Lemma stranger_trace : forall token, without " " token -> exists ls, traces (stranger token) at_admin ls.
Proof.
  intros token W. destruct (stranger_refused token W) as (r & E & _). eexists. eexists. split; [reflexivity|].
  change (mux_serve (about_paths (Config.c_routes (t_cfg (stranger token)))) (t_in (stranger token))) with TProxy.
  cbv iota zeta. rewrite E. reflexivity.
Qed.

Lemma stranger_rotation : forall token k ls, without " " token -> names_kid token k -> k <> "" -> k <> "k1" -> traces (stranger token) at_admin ls ->
  In (TRotate "/admin" "auth" k) (events ls).
Proof.
  intros token k ls W N K1 K2 T. destruct (stranger_routed token) as (r & R & P & J).
  apply (traced_rotation key_source isort_routes site (stranger token) at_admin ls ("Bearer " ++ token) "/admin" "auth" k T (secret_sized token "id=1" "xyz") live_in_use eq_refl).
  exists r, rs256. eexists. exists token, 0. split; [exact R|]. split; [rewrite J; discriminate|]. split; [now symmetry|]. split; [now symmetry|].
  split; [reflexivity|]. split; [vm_compute; tauto|]. split; [discriminate|]. split; [vm_compute; reflexivity|]. split; [now apply bearer_of|]. split; [reflexivity|].
  split; [exact K1|]. split; [exact N|]. intros (key & I). vm_compute in I. repeat (destruct I as [I|I]; [injection I as I; congruence|]). exact I.
Qed.

(** * The line *)

Lemma rotate_read : forall srv time p n id k, time_text time -> utf8 (v_message (rotate_event p n id k)) ->
  exists ms, read_line (log_text srv time (rotate_event p n id k)) = Some ms /\ console_message ms = v_message (rotate_event p n id k).
Proof.
  intros srv time p n id k T U. destruct (event_read srv time (rotate_event p n id k) T) as (ms & R & G).
  { cbn [rotate_event v_fields]. repeat (apply Forall_cons || apply Forall_nil); (split; [repeat (apply utf8_1; [reflexivity|]); apply utf8_nil|exact I]). }
  exists ms. split; [exact R|]. apply message_read; [|exact U]. apply (read_says _ _ _ _ G). reflexivity.
Qed.

Lemma utf8_app : forall a b, utf8 a -> utf8 b -> utf8 (a ++ b).
Proof. intros a b A B. induction A; cbn [append]; [exact B|..]; constructor; assumption. Qed.

(** Whatever the line [l], there is a request, refused with 401, by which it gets into the log. *)
Lemma forged : forall l, utf8 l -> exists t x ls id p n k, in_use key_source isort_routes site (t_cfg t) /\ honest (t_lib t) /\ answered_with t 401 /\
  traces t x ls /\ In (TLine id (TRotate p n k)) ls /\
  forall srv time q head, time_text time -> exists ms, read_line (log_text srv time (rotate_event p n id k)) = Some ms /\ line_of l (console_text q head ms).
Proof.
  intros l U. set (nl := String (ascii_of_N 10) ""). set (k := nl ++ l ++ nl).
  assert (V : utf8 k) by (apply utf8_app; [apply utf8_1; [reflexivity|constructor]|apply utf8_app; [exact U|apply utf8_1; [reflexivity|constructor]]]).
  destruct (token_there k V) as (token & N & W). destruct (stranger_trace token W) as (ls & T).
  assert (R : In (TRotate "/admin" "auth" k) (events ls)) by (apply (stranger_rotation token k ls W N); [discriminate|discriminate|exact T]).
  unfold events in R. apply in_map_iff in R. destruct R as ([id e] & E & R). cbn [tl_event] in E. subst e.
  exists (stranger token), at_admin, ls, id, "/admin", "auth", k. split; [exact live_in_use|]. split; [exact wary_honest|]. split; [now apply stranger_refused|]. split; [exact T|].
  split; [exact R|]. intros srv time q head TT.
  assert (M : utf8 (v_message (rotate_event "/admin" "auth" id k))).
  { cbn [rotate_event v_message]. apply utf8_app; [|apply utf8_app; [exact V|]]; repeat (apply utf8_1; [reflexivity|]); apply utf8_nil. }
  destruct (rotate_read srv time "/admin" "auth" id k TT M) as (ms & RD & CM). exists ms. split; [exact RD|]. unfold console_text. rewrite CM. cbn [rotate_event v_message].
  match goal with |- line_of l (head ++ (?a ++ k ++ ?b) ++ ?c) => exists (head ++ a ++ nl), (b ++ c); split end.
  - unfold k, nl. rewrite !append_assoc. cbn [append]. reflexivity.
  - right. match goal with |- context [head ++ ?a ++ nl] => exists (head ++ a) end. unfold nl. now rewrite append_assoc.
Qed.
