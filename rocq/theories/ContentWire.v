(** The same on the wire, and cases for Thm_Content. *)
From Coq Require Import String Ascii List Bool ZArith Lia.
From Verif Require Import GoStr Header HeaderSpec Exchange ExchangeSpec ExchangeProofs Machine MachineSpec Handler HandlerSpec SystemSpec SystemProofs
  Url UrlSpec UrlProofs UrlCases Wire WireSpec WireProofs WireCases ContentSpec ContentProofs.
Import ListNotations.
Local Open Scope string_scope.

Lemma open_takes_not : forall t, open_to_gzip t -> ~ takes_gzip (t_req t).
Proof.
  intros t (H & _) (v & vs & E & C). unfold no_value in H. rewrite E in H. subst v. discriminate C.
Qed.

Lemma delivered_exactly : forall dec t r rs body x, delivered dec t r rs body -> sized (t_req t) -> canonical_keys (q_header (t_req t)) -> timely_run t ->
  codec (t_env t) dec -> canonical_keys (ur_header rs) -> ~ (400 <= ur_status rs < 500)%Z ->
  let ce := values "Content-Encoding" (ur_header rs) in
  let got := content_of dec (values "Content-Encoding" (rp_header r)) (rp_body r) in content_of dec ce body = Some x ->
  (ce = ["gzip"] -> open_to_gzip t -> (got = Some x <-> ~ gzip_start x \/ e_gunzip (t_env t) x = x)) /\
  (ce = [] \/ ce = ["identity"] \/ ~ open_to_gzip t -> (got = Some x <-> kept_content dec (e_gunzip (t_env t)) (t_req t) ce body x)).
Proof.
  intros dec t r rs body x (y & rs' & body' & Ha & Ht & Hr) Hq Hc Htime Hcd Hcan H4 ce got Hx.
  assert (O := open_iff t y Ha Hq Hc). unfold taken in Ht.
  assert (Gz : dec "gzip" body <> None -> gzip_start body) by (intros N; destruct (dec "gzip" body) as [s|] eqn:E; [exact (proj2 (proj2 Hcd) body s E)|contradiction]).
  unfold get in Ht. change (canon content_encoding_key) with "Content-Encoding" in Ht. change (values "Content-Encoding" (ur_header rs)) with ce in Ht.
  destruct (asks_gzip y && _ && negb (String.eqb body "")) eqn:B.
  - apply andb_prop in B. destruct B as [B Bb]. apply andb_prop in B. destruct B as [Bo Bg].
    destruct (dec "gzip" body) as [s|] eqn:Ed; [|discriminate Ht]. injection Ht as <- <-. assert (Op : open_to_gzip t) by now apply O. split.
    + intros E _. rewrite E in Hx. cbn [content_of] in Hx. change (String.eqb "gzip" "identity") with false in Hx. cbn iota in Hx. rewrite Ed in Hx. injection Hx as ->.
      set (h := filter (fun p => negb (existsb (String.eqb (fst p)) [content_encoding_key; content_length_key])) (ur_header rs)) in *.
      assert (V : values "Content-Encoding" h = []) by apply taken_without.
      assert (K := relayed_kept t dec r (UpResp (ur_status rs) h) x x Hr Hq Htime Hcd). cbn [ur_header ur_status] in K. rewrite V in K.
      assert (Hn := open_takes_not t Op). unfold got. rewrite K; [|intros k v Hin; apply filter_In in Hin; exact (Hcan k v (proj1 Hin))|exact H4|reflexivity].
      unfold kept_content. split.
      * intros [->|[(F & _)|[(F & _)|[(_ & F)|[(_ & _ & _ & F)|(_ & _ & F1 & F2)]]]]]; try contradiction.
        -- left. intros [u F]. discriminate F.
        -- now left.
        -- right. now symmetry.
        -- right. injection F2 as <-. exact F1.
      * intros [F|F]; [right; right; right; left; now split|].
        destruct (is_gzip x) eqn:Eg; [apply is_gzip_iff in Eg|apply is_gzip_not in Eg; right; right; right; left; now split].
        destruct (String.eqb_spec x "") as [Ex|Ex]; [now left|]. right. right. right. right. left. split; [exact Hn|]. split; [exact Eg|].
        split; [now rewrite F|now symmetry].
    + intros [E|[E|E]]; [rewrite E in Bg; discriminate Bg|rewrite E in Bg; discriminate Bg|contradiction].
  - injection Ht as <- <-. split.
    + intros E Op. exfalso. apply O in Op. rewrite E, Op in B. change (equal_fold "gzip" "gzip") with true in B. cbn [andb] in B.
      apply negb_false_iff, String.eqb_eq in B. rewrite E in Hx. cbn [content_of] in Hx. change (String.eqb "gzip" "identity") with false in Hx. cbn iota in Hx.
      destruct Gz as [u G]; [rewrite Hx; discriminate|]. rewrite B in G. discriminate G.
    + intros _. exact (relayed_kept t dec r rs body x Hr Hq Htime Hcd Hcan H4 Hx).
Qed.

Lemma zip_relayed : exists r, relayed fetch_zip r archive_answer (packed (packed "abcd")).
Proof.
  destruct (got_content fetch_zip archive_answer (packed (packed "abcd")) 200%Z (Some (packed "abcd"))) as (r & x & _ & Hr & _).
  - vm_compute. reflexivity.
  - vm_compute. reflexivity.
  - right. left. reflexivity.
  - do 8 right. left. reflexivity.
  - intro H. repeat (destruct H as [H|H]; [discriminate H|]). destruct H.
  - now exists r.
Qed.

Lemma plain_relayed : exists r, relayed fetch_plain r archive_taken (packed "abcd").
Proof.
  destruct (got_content fetch_plain archive_taken (packed "abcd") 200%Z (Some "abcd")) as (r & x & _ & Hr & _).
  - vm_compute. reflexivity.
  - vm_compute. reflexivity.
  - right. left. reflexivity.
  - do 8 right. left. reflexivity.
  - intro H. repeat (destruct H as [H|H]; [discriminate H|]). destruct H.
  - now exists r.
Qed.

Lemma zip_kept : kept_content toy_dec (e_gunzip (t_env fetch_zip)) (t_req fetch_zip) ["gzip"] (packed (packed "abcd")) (packed "abcd").
Proof.
  right. left. split; [eexists; eexists; split; [reflexivity|reflexivity]|]. split; [apply is_gzip_iff; reflexivity|reflexivity].
Qed.

Lemma plain_not_kept : ~ kept_content toy_dec (e_gunzip (t_env fetch_plain)) (t_req fetch_plain) [] (packed "abcd") (packed "abcd").
Proof.
  intros [F|[((v & vs & F & _) & _)|[((v & vs & F & _) & _)|[(_ & F)|[(_ & _ & _ & F)|(_ & _ & F & _)]]]]]; try discriminate F.
  apply F. apply is_gzip_iff. reflexivity.
Qed.
