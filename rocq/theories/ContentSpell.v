(** Codings are compared without regard to case (RFC 7231, section 3.1.2.1). *)
From Coq Require Import String Ascii List Bool ZArith Lia.
From Verif Require Import GoStr Header HeaderSpec TextSpec TextProofs Exchange ExchangeSpec ExchangeProofs Machine MachineSpec Handler HandlerSpec SystemSpec SystemProofs
  Url UrlSpec UrlProofs UrlCases ConformCases Wire WireSpec WireProofs WireCases ContentSpec ContentProofs ContentWire.
Import ListNotations.
Local Open Scope string_scope.

Lemma delivered_spelled : forall dec t r rs body x g, delivered dec t r rs body -> sized (t_req t) -> canonical_keys (q_header (t_req t)) -> timely_run t ->
  codec (t_env t) dec -> canonical_keys (ur_header rs) -> ~ (400 <= ur_status rs < 500)%Z ->
  values "Content-Encoding" (ur_header rs) = [g] -> same_letters g "gzip" -> dec "gzip" body = Some x -> open_to_gzip t ->
  (content_of dec (values "Content-Encoding" (rp_header r)) (rp_body r) = Some x <-> ~ gzip_start x \/ e_gunzip (t_env t) x = x).
Proof.
  intros dec t r rs body x g (y & rs' & body' & Ha & Ht & Hr) Hq Hc Htime Hcd Hcan H4 Hg Hl Hx Op.
  assert (O := open_iff t y Ha Hq Hc). unfold taken in Ht. unfold get in Ht.
  change (canon content_encoding_key) with "Content-Encoding" in Ht. rewrite Hg in Ht. apply equal_fold_iff in Hl. rewrite Hl, (proj2 O Op), Hx in Ht. cbn [andb] in Ht.
  destruct (String.eqb_spec body "") as [E|_].
  { destruct (proj2 (proj2 Hcd) body x Hx) as [u F]. rewrite E in F. discriminate F. }
  cbn [negb] in Ht. injection Ht as <- <-.
  set (h := filter (fun p => negb (existsb (String.eqb (fst p)) [content_encoding_key; content_length_key])) (ur_header rs)) in *.
  assert (V : values "Content-Encoding" h = []) by apply taken_without.
  assert (K := relayed_kept t dec r (UpResp (ur_status rs) h) x x Hr Hq Htime Hcd). cbn [ur_header ur_status] in K. rewrite V in K.
  assert (Hn := open_takes_not t Op). rewrite K; [|intros k v Hin; apply filter_In in Hin; exact (Hcan k v (proj1 Hin))|exact H4|reflexivity].
  unfold kept_content. split.
  - intros [->|[(F & _)|[(F & _)|[(_ & F)|[(_ & _ & _ & F)|(_ & _ & F1 & F2)]]]]]; try contradiction.
    + left. intros [u F]. discriminate F.
    + now left.
    + right. now symmetry.
    + right. injection F2 as <-. exact F1.
  - intros [F|F]; [right; right; right; left; now split|].
    destruct (is_gzip x) eqn:Eg; [apply is_gzip_iff in Eg|apply is_gzip_not in Eg; right; right; right; left; now split].
    destruct (String.eqb_spec x "") as [Ex|Ex]; [now left|]. right. right. right. right. left. split; [exact Hn|]. split; [exact Eg|].
    split; [now rewrite F|now symmetry].
Qed.

(** The answer of WireCases with the coding in capitals *)
Definition shouted : up_response := UpResp 200 [("Content-Encoding", "GZip"); ("Content-Type", "application/gzip")].

Lemma shouted_plain : exists r, delivered toy_dec fetch_plain r shouted (packed (packed "abcd")).
Proof.
  destruct archive_plain as (r & (x & rs' & body' & H1 & H2 & H3) & _). exists r, x, rs', body'. split; [exact H1|]. split; [|exact H3].
  rewrite <- H2. unfold taken. change (equal_fold (get content_encoding_key (ur_header shouted)) "gzip") with true.
  change (equal_fold (get content_encoding_key (ur_header archive_answer)) "gzip") with true.
  destruct (asks_gzip x) eqn:A; [reflexivity|exfalso].
  assert (Op : open_to_gzip fetch_plain) by (split; [exact I|split; [exact I|discriminate]]).
  enough (F : asks_gzip x = true) by congruence.
  apply (open_iff fetch_plain x H1); [apply fetch_sized| |exact Op]. intros k v [].
Qed.
