(** tls.go: what the report about the proxy's certificate chain says.

    Modelled is what is said about each certificate, in order.  The fixed words around it, the formatting
    of the date of issue and durafmt's rendering of durations are not. *)
From Coq Require Import String List Bool ZArith NArith.
From Verif Require Import GoStr Tls.
Import ListNotations.
Local Open Scope string_scope.

(** tls.go:27-29.  Hours() and the division by 24 are floating-point; the quotient is exact enough for
    durations in whole seconds, which is what certificates have, so this is the integer quotient. *)
Definition as_days (d : Z) : Z := Z.quot d day.

(** tls.go:141-152: the sentences about browsers *)
Inductive remark :=
| AboveMax (days max : Z)      (** Total validity period of ... days is above legal browser max ... *)
| Disruption (left : Z)        (** You may experience disruption in ... *)
| GraceExpired (since : Z).    (** Validity grace period expired ... ago, update now *)

Inductive kind :=
| Site (dns : list string) (issued : Z) (issuer : string) (marked : bool) (remarks : list remark)
| Authority (root : bool) (subject issuer : string).

(** One paragraph of the text: [i/n], the serial number, what is left of the validity. *)
Record entry := Entry { en_pos : nat; en_of : nat; en_serial : string; en_remaining : Z; en_kind : kind }.

(** tls.go:141-152 *)
Definition remarks_of (l : link) : list remark :=
  (if Z.ltb browser_expiry (lk_total l) then [AboveMax (as_days (lk_total l)) (as_days browser_expiry)] else []) ++
  [if Z.ltb 0 (lk_browser l) then Disruption (lk_browser l) else GraceExpired (lk_browser l)].

(** tls.go:131-168 for link [i] of [n]; [marked] is the addition of printRemainingValidity (45-51), which
    authorities do not get *)
Definition entry_of (n i : nat) (l : link) : option entry :=
  let c := lk_cert l in
  match format_serial (ct_serial c) with
  | None => None
  | Some serial =>
      Some (Entry (i + 1) n serial (lk_remaining l)
        (if negb (lk_ca l) then Site (ct_dns c) (ct_not_before c) (cn (ct_issuer c)) (lk_earliest l) (remarks_of l)
         else Authority (is_root c) (cn (ct_subject c)) (cn (ct_issuer c))))
  end.

(** The loop of tls.go:130-168 *)
Fixpoint entries (n i : nat) (links : list link) : option (list entry) :=
  match links with
  | [] => Some []
  | l :: links' =>
      match entry_of n i l, entries n (S i) links' with
      | Some e, Some es => Some (e :: es)
      | _, _ => None
      end
  end.

(** tls.go:125-182: the text, and the levels it is logged at; [None] is a panic *)
Definition report (links : list link) : option (list entry * list level) :=
  match entries (length links) 0 links with
  | None => None
  | Some es => Some (es, map (fun l => if Z.ltb (lk_remaining l) (30 * day) then Warn else Debug) (filter lk_earliest links))
  end.
