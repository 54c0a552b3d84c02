(** What it means for the report about a chain to be right (C86).  Times are in nanoseconds. *)
From Coq Require Import String List Bool ZArith NArith.
From Verif Require Import GoStr Tls TlsSpec TlsReport.
Import ListNotations.
Local Open Scope Z_scope.

Definition one_day : Z := 24 * 3600 * 1000000000.
Definition browser_limit : Z := 398 * one_day.

(** Durations are limited to 292 years. *)
Definition in_range (d : Z) : Prop := - 2 ^ 63 <= d < 2 ^ 63.

(** [e] is the paragraph about certificate [i] of [chain], which is [c], looked at at time [now]. *)
Definition about (chain : list (cert * Z)) (i : nat) (c : cert) (now : Z) (e : entry) : Prop :=
  exists links es levels, parse_tls_links chain = Some links /\ report links = Some (es, levels) /\
    nth_error chain i = Some (c, now) /\ nth_error es i = Some e.

Definition said (e : entry) (r : remark) : Prop :=
  match en_kind e with Site _ _ _ _ rs => In r rs | Authority _ _ _ => False end.

(** The paragraph says that its certificate is the earliest in the chain. *)
Definition called_earliest (e : entry) : Prop :=
  match en_kind e with Site _ _ _ m _ => m = true | Authority _ _ _ => False end.

(** The certificate is valid for longer than browsers accept. *)
Definition too_long (c : cert) : Prop := browser_limit < ct_not_after c - ct_not_before c.

(** When browsers stop to accept it. *)
Definition disrupted_at (c : cert) : Z := Z.min (ct_not_after c) (ct_not_before c + browser_limit).
