(** Theorems about HEAD requests (C96), and the text of Content-Length (C30). *)
From Coq Require Import String List ZArith.
From Verif Require Import GoStr NumberSpec Header HeaderSpec Exchange ExchangeSpec Machine MachineSpec Handler HandlerSpec SystemSpec HeadSpec HeadProofs.
Import ListNotations.
Local Open Scope string_scope.

(** C30: the length is written as a decimal number. *)
Theorem C30_decimal : forall n, numeral (itoa_Z (Z.of_nat n)) (Z.of_nat n).
Proof. exact itoa_Z_numeral. Qed.
Print Assumptions C30_decimal.

Example C30_decimal_case : itoa_Z 1048576 = "1048576".
Proof. reflexivity. Qed.

(** C96 does not hold: for a client that takes gzip, nor for an upstream that does not declare lengths. *)
Theorem C96_refuted :
  (exists t t' r r' rs body, get_and_head t t' /\ relayed t r rs body /\ relayed t' r' rs "" /\ sized (t_req t) /\ timely_run t /\ timely_run t' /\
     ur_status rs = 200%Z /\ declares (ur_header rs) (String.length body) /\ gzip_client (t_req t) /\ ~ gzip_start body /\
     declares (rp_header r) 8 /\ declares (rp_header r') 5) /\
  (exists t t' r r' rs body, get_and_head t t' /\ relayed t r rs body /\ relayed t' r' rs "" /\ sized (t_req t) /\ timely_run t /\ timely_run t' /\
     ur_status rs = 200%Z /\ values "Content-Length" (ur_header rs) = [] /\ no_gzip_client (t_req t) /\ ~ gzip_start body /\
     declares (rp_header r) 5 /\ declares (rp_header r') 0).
Proof. exact head_differs. Qed.
Print Assumptions C96_refuted.

(** C96: if the upstream declares its lengths, the client of a HEAD request gets that number, and it is that
    of the GET request exactly if recoding kept the length. *)
Theorem C96_declared_partial : forall t t' r r' rs body body', get_and_head t t' -> relayed t r rs body -> relayed t' r' rs body' ->
  sized (t_req t) -> timely_run t -> timely_run t' -> canonical_keys (ur_header rs) ->
  ~ (400 <= ur_status rs < 500)%Z -> ur_status rs <> 204%Z -> ~ (100 <= ur_status rs < 200)%Z ->
  declares (ur_header rs) (String.length body) -> (Z.of_nat (String.length body) < 2 ^ 63)%Z ->
  declares (rp_header r') (String.length body) /\
  ((exists n, declares (rp_header r) n /\ declares (rp_header r') n) <-> String.length (rp_body r) = String.length body).
Proof. exact head_declared. Qed.
Print Assumptions C96_declared_partial.

(** C96: if it does not, the number is 0, and right for empty bodies only. *)
Theorem C96_undeclared_partial : forall t t' r r' rs body body', get_and_head t t' -> relayed t r rs body -> relayed t' r' rs body' ->
  sized (t_req t) -> timely_run t -> timely_run t' -> canonical_keys (ur_header rs) ->
  ~ (400 <= ur_status rs < 500)%Z -> ur_status rs <> 204%Z -> ~ (100 <= ur_status rs < 200)%Z ->
  values "Content-Length" (ur_header rs) = [] ->
  declares (rp_header r') 0 /\ ((exists n, declares (rp_header r) n /\ declares (rp_header r') n) <-> rp_body r = "").
Proof. exact head_undeclared. Qed.
Print Assumptions C96_undeclared_partial.

(** C96 for bodies that are not recoded *)
Theorem C96_kept_partial : forall t t' r r' rs body body', get_and_head t t' -> relayed t r rs body -> relayed t' r' rs body' ->
  sized (t_req t) -> timely_run t -> timely_run t' -> canonical_keys (ur_header rs) ->
  ~ (400 <= ur_status rs < 500)%Z -> ur_status rs <> 204%Z -> ~ (100 <= ur_status rs < 200)%Z ->
  declares (ur_header rs) (String.length body) -> (Z.of_nat (String.length body) < 2 ^ 63)%Z ->
  (no_gzip_client (t_req t) /\ ~ gzip_start body) \/ (gzip_client (t_req t) /\ gzip_start body) \/ body = "" ->
  exists n, declares (rp_header r) n /\ declares (rp_header r') n.
Proof. exact head_kept. Qed.
Print Assumptions C96_kept_partial.

Example C96_case : let t := asking "GET" [] sized_five "hello" 14 in let t' := asking "HEAD" [] sized_five "" 12 in
  exists r r', get_and_head t t' /\ relayed t r sized_five "hello" /\ relayed t' r' sized_five "" /\ sized (t_req t) /\ timely_run t /\ timely_run t' /\
    canonical_keys (ur_header sized_five) /\ declares (ur_header sized_five) 5 /\ no_gzip_client (t_req t) /\ ~ gzip_start "hello" /\
    declares (rp_header r) 5 /\ declares (rp_header r') 5.
Proof. exact head_case. Qed.
