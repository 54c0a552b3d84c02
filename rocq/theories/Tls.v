(** tls.go: the check of the proxy's own certificate chain.

    Not modelled: x509 parsing and verification, which are arguments, and the text of the log message
    other than the serial numbers (whose formatting can panic). *)
From Coq Require Import String Ascii List Bool ZArith NArith.
From Verif Require Import GoStr.
Import ListNotations.
Local Open Scope string_scope.

(** An X.509 name: its common name and everything else. *)
Record x509_name := Name { cn : string; other_attributes : string }.

(** x509.Certificate, as far as it is used.  Times are in nanoseconds. *)
Record cert := Cert {
  ct_serial : N; ct_ca : bool; ct_issuer : x509_name; ct_subject : x509_name; ct_dns : list string;
  ct_not_before : Z; ct_not_after : Z }.

(** * Serial numbers *)

Definition hex_digit (n : N) : ascii := ascii_of_N (if N.ltb n 10 then n + 48 else n + 55).

Fixpoint hex_loop (fuel : nat) (n : N) (acc : string) : string :=
  match fuel with
  | O => acc
  | S f => let acc' := String (hex_digit (n mod 16)) acc in if N.eqb (n / 16) 0 then acc' else hex_loop f (n / 16) acc'
  end.

(** fmt.Sprintf("%X", serial) for a serial number that is not negative, which x509 insists on *)
Definition hex (n : N) : string := hex_loop (S (N.size_nat n)) n "".

(** The loop of tls.go:114-119; [None] is the slice out of range for an odd number of digits. *)
Fixpoint dash (s : string) : option string :=
  match s with
  | "" => Some ""
  | String _ "" => None
  | String a (String b s') =>
      match s' with
      | "" => Some (String a (String b ""))
      | _ => match dash s' with Some t => Some (String a (String b (String "-" t))) | None => None end
      end
  end.

(** tls.go:107-123 *)
Definition format_serial (serial : N) : option string :=
  let h := hex serial in
  let h := if Nat.eqb (String.length h) 1 || Nat.eqb (String.length h) 31 then "0" ++ h else h in
  if Nat.ltb 2 (String.length h) then dash h else Some h.

(** * Links *)

(** tls.go:31-39.  [lk_browser] is the rest of the 398 days browsers grant. *)
Record link := Link { lk_cert : cert; lk_remaining : Z; lk_total : Z; lk_browser : Z; lk_earliest : bool; lk_ca : bool }.

(** time.Time.Sub, which is limited to the range of a duration *)
Definition time_sub (a b : Z) : Z := Z.max int64_min (Z.min int64_max (a - b)).

Definition day : Z := 86400000000000.

(** tls.go:41-43 *)
Definition browser_expiry : Z := 398 * day.

(** tls.go:190-198, at time [now] (each certificate asks for the time anew) *)
Definition new_link (cn : cert * Z) : link :=
  let (c, now) := cn in
  Link c (time_sub (ct_not_after c) now) (time_sub (ct_not_after c) (ct_not_before c))
    (time_sub (ct_not_before c + browser_expiry) now) false (ct_ca c).

(** The loop of tls.go:189-204: links so far, index of the earliest, its remaining validity. *)
Fixpoint scan_links (i : nat) (chain : list (cert * Z)) (links : list link) (si : nat) (earliest : Z) : list link * nat :=
  match chain with
  | [] => (links, si)
  | c :: chain' =>
      let l := new_link c in
      if Z.ltb (lk_remaining l) earliest then scan_links (S i) chain' (links ++ [l])%list i (lk_remaining l)
      else scan_links (S i) chain' (links ++ [l])%list si earliest
  end.

Fixpoint flag_nth (n : nat) (ls : list link) : option (list link) :=
  match ls, n with
  | [], _ => None
  | l :: ls', O => Some (Link (lk_cert l) (lk_remaining l) (lk_total l) (lk_browser l) true (lk_ca l) :: ls')
  | l :: ls', S n' => option_map (cons l) (flag_nth n' ls')
  end.

(** tls.go:184-207; [None] is the panic for an empty chain *)
Definition parse_tls_links (chain : list (cert * Z)) : option (list link) :=
  let (links, si) := scan_links 0 chain [] 0 int64_max in flag_nth si links.

(** * Trust *)

(** tls.go:227-230 *)
Definition is_root (c : cert) : bool := ct_ca c && String.eqb (cn (ct_issuer c)) (cn (ct_subject c)).

(** tls.go:209-225: intermediates and roots; [None] is the nil dereference for bytes that are no
    certificate.  Pools are lists without the removal of duplicates. *)
Fixpoint split_cert_pools (chain : list (option cert)) : option (list cert * list cert) :=
  match chain with
  | [] => Some ([], [])
  | None :: _ => None
  | Some c :: chain' =>
      match split_cert_pools chain' with
      | None => None
      | Some (inter, root) =>
          Some (if ct_ca c then if is_root c then (inter, c :: root) else (c :: inter, root) else (inter, root))
      end
  end.

(** tls.go:96-105: the options; no roots means those of the system *)
Record verify_options := VerifyOptions { vo_inter : option (list cert); vo_roots : option (list cert) }.
Definition verify_options_of (pools : list cert * list cert) : verify_options :=
  let opt l := match l with [] => None | _ => Some l end in
  VerifyOptions (opt (fst pools)) (opt (snd pools)).

(** * Checks *)

Inductive checked := Checked (links : list link) | Unverified | CheckPanic.

(** tls.go:76-94.  [verify] is x509.Certificate.Verify at the time of the call: the chains it finds, or
    [None] for an error.  [clock i] is the time when link [i] is made. *)
Definition check_cert_chain (verify : cert -> verify_options -> option (list (list cert))) (clock : nat -> Z) (chain : list (option cert)) : checked :=
  match chain with
  | [] | None :: _ => CheckPanic
  | Some leaf :: _ =>
      match split_cert_pools chain with
      | None => CheckPanic
      | Some pools =>
          match verify leaf (verify_options_of pools) with
          | None => Unverified
          | Some [] => match ct_dns leaf with [] => Unverified | _ => CheckPanic end
          | Some (found :: _) =>
              match ct_dns leaf with
              | [] => Unverified
              | _ => match parse_tls_links (combine found (map clock (seq 0 (length found)))) with
                     | Some links => Checked links
                     | None => CheckPanic
                     end
              end
          end
      end
  end.

Inductive level := Warn | Debug.

(** tls.go:125-182: the events logged; [None] is a panic while the text is built *)
Definition log_cert_stats (links : list link) : option (list level) :=
  if forallb (fun l => match format_serial (ct_serial (lk_cert l)) with Some _ => true | None => false end) links
  then Some (map (fun l => if Z.ltb (lk_remaining l) (30 * day) then Warn else Debug) (filter lk_earliest links))
  else None.

(** tls.go:53-74 as a daemon: the events of each day, given what checkCertChain says that day.  A panic
    ends it. *)
Fixpoint health_check (days : list checked) : list (list level) :=
  match days with
  | [] => []
  | d :: days' =>
      match d with
      | Checked links => match log_cert_stats links with Some e => e :: health_check days' | None => [] end
      | Unverified => [] :: health_check days'
      | CheckPanic => []
      end
  end.
