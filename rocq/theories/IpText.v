(** The text of a client's address, as net/http puts it into [Request.RemoteAddr] and into its log messages;
    this text is all iprex.go has to work with (proxy.go's request line and server.go's net logger hand it on). *)
From Coq Require Import String Ascii List Bool NArith Arith.
From Verif Require Import GoStr IprexSpec.
Import ListNotations.
Local Open Scope string_scope.

(** An IPv6 address is a list of eight numbers below 65536 ([net.IP] holds the same as sixteen bytes). *)

(** net/ip.go, [hexDigit] *)
Definition hex_char (n : N) : ascii :=
  match String.get (N.to_nat n) "0123456789abcdef" with Some c => c | None => "0"%char end.

(** net/parse.go, [appendHex]: no leading zeros, lower case *)
Definition hex_group (n : N) : string :=
  ((if (n <? 4096)%N then "" else String (hex_char (n / 4096)) "") ++
   (if (n <? 256)%N then "" else String (hex_char ((n / 256) mod 16)) "") ++
   (if (n <? 16)%N then "" else String (hex_char ((n / 16) mod 16)) "") ++
   String (hex_char (n mod 16)) "").

(** How many zeros the list begins with: the inner loop of [IP.String]. *)
Fixpoint zeros (gs : list N) : nat :=
  match gs with
  | g :: gs' => if (g =? 0)%N then S (zeros gs') else 0
  | [] => 0
  end.

(** net/ip.go, [IP.String], "Find longest run of zeros": the first of the longest runs, as start and length.
    The Go code goes on behind a run it takes; runs within that run are shorter, so this is the same. *)
Fixpoint best_run (i : nat) (gs : list N) (cur : nat * nat) : nat * nat :=
  match gs with
  | [] => cur
  | _ :: gs' => best_run (S i) gs' (if (snd cur <? zeros gs)%nat then (i, zeros gs) else cur)
  end.

(** net/ip.go, [IP.String], for addresses that are not IPv4: a run of two or more zeros becomes a double
    colon. *)
Definition ip_text (gs : list N) : string :=
  let '(s, l) := best_run 0 gs (0, 0) in
  if (l <=? 1)%nat then join ":" (map hex_group gs)
  else join ":" (map hex_group (firstn s gs)) ++ "::" ++ join ":" (map hex_group (skipn (s + l) gs)).

(** net/ip.go, [IP.To4]: the last two groups of an IPv4 address in IPv6 form. *)
Definition to4 (gs : list N) : option (N * N) :=
  match gs with
  | [0; 0; 0; 0; 0; 65535; x; y]%N => Some (x, y)
  | _ => None
  end.

(** net/ip.go, [IP.String] *)
Definition host_text (gs : list N) : string :=
  match to4 gs with
  | Some (x, y) => dotted (x / 256) (x mod 256) (y / 256) (y mod 256)
  | None => ip_text gs
  end.

(** net/tcpsock.go, [TCPAddr.String], and net/ipsock.go, [JoinHostPort]: brackets around a host with colons.
    Zones of link-local addresses are left out. *)
Definition remote_addr (gs : list N) (port : N) : string :=
  match to4 gs with
  | Some _ => host_text gs ++ ":" ++ itoa port
  | None => "[" ++ host_text gs ++ "]:" ++ itoa port
  end.
