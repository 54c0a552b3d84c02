(** The text of a client's address with a zone, which net/http puts into [Request.RemoteAddr] for clients with
    link-local addresses; iprex.go:20-66 looks for an address in it. *)
From Coq Require Import String Ascii List NArith.
From Verif Require Import GoStr IpText.
Local Open Scope string_scope.

(** net/tcpsock.go, [TCPAddr.String], and net/ipsock.go, [JoinHostPort]: a zone that is not empty follows the
    address, and brackets are put around both.  The kernel reports no zone for IPv4 clients. *)
Definition zoned_addr (gs : list N) (zone : string) (port : N) : string :=
  if String.eqb zone "" then remote_addr gs port
  else "[" ++ (host_text gs ++ "%" ++ zone) ++ "]:" ++ itoa port.
