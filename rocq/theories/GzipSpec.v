(** What compressing and decompressing alone gives. *)
From Coq Require Import String List.
From Verif Require Import Gzip.
Import ListNotations.
Local Open Scope string_scope.

(** All a compressor emits for an input, from some state on, until it is closed *)
Inductive emits {Z} (write : Z -> Ascii.ascii -> Z * string) (close : Z -> Z * string) : Z -> string -> string -> Prop :=
| em_end : forall st st' out, close st = (st', out) -> emits write close st "" out
| em_byte : forall st x rest st' out outs, write st x = (st', out) -> emits write close st' rest outs ->
    emits write close st (String x rest) (out ++ outs).

(** All a decompressor yields from some state on *)
Inductive yields {U} (read : U -> option (string * U)) : U -> string -> Prop :=
| yi_end : forall u, read u = None -> yields read u ""
| yi_more : forall u out u' outs, read u = Some (out, u') -> yields read u' outs -> yields read u (out ++ outs).

(** The inputs of the calls of a history, in order *)
Definition zip_inputs (ls : list glabel) : list string :=
  flat_map (fun l => match l with CallGzip s => [s] | _ => [] end) ls.
Definition unzip_inputs (ls : list glabel) : list string :=
  flat_map (fun l => match l with CallGunzip s => [s] | _ => [] end) ls.
