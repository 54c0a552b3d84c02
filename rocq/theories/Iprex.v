(** iprex.go: finding a client address in a log message. *)
From Coq Require Import String Ascii List Bool NArith.
From Verif Require Import GoStr Regex.
Import ListNotations.
Local Open Scope string_scope.

(** iprex.go:23 *)
Definition pat_ipv6s : string := "([0-9a-fA-F]{1,4}:){1,4}(:[0-9a-fA-F]{1,4}){1,3}".

(** iprex.go:27 (the Go literal's [\\.] is the pattern [\.]) *)
Definition pat_ipv6 : string :=
  "(([0-9a-fA-F]{1,4}:){7,7}[0-9a-fA-F]{1,4}|([0-9a-fA-F]{1,4}:){1,7}:|([0-9a-fA-F]{1,4}:){1,6}:[0-9a-fA-F]{1,4}|([0-9a-fA-F]{1,4}:){1,5}(:[0-9a-fA-F]{1,4}){1,2}|([0-9a-fA-F]{1,4}:){1,4}(:[0-9a-fA-F]{1,4}){1,3}|([0-9a-fA-F]{1,4}:){1,3}(:[0-9a-fA-F]{1,4}){1,4}|([0-9a-fA-F]{1,4}:){1,2}(:[0-9a-fA-F]{1,4}){1,5}|[0-9a-fA-F]{1,4}:((:[0-9a-fA-F]{1,4}){1,6})|:((:[0-9a-fA-F]{1,4}){1,7}|:)|fe80:(:[0-9a-fA-F]{0,4}){0,4}%[0-9a-zA-Z]{1,}|::(ffff(:0{1,4}){0,1}:){0,1}((25[0-5]|(2[0-4]|1{0,1}[0-9]){0,1}[0-9])\.){3,3}(25[0-5]|(2[0-4]|1{0,1}[0-9]){0,1}[0-9])|([0-9a-fA-F]{1,4}:){1,4}:((25[0-5]|(2[0-4]|1{0,1}[0-9]){0,1}[0-9])\.){3,3}(25[0-5]|(2[0-4]|1{0,1}[0-9]){0,1}[0-9]))".

(** iprex.go:31 *)
Definition pat_ipv64e : string :=
  "(:{0,2})([0-9a-fA-F]{1,4}:){1,6}(:{0,1})((25[0-5]|(2[0-4]|1{0,1}[0-9]){0,1}[0-9])\.){3,3}(25[0-5]|(2[0-4]|1{0,1}[0-9]){0,1}[0-9])".

(** iprex.go:35 *)
Definition pat_ipv4 : string :=
  "((25[0-5]|(2[0-4]|1{0,1}[0-9]){0,1}[0-9])\.){3,3}(25[0-5]|(2[0-4]|1{0,1}[0-9]){0,1}[0-9])".

(** The Go code drops the compile error ([r, _ := regexp.Compile]); all four patterns compile (see
    [IprexProofs.patterns_compile]), so the default below is never used. *)
Definition compiled (p : string) : re :=
  match re_compile p with Some r => r | None => REps end.

Definition re_ipv6s : re := Eval vm_compute in compiled pat_ipv6s.
Definition re_ipv6 : re := Eval vm_compute in compiled pat_ipv6.
Definition re_ipv64e : re := Eval vm_compute in compiled pat_ipv64e.
Definition re_ipv4 : re := Eval vm_compute in compiled pat_ipv4.

(** iprex.go:20-58 *)
Definition extract_addr (msg : string) : string :=
  match find re_ipv64e msg with
  | Some a => a
  | None =>
      match find re_ipv6s msg with
      | Some a => a
      | None =>
          match find re_ipv6 msg with
          | Some a => a
          | None =>
              match find re_ipv4 msg with
              | Some a => a
              | None => "not found"
              end
          end
      end
  end.
