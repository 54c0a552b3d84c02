(** Vocabulary for statements about the lines logged for responses. *)
From Coq Require Import String List Bool ZArith.
From Verif Require Import GoStr Header Exchange Jwt Machine MachineSpec Handler HandlerSpec SystemSpec AccessLog.
Import ListNotations.
Local Open Scope string_scope.

(** The lines logged while the request of [t], with [x], is served *)
Definition logs (t : setting) (x : wire) (es : list entry) : Prop :=
  match mux_serve (about_paths (Config.c_routes (t_cfg t))) (t_in t) with
  | TAbout => es = [about_entry (t_env t) x (ch_fresh (t_chance t)) (t_req t)]
  | TProxy =>
      match decide (t_env t) (t_lib t) (t_new t) (t_cfg t) (t_chance t) (t_req t) with
      | Refuse status message =>
          es = [refusal_entry (t_env t) x (t_req t) (parse_incoming (t_env t) (ch_fresh (t_chance t)) (t_req t)) status message]
      | Attempt c label => exists ls, lexec c label x (t_req t) linit (t_run t) = Some ls /\ es = ls_lines ls
      | Burst => es = []
      end
  | _ => es = []
  end.

(** Line [e] agrees with the request and with response [r]. *)
Record tells (t : setting) (x : wire) (r : response) (e : entry) : Prop := {
  e_status : l_status e = rp_status r;
  e_id_is : id_of t (l_id e);
  e_method : l_method e = to_upper (q_method (t_req t));
  e_path : l_path e = x_path x;
  e_http : l_http e = itoa_Z (x_major x) ++ "." ++ itoa_Z (x_minor x);
  e_agent : forall v vs, values "User-Agent" (q_header (t_req t)) = v :: vs -> v <> "" -> l_agent e = v;
  e_tls_is : (e_tls (t_env t) = true -> x_tls x = Some 771%Z -> l_tls e = Some "TLS1.2") /\
             (e_tls (t_env t) = true -> x_tls x = Some 772%Z -> l_tls e = Some "TLS1.3") /\
             (e_tls (t_env t) = false -> l_tls e = None);
  e_level : (l_warn e = true <-> (400 <= rp_status r)%Z) /\ (l_error e <> None <-> (400 <= rp_status r)%Z) }.

(** The run, if there is one, is over. *)
Definition over (t : setting) : Prop := forall c s, ran t c s -> finished s.
