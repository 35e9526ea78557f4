(** * AgentLog: the text of agents.out (flee/Diagnostics.py 13-146)

    The lines are those of [Diagnostics]; here is how they are written.  [fl] is what
    Python prints for a float. *)

From Verif Require Import Base State Diagnostics Coupling.
Local Open Scope string_scope.

(** What [str.format] and [str] give for a bool, a list of integers and an attribute *)
Definition bool_text (b : bool) : string := if b then "True" else "False".
Fixpoint join (sep : string) (l : list string) : string :=
  match l with
  | [] => ""
  | [s] => s
  | s :: l' => s ++ sep ++ join sep l'
  end.
Definition val_text (fl : Q -> string) (v : pyval) : string :=
  match v with
  | VInt z => str_of_Z z
  | VFloat q => fl q
  | VStr s => s
  | VList l => "[" ++ join ", " (map str_of_Z l) ++ "]"
  end.

(** A text and a comma, for each of the texts (lines 24-28, 42-46) *)
Definition with_commas (l : list string) : string :=
  fold_right (fun s rest => s ++ String comma rest) "" l.
(** print_attribute_keys (lines 13-28), print_attribute_values (lines 31-46) *)
Definition attribute_keys (d : dict) : string := with_commas (map fst d).
Definition attribute_values (fl : Q -> string) (vs : list pyval) : string := with_commas (map (val_text fl) vs).

(** The header for attributes [d] (lines 72-76) *)
Definition log_header (d : dict) : string :=
  "#time,rank-agentid,original_location,current_location,gps_x,gps_y,is_travelling,distance_travelled,"
  ++ "places_travelled,distance_moved_this_timestep," ++ attribute_keys d.

(** One line (lines 99-115, 129-146, 158-174); a numbered extra line has the hop number
    after the time. *)
Definition log_line (fl : Q -> string) (rank : nat) (r : agent_row) : string :=
  (if (ar_hop r =? 0)%Z then str_of_Z (ar_time r) else str_of_Z (ar_time r) ++ "-" ++ str_of_Z (ar_hop r))
  ++ "," ++ (str_of_Z (Z.of_nat rank) ++ "-" ++ str_of_Z (Z.of_nat (ar_agent r)))
  ++ "," ++ ar_home r ++ "," ++ ar_loc r ++ "," ++ fl (ar_x r) ++ "," ++ fl (ar_y r)
  ++ "," ++ bool_text (ar_travelling r) ++ "," ++ fl (ar_distance_travelled r)
  ++ "," ++ str_of_Z (ar_places r) ++ "," ++ fl (ar_moved r) ++ "," ++ attribute_values fl (ar_attributes r).

(** A text and a newline, for each line ([print]) *)
Definition printed (lines : list string) : string :=
  fold_right (fun s rest => s ++ String newline rest) "" lines.

(** What write_agents_par (lines 69-174) makes of the file [old]: at time 0 the file starts
    with the header, made from the first agent. *)
Definition write_agents_text (fl : Q -> string) (rank : nat) (S : settings) (e : eco) (old : string) : res string :=
  head <- (if (e_time e =? 0)%Z then
             a <- of_option IndexError (nth_error (e_agents e) 0) ;; Ok (printed [log_header (a_attributes a)])
           else Ok old) ;;
  rows <- all_agent_rows S e (e_time e) 0 (e_agents e) ;;
  Ok (head ++ printed (map (log_line fl rank) rows)).
