(** * LinkLogText: the text of links.out (flee/Diagnostics.py 197-303)

    The lines are those of [Diagnostics]; here is how they are written.  [fl] is what
    Python prints for a float; [printed] and [val_text] are in AgentLog.v. *)

From Verif Require Import Base State Diagnostics Coupling AgentLog.
Local Open Scope string_scope.

(** The heading (lines 219-222) *)
Definition link_header : string := "#time,start_location,end_location,cum_num_agents,attribute".

(** One line: the total (lines 233-241, 264-272) or the count for a value of an attribute
    (lines 243-256, 274-287) *)
Definition link_line (fl : Q -> string) (r : link_row) : string :=
  str_of_Z (lr_time r) ++ "," ++ lr_start r ++ "," ++ lr_end r ++ "," ++ str_of_Z (lr_count r) ++ "," ++
  match lr_attribute r with
  | None => "total"
  | Some (a, v) => a ++ ":" ++ val_text fl v
  end.

(** What write_links_par makes of the file [old] (lines 216-287): at time 0 the file is
    opened anew and starts with the heading.  [timestep_interval] is 1 in every call
    (line 303). *)
Definition write_links_text (fl : Q -> string) (S : settings) (e : eco) (old : string) : res string :=
  let head := if (e_time e =? 0)%Z then printed [link_header] else old in
  rows <- mapM (link_rows S e (e_time e)) (flat_map l_links (e_locations e)) ;;
  Ok (head ++ printed (map (link_line fl) (List.concat rows))).
