(** * SpecLinkText: vocabulary of C88 (the file of the link log)

    [one_cell] and [table_of] are in SpecAgentLog.v, [log_name] in SpecTraffic.v. *)

From Verif Require Import Base State Flee Api SpecAgents SpecHistory SpecTraffic Diagnostics Coupling AgentLog SpecAgentLog LinkLogText.
Local Open Scope string_scope.
Local Open Scope list_scope.

Definition link_headings : list string := ["#time"; "start_location"; "end_location"; "cum_num_agents"; "attribute"].

(** The last cell of a line *)
Definition attribute_cell (fl : Q -> string) (r : link_row) : string :=
  match lr_attribute r with
  | None => "total"
  | Some (a, v) => (a ++ ":" ++ val_text fl v)%string
  end.
Definition link_cells (fl : Q -> string) (r : link_row) : list string :=
  [str_of_Z (lr_time r); lr_start r; lr_end r; str_of_Z (lr_count r); attribute_cell fl r].

(** The texts of line [r] fit into cells. *)
Definition link_fits (fl : Q -> string) (r : link_row) : Prop :=
  one_cell (lr_start r) /\ one_cell (lr_end r) /\ forall a v, lr_attribute r = Some (a, v) -> one_cell a /\ one_cell (val_text fl v).

(** A name without a colon *)
Definition no_colon (s : string) : Prop := ~ In ":"%char (list_ascii_of_string s).

(** Both are integers, or both are texts. *)
Definition same_sort (v w : pyval) : Prop :=
  match v, w with
  | VInt _, VInt _ => True
  | VStr _, VStr _ => True
  | _, _ => False
  end.

(** The file with these lines *)
Definition link_file (fl : Q -> string) (rs : list link_row) : string := printed (link_header :: map (link_line fl) rs).

(** The lines of a table that begin with day [t] and end with [last] *)
Definition lines_of (t : Z) (last : string) (table : list (list string)) : list (list string) :=
  filter (fun c => match c with
                   | [d; _; _; _; x] => String.eqb d (str_of_Z t) && String.eqb x last
                   | _ => false
                   end)%bool table.

(** The line about the total of link number [ki], in state [e] *)
Definition total_line (S : settings) (e : eco) (t : Z) (ki : nat) (c : list string) : Prop :=
  exists k s d, nth_error (e_links e) ki = Some k /\
    nth_error (e_locations e) (k_startpoint k) = Some s /\ nth_error (e_locations e) (k_endpoint k) = Some d /\
    c = [str_of_Z t; log_name S s; log_name S d; str_of_Z (k_cumNumAgents k); "total"].

(** ** Sums *)

(** Every step is made with a link log at level 2. *)
Definition counted_well (h : history) : Prop := Forall (fun c => is_evolve (snd c) = true -> (1 < s_log_link (fst c))%Z) h.

(** The line is about a value of the attribute [s]. *)
Definition about (s : string) (r : link_row) : bool :=
  match lr_attribute r with Some (a, _) => String.eqb a s | None => false end.

(** The lines of a link: a total, and lines about the values of [s] that add up to it *)
Definition adds_up (s : string) (b : list link_row) : Prop :=
  exists total rest, b = total :: rest /\ lr_attribute total = None /\
    lr_count total = sumZ (map lr_count (filter (about s) rest)).
