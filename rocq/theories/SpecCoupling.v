(** * SpecCoupling: words for statements about coupled simulations *)

From Verif Require Import Base State Flee Pflee ParApi SpecParallel Coupling.
Local Open Scope string_scope.
Local Open Scope list_scope.

(** Character [c] does not occur in [s]. *)
Definition free (c : ascii) (s : string) : Prop := ~ In c (list_ascii_of_string s).
(** A name that can be written into a table of names and numbers: not empty, no comment
    sign at its start, no comma and no end of line in it *)
Definition plain (n : string) : Prop :=
  free comma n /\ free newline n /\
  match n with EmptyString => False | String c _ => c <> "#"%char end.

(** The coupled locations were declared by calls of addCoupledLocation on ecosystem [e]
    (as addGhostLocations and addMicroConflictLocations do). *)
Inductive declared (e : eco) : coupling -> Prop :=
| declared_none : declared e no_coupling
| declared_more i name direction interval cp cp' : declared e cp ->
    add_coupled i name direction interval e cp = Ok cp' -> declared e cp'.

(** Location [i] is coupled under [name] with [direction]. *)
Definition coupled (cp : coupling) (i : nat) (name direction : string) : Prop :=
  exists k, nth_error (cp_ids cp) k = Some i /\ nth_error (cp_names cp) k = Some name /\
    nth_error (cp_directions cp) k = Some direction.

(** One of the words of the direction: [w] occurs in it *)
Definition says (w direction : string) : Prop :=
  exists a b, direction = (a ++ w ++ b)%string.

(** The simulation [e] sends [z] agents for the coupled location [name]: its head count *)
Definition sends (e : eco) (cp : coupling) (name : string) (z : Z) : Prop :=
  exists i direction l, coupled cp i name direction /\ says "out" direction /\
    nth_error (e_locations e) i = Some l /\ l_numAgents l = z.

(** A text that ends with an end of line, or is empty *)
Definition whole_lines (s : string) : Prop :=
  s = EmptyString \/ exists t, s = (t ++ String newline EmptyString)%string.

(** All numbers given for [name] in the tables [ds] *)
Definition given (name : string) (ds : list (list (string * Z))) : list Z :=
  flat_map (fun d => match dict_get name d with Some z => [z] | None => [] end) ds.

(** No name is used for two outgoing locations with different numbers. *)
Definition certain (e : eco) (cp : coupling) : Prop := forall n y z, sends e cp n y -> sends e cp n z -> y = z.

(** Lines that say nothing: empty ones, comments, and rows for names that are not coupled *)
Definition ignored (cp : coupling) (line : string) : Prop :=
  line = EmptyString \/ (exists t, line = String "#" t) \/ (exists n t, line = (n ++ String comma t)%string /\ free comma n /\ ~ In n (cp_names cp)).

(** A name that is not of the form the code uses for roads *)
Definition not_road (n : string) : Prop := forall t, n <> ("L:" ++ t)%string.

Definition average (zs : list Z) : Q :=
  (inject_Z (fold_right Z.add 0%Z zs) / inject_Z (Z.of_nat (List.length zs)))%Q.

(** The interval of the first coupled location counts for all; [time] is a multiple of it,
    or not. *)
Definition at_interval (time : Z) (cp : coupling) : Prop :=
  exists i, nth_error (cp_intervals cp) 0 = Some i /\ i <> 0%Z /\ (i | time)%Z.
Definition between_intervals (time : Z) (cp : coupling) : Prop :=
  exists i, nth_error (cp_intervals cp) 0 = Some i /\ i <> 0%Z /\ ~ (i | time)%Z.
