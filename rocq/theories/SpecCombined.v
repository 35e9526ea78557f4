(** * SpecCombined: vocabulary of C89 (the combined output of several instances) *)

From Verif Require Import Base CombinedOutput.
Local Open Scope string_scope.
Local Open Scope list_scope.

(** A file with these columns, "Day" among them, and a number in each *)
Definition well_formed (cols : list string) (f : frame) : Prop :=
  f_columns f = cols /\ In "Day" cols /\ Forall (fun r => List.length r = List.length cols) (f_rows f).

(** [f] has the value [v] in column [c] in a line of day [d]. *)
Definition value_on (f : frame) (d : Q) (c : string) (v : Q) : Prop :=
  exists r d', In r (f_rows f) /\ cell f "Day" r = Some d' /\ (d' == d)%Q /\ cell f c r = Some v.

(** One line per day *)
Definition one_per_day (f : frame) : Prop :=
  forall d c v w, value_on f d c v -> value_on f d c w -> (v == w)%Q.

(** [m] is the mean of what the instances say of column [c] on day [d]. *)
Definition is_mean (fs : list frame) (d : Q) (c : string) (m : Q) : Prop :=
  exists vs, Forall2 (fun f v => value_on f d c v) fs vs /\
    (m * inject_Z (Z.of_nat (List.length vs)) == sumQ vs)%Q.

(** An instance: what it will have written in the end, and how many lines of it are there *)
Definition so_far (tk : frame * nat) : frame := Frame (f_columns (fst tk)) (firstn (snd tk) (f_rows (fst tk))).
