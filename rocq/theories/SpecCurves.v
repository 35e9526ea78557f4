(** * SpecCurves: vocabulary for the pictures of a run *)

From Coq Require Import Qabs.
From Verif Require Import Base RunScript Validation SpecRun SpecValidation.
Local Open Scope string_scope.
Local Open Scope Q_scope.

(** The share of camp [i] of the simulated people in camps, applied to the total of the
    data and cut off to a whole number *)
Definition sim_Z (r : report) (i : nat) : Z := match nth_error (r_camps r) i with Some (s, _, _) => s | None => 0%Z end.
Definition whole_in (r : report) (i : nat) : Q :=
  if (0 <? r_in_camps r)%Z then inject_Z (Z.quot (sim_Z r i * r_data r) (r_in_camps r)) else 0.

(** The totals of a line are the sums over its camps, and no number is negative. *)
Definition totals_right (r : report) : Prop :=
  r_in_camps r = sumZ (map (fun x => fst (fst x)) (r_camps r)) /\ r_data r = sumZ (map (fun x => snd (fst x)) (r_camps r)) /\
  Forall (fun x => (0 <= fst (fst x))%Z /\ (0 <= snd (fst x))%Z) (r_camps r).

(** Names of camps for which plot_camps finds the columns: one word each, all different,
    none of them special *)
Definition plain_names (camps : list string) : Prop :=
  NoDup camps /\ Forall one_word camps /\ ~ In "Date" camps /\ ~ In "Total" camps.
