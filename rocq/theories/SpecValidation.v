(** * SpecValidation: vocabulary for the report that compares a simulation with the data *)

From Coq Require Import Qabs.
From Verif Require Import Base AgentLog Analysis RunScript Validation SpecRun SpecCoupling.
Local Open Scope string_scope.
Local Open Scope Q_scope.

(** A name made of words with one space between two of them, that does not say " sim" or
    "numAgents" *)
Definition one_word (w : string) : Prop := w <> "" /\ forall c, In c (list_ascii_of_string w) -> is_space c = false.
Definition good_name (s : string) : Prop :=
  (exists ws, ws <> [] /\ Forall one_word ws /\ s = join " " ws) /\ ~ says " sim" s /\ ~ says "numAgents" s.

Definition mean (l : list Q) : Q := sumQ l / inject_Z (Z.of_nat (List.length l)).

(** The simulated number of a camp, and that of the data, on a line *)
Definition sim_in (r : report) (i : nat) : Q := match nth_error (r_camps r) i with Some (s, _, _) => inject_Z s | None => 0 end.
Definition data_in (r : report) (i : nat) : Q := match nth_error (r_camps r) i with Some (_, d, _) => inject_Z d | None => 0 end.
(** The simulated number as part of the people in camps, applied to the total of the data *)
Definition rescaled_in (r : report) (i : nat) : Q :=
  if (0 <? r_in_camps r)%Z then sim_in r i * inject_Z (r_data r) / inject_Z (r_in_camps r) else 0.

(** The total of the data, at least 1 *)
Definition people (r : report) : Q := inject_Z (Z.max 1 (r_data r)).

(** The error of a day: the distances of all camps over the total of the data *)
Definition day_error (sim : report -> nat -> Q) (n : nat) (r : report) : Q :=
  sumQ (map (fun i => Qabs (sim r i - data_in r i)) (seq 0 n)) / people r.

(** The naive forecasts for camp [i] that the scaled errors compare with: the number of the
    training day; that number times the day, unless nobody was there on day 7; the share of
    the training day of the total *)
Definition value_on (lines : list report) (i k : nat) : Q := nth k (map (fun r => data_in r i) lines) 0.
Definition total_on_line (lines : list report) (k : nat) : Q := nth k (map (fun r => inject_Z (r_data r)) lines) 0.
Definition naive_value (lines : list report) (i : nat) (n : naive) (t : training) (day : nat) : Q :=
  let k := training_day t in
  match n with
  | Flat => value_on lines i k
  | Sloped => if Qltb 0 (value_on lines i 7) then inject_Z (Z.of_nat day) * value_on lines i k else 0
  | Ratio => total_on_line lines day * (value_on lines i k / total_on_line lines k)
  end.
(** It exists. *)
Definition naive_exists (lines : list report) (i : nat) (n : naive) (t : training) : Prop :=
  match n with
  | Flat => True
  | Sloped => 0 < value_on lines i 7 -> ~ value_on lines i (training_day t) == 0
  | Ratio => ~ total_on_line lines (training_day t) == 0
  end.

(** The days after the training day *)
Definition later (lines : list report) (t : training) : list nat :=
  seq (training_day t + 1) (List.length lines - (training_day t + 1)).

(** The scaled error of camp [i]: the mean distance of the rescaled simulation from the data
    over all days, over the mean distance of the naive forecast on the later days *)
Definition scaled_error (lines : list report) (i : nat) (n : naive) (t : training) : Q :=
  mean (map (fun r => Qabs (rescaled_in r i - data_in r i)) lines) /
  mean (map (fun day => Qabs (naive_value lines i n t day - value_on lines i day)) (later lines t)).

(** The naive forecast is wrong on a later day. *)
Definition naive_wrong (lines : list report) (i : nat) (n : naive) (t : training) : Prop :=
  exists day, In day (later lines t) /\ ~ naive_value lines i n t day == value_on lines i day.

(** Sum of numbers times weights *)
Fixpoint weighted (l : list (Q * Q)) : Q := match l with [] => 0 | (w, x) :: l' => w * x + weighted l' end.

(** The table of a run can be read: different names made of words, and a number for each
    camp on each line *)
Definition good_table (camps : list string) (lines : list report) : Prop :=
  NoDup camps /\ Forall good_name camps /\ Forall (fun r => List.length (r_camps r) = List.length camps) lines.

(** The same simulation with [k] agents instead of each *)
Definition times (k : Z) (r : report) : report :=
  Report (r_day r) (r_date r) (map (fun x => let '(s, d, err) := x in ((k * s)%Z, d, err)) (r_camps r)) (r_error r) (r_data r)
         (r_total r) (r_raw r) (k * r_in_camps r)%Z (r_debt r) (r_idps r).

(** The simulation has the shares of the data: in each camp the part of the people in camps
    that the data have there *)
Definition right_shares (n : nat) (r : report) : Prop :=
  (0 < r_in_camps r)%Z /\ forall i, (i < n)%nat -> sim_in r i * inject_Z (r_data r) == data_in r i * inject_Z (r_in_camps r).

(** The simulation has the numbers of the data. *)
Definition right_numbers (n : nat) (r : report) : Prop :=
  r_in_camps r = r_data r /\ forall i, (i < n)%nat -> sim_in r i == data_in r i.
