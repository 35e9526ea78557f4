(** * SpecDates: the civil calendar, as vocabulary for the properties of dates *)

From Coq Require Import ZArith.
From Verif Require Import Base Dates.
Local Open Scope Z_scope.

(** A year has a 29th of February if it is divisible by 4 and not by 100, or by 400. *)
Definition leap_year (y : Z) : Prop := (4 | y) /\ (~ (100 | y) \/ (400 | y)).

(** [n] is the number of days of the month. *)
Inductive month_days (y : Z) : Z -> Z -> Prop :=
| February_long : leap_year y -> month_days y 2 29
| February_short : ~ leap_year y -> month_days y 2 28
| Short_month m : In m [4; 6; 9; 11] -> month_days y m 30
| Long_month m : In m [1; 3; 5; 7; 8; 10; 12] -> month_days y m 31.

(** A date of the calendar, in the years datetime has *)
Definition civil (d : date) : Prop :=
  1 <= dt_year d <= 9999 /\ exists n, month_days (dt_year d) (dt_month d) n /\ 1 <= dt_day d <= n.

(** [d'] is the day after [d]. *)
Inductive next_day : date -> date -> Prop :=
| Same_month y m d n : month_days y m n -> d < n -> next_day (Date y m d) (Date y m (d + 1))
| Next_month y m d : month_days y m d -> m < 12 -> next_day (Date y m d) (Date y (m + 1) 1)
| Next_year y : next_day (Date y 12 31) (Date (y + 1) 1 1).

(** [d'] is [n] days after [d]. *)
Inductive days_later : nat -> date -> date -> Prop :=
| Today d : days_later 0 d d
| Tomorrow n d d' d'' : days_later n d d' -> next_day d' d'' -> days_later (S n) d d''.

(** [d'] is [n] days after [d], or before it if [n] is negative. *)
Definition days_apart (d : date) (n : Z) (d' : date) : Prop :=
  0 <= n /\ days_later (Z.to_nat n) d d' \/ n <= 0 /\ days_later (Z.to_nat (- n)) d' d.

(** The value of a row of digits *)
Inductive digits_value : string -> Z -> Prop :=
| No_digit : digits_value "" 0
| More_digits s c v d : digits_value s v -> 0 <= d <= 9 -> c = ascii_of_nat (48 + Z.to_nat d) ->
    digits_value (s ++ String c "") (10 * v + d).

(** [s] is the date [d] written as year-month-day; month and day may be written with one
    digit, and a day with one digit may have a space in front. *)
Definition written (s : string) (d : date) : Prop :=
  exists y m b dd, s = (y ++ "-" ++ m ++ "-" ++ b ++ dd)%string /\
    String.length y = 4%nat /\ (String.length m = 1 \/ String.length m = 2)%nat /\
    (String.length dd = 1 \/ String.length dd = 2)%nat /\ (b = "" \/ b = " " /\ String.length dd = 1%nat)%string /\
    digits_value y (dt_year d) /\ digits_value m (dt_month d) /\ digits_value dd (dt_day d).

(** The second cell of the last row whose first cell is the key, in capitals or not, or the
    given value if there is none *)
Inductive last_setting (key : string) (rows : list (list string)) (v0 : string) : string -> Prop :=
| Not_set : (forall r k, In r rows -> nth_error r 0 = Some k -> lower k <> key) -> last_setting key rows v0 v0
| Set_last a k v more b : rows = (a ++ (k :: v :: more) :: b)%list -> lower k = key ->
    (forall r k', In r b -> nth_error r 0 = Some k' -> lower k' <> key) -> last_setting key rows v0 v.
