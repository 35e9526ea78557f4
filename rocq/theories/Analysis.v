(** * Analysis: flee/postprocessing/analysis.py

    Numbers are exact rationals.  Where numpy returns inf or nan with a warning (division
    by zero, mean of nothing) the model has [Err ZeroDivisionError].  Not modelled:
    calculate_ln_accuracy_ratio (logarithms). *)

From Coq Require Import Qabs.
From Verif Require Import Base.
Local Open Scope Q_scope.

(** [round(x, ROUND_NDIGITS)] and [np.round] with 4 digits, halves to even (line 19) *)
Definition round4 (x : Q) : Q := inject_Z (Qround_even (x * 10000)) / 10000.

(** rel_error (lines 24-38) *)
Definition rel_error (val correct_val : Q) : Q :=
  if Qltb correct_val (1 # 100000) then 0 else round4 (Qabs (val / correct_val - 1)).

(** abs_error (lines 41-53) *)
Definition abs_error (val correct_val : Q) : Q := round4 (Qabs (val - correct_val)).

(** [a - b] for arrays; an array of one number is stretched to the length of the other. *)
Fixpoint zip_sub (a b : list Q) : list Q :=
  match a, b with x :: a', y :: b' => (x - y) :: zip_sub a' b' | _, _ => [] end.
Definition np_sub (a b : list Q) : res (list Q) :=
  if Nat.eqb (List.length a) (List.length b) then Ok (zip_sub a b)
  else match a, b with
       | [x], _ => Ok (map (fun y => x - y) b)
       | _, [y] => Ok (map (fun x => x - y) a)
       | _, _ => Err ValueError
       end.

(** abs_diffs (lines 59-71) *)
Definition abs_diffs (forecast correct : list Q) : res (list Q) :=
  ds <- np_sub forecast correct ;; Ok (map (fun x => round4 (Qabs x)) ds).

(** [np.mean] *)
Definition np_mean (l : list Q) : res Q := fdiv (sumQ l) (inject_Z (Z.of_nat (List.length l))).

(** mean_abs_diffs (lines 74-86) *)
Definition mean_abs_diffs (forecast correct : list Q) : res Q :=
  ds <- np_sub forecast correct ;; m <- np_mean (map Qabs ds) ;; Ok (round4 m).

(** [l[k:]] *)
Definition slice_from {A : Type} (l : list A) (k : Z) : list A :=
  if (k <? 0)%Z then skipn (Z.to_nat (Z.max 0 (Z.of_nat (List.length l) + k))) l else skipn (Z.to_nat k) l.

(** calculate_MASE (lines 105-151); different lengths are only reported. *)
Definition calculate_mase (forecast actual naive : list Q) (start_of_forecast_period : Z) : res Q :=
  let offset := (start_of_forecast_period + 1)%Z in
  n <- np_sub (slice_from actual offset) (slice_from naive offset) ;;
  mean_naive <- fdiv (sumQ (map Qabs n)) (inject_Z (Z.of_nat (List.length (slice_from actual offset)))) ;;
  f <- np_sub actual forecast ;;
  mean_forecast <- fdiv (sumQ (map Qabs f)) (inject_Z (Z.of_nat (List.length actual))) ;;
  q <- fdiv mean_forecast mean_naive ;;
  Ok (round4 q).
