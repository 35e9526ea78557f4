(** * SpecData: vocabulary for the properties of data tables *)

From Verif Require Import Base DataTable.
Local Open Scope Q_scope.

(** The days of the series increase from row to row. *)
Definition increasing (t : series) : Prop :=
  forall i j ri rj, nth_error t i = Some ri -> nth_error t j = Some rj -> (i < j)%nat -> fst ri < fst rj.
(** The values of the series never decrease. *)
Definition growing (t : series) : Prop :=
  forall i j ri rj, nth_error t i = Some ri -> nth_error t j = Some rj -> (i <= j)%nat -> snd ri <= snd rj.

(** [y] is the value at [x] of the line through the points of the series, which is
    constant before the first and after the last point. *)
Inductive on_line (t : series) (x y : Q) : Prop :=
| Before r : nth_error t 0 = Some r -> x <= fst r -> y == snd r -> on_line t x y
| After i r : nth_error t i = Some r -> Datatypes.S i = List.length t -> fst r <= x -> y == snd r -> on_line t x y
| Between i a b : nth_error t i = Some a -> nth_error t (Datatypes.S i) = Some b -> fst a <= x -> x <= fst b ->
    y == snd a + (x - fst a) / (fst b - fst a) * (snd b - snd a) -> on_line t x y.

(** [z] is the whole number of [y]: [y] with the digits after the point cut off. *)
Definition whole (y : Q) (z : Z) : Prop :=
  (0 <= y /\ inject_Z z <= y /\ y < inject_Z z + 1 \/ y <= 0 /\ y <= inject_Z z /\ inject_Z z - 1 < y)%Q.

(** The registered total on a day: the field "total", or the sum over the camps (all
    fields but the first). *)
Fixpoint sum_fields (d : dtable) (day : Z) (full : bool) (names : list string) : res Z :=
  match names with
  | [] => Ok 0%Z
  | n :: ns => v <- get_field d n day full ;; s <- sum_fields d day full ns ;; Ok (v + s)%Z
  end.
Definition total_on (d : dtable) (day : Z) (full sumcamps : bool) : res Z :=
  if sumcamps then sum_fields d day full (tl (d_header d)) else get_field d "total" day full.

(** Every field of the table has data with increasing days. *)
Definition table_ok (d : dtable) : Prop :=
  In "total"%string (d_header d) /\ List.length (d_tables d) = List.length (d_header d) /\
  Forall (fun t => t <> [] /\ increasing t) (d_tables d).

(** Sum of the values of [f] for the days 1 to [n] *)
Fixpoint sum_days (f : nat -> Z) (n : nat) : Z := match n with O => 0%Z | S m => (sum_days f m + f n)%Z end.
