(** * Properties of dates and data files: C59 to C63. Vocabulary: SpecDates.v, SpecFiles.v, SpecData.v *)

From Coq Require Import ZArith.
From Verif Require Import Base Dates SpecDates DateProofs PeriodProofs DataTable SpecData DataFiles SpecFiles FileProofs AddProofs TableProofs
  DataWitness.
Local Open Scope string_scope.
Local Open Scope Q_scope.
Local Open Scope list_scope.

(** C59. Text is read as a date exactly if it is a date of the calendar written as year,
    month and day. *)
Theorem C59_read : forall s d, strptime s = Ok d <-> civil d /\ written s d.
Proof. exact read_iff. Qed.
Print Assumptions C59_read.

(** The difference of two dates is the number of days between them. *)
Theorem C59_subtract : forall s1 s2 n, subtract_dates s1 s2 = Ok n <->
  exists d1 d2, civil d1 /\ written s1 d1 /\ civil d2 /\ written s2 d2 /\ days_apart d2 n d1.
Proof. exact subtract_iff. Qed.
Print Assumptions C59_subtract.

(** The date of a step is that many days after the start date. *)
Theorem C59_steps : forall n s d', steps_to_date n s = Ok d' <->
  exists d, civil d /\ written s d /\ civil d' /\ days_apart d n d'.
Proof. exact steps_iff. Qed.
Print Assumptions C59_steps.

(** A date that is shown is written, so it is read back as the same date. *)
Theorem C59_shown : forall d, civil d -> written (show_date d) d.
Proof. exact show_written. Qed.
Print Assumptions C59_shown.

(** The simulation period: the last start date and the last length in the file *)
Theorem C59_period : forall rows s n, read_sim_period rows = Ok (s, n) ->
  last_setting "startdate" rows "" s /\ exists v, last_setting "length" rows "0" v /\ parse_Z v = Some n.
Proof. exact period_ok. Qed.
Print Assumptions C59_period.

Example C59_example : exists d1 d2, civil d1 /\ written "2012-2-28" d1 /\ civil d2 /\ written "2016-03- 1" d2 /\ days_apart d1 1463 d2 /\
  subtract_dates "2016-03- 1" "2012-2-28" = Ok 1463%Z /\ steps_to_date 1463 "2012-02-28" = Ok d2 /\ show_date d2 = "2016-03-01".
Proof. exact dates_case. Qed.
Example C59_period_example : read_sim_period period_rows = Ok ("2012-02-29", 300%Z).
Proof. exact period_case. Qed.

(** C60. A data file gives a series exactly if each of its rows, but for a header, either
    carries no data or is an entry; the series is the list of the entries. *)
Theorem C60_file : forall start factor rows t, convert_csv start factor rows = Ok t <-> file_entries start factor rows t.
Proof. exact file_iff. Qed.
Print Assumptions C60_file.

(** A data table has a column for each row of its layout file. *)
Theorem C60_table : forall files layout start factor empty d,
  new_table files layout start factor empty = Ok d <->
  exists ns ts, columns files start factor layout ns ts /\ d = DTable ns ts (if empty then 1 else 0)%Z [].
Proof. exact table_iff. Qed.
Print Assumptions C60_table.

(** A file for the input adds a column, *)
Theorem C60_override : forall files start factor f d d',
  override_input files start factor f d = Ok d' <->
  exists rows t, files f = Some rows /\ file_entries start factor rows t /\
    d' = DTable (d_header d ++ ["total (modified input)"]) (d_tables d ++ [t]) (d_start_empty d) (d_day0 d).
Proof. exact override_iff. Qed.
Print Assumptions C60_override.

(** and so does not replace the totals: every field keeps its values. *)
Theorem C60_override_refuted : forall files start factor f d d' name day full v,
  List.length (d_tables d) = List.length (d_header d) ->
  override_input files start factor f d = Ok d' -> get_field d name day full = Ok v -> get_field d' name day full = Ok v.
Proof. exact override_unread. Qed.
Print Assumptions C60_override_refuted.

(** A row with an empty first cell that is not the first row is not skipped: the file
    cannot be read. *)
Theorem C60_empty_cell_refuted : forall start factor r0 a c more b t,
  convert_csv start factor (r0 :: a ++ ("" :: c :: more) :: b) <> Ok t.
Proof. exact blank_cell. Qed.
Print Assumptions C60_empty_cell_refuted.

Example C60_example : exists ns ts d, columns ex_files "2012-02-29" 10 ex_layout ns ts /\
  new_table ex_files ex_layout "2012-02-29" 10 false = Ok d /\ d = DTable ns ts 0 [] /\ ns = ["total"; "A"] /\
  get_field d "A" 2 true = Ok 4%Z /\ get_field d "total" 1 true = Ok 23%Z.
Proof. exact table_case. Qed.

(** C61. Two series on the same days are added day by day. *)
Theorem C61_same_days : forall t1 t2, same_days t1 t2 -> exists t, add_csv_tables t1 t2 = Ok t /\ same_days t1 t /\
  forall i r1 r2 r, nth_error t1 i = Some r1 -> nth_error t2 i = Some r2 -> nth_error t i = Some r -> snd r == snd r1 + snd r2.
Proof. exact same_sums. Qed.
Print Assumptions C61_same_days.

(** If the second series starts no later and ends no later than the first, the rows of the
    sum are exactly the ones described by [added_rows]. *)
Theorem C61_rows : forall t1 t2, increasing t1 -> increasing t2 ->
  (forall x y, nth_error t1 0 = Some x -> nth_error t2 0 = Some y -> fst y <= fst x) ->
  (forall y, In y t2 -> exists x, In x t1 /\ fst y <= fst x) ->
  exists t, add_csv_tables t1 t2 = Ok t /\ added_rows t1 t2 t.
Proof. exact add_rows. Qed.
Print Assumptions C61_rows.

(** If the first series starts earlier they cannot be added. *)
Theorem C61_start_refuted : forall t1 t2 x y, nth_error t1 0 = Some x -> nth_error t2 0 = Some y -> fst x < fst y ->
  add_csv_tables t1 t2 = Err IndexError.
Proof. exact earlier_start. Qed.
Print Assumptions C61_start_refuted.

(** On a day that only the second series has, the sum is not that of the two series. *)
Theorem C61_sum_refuted : exists t1 t2 t day v v1 v2, increasing t1 /\ increasing t2 /\ add_csv_tables t1 t2 = Ok t /\ In (day, v) t /\
  on_line t1 day v1 /\ on_line t2 day v2 /\ v1 + v2 < v.
Proof. exact sum_refuted. Qed.
Print Assumptions C61_sum_refuted.

(** After the end of the second series the sum stays below that of the two series. *)
Theorem C61_end_refuted : exists t1 t2 t day v v1 v2, increasing t1 /\ increasing t2 /\ add_csv_tables t1 t2 = Ok t /\
  on_line t1 day v1 /\ on_line t2 day v2 /\ interpolate t 10 = Ok v /\ day = inject_Z 10 /\ inject_Z v < v1 + v2.
Proof. exact end_refuted. Qed.
Print Assumptions C61_end_refuted.

(** If the second series goes on after the end of the first, days are repeated. *)
Theorem C61_days_refuted : exists t1 t2 t, increasing t1 /\ increasing t2 /\ add_csv_tables t1 t2 = Ok t /\ ~ increasing t.
Proof. exact twice_refuted. Qed.
Print Assumptions C61_days_refuted.

Example C61_example : increasing one /\ increasing two /\
  (forall x y, nth_error one 0 = Some x -> nth_error two 0 = Some y -> fst y <= fst x) /\
  (forall y, In y two -> exists x, In x one /\ fst y <= fst x) /\
  add_csv_tables one two = Ok [(0, 1 + 10); (5, 2 + 20); (10, 3 + 20)].
Proof. exact add_case. Qed.

(** C62. A correction succeeds exactly if it is one of those [corrected] describes, and has
    exactly its effect. *)
Theorem C62_correction : forall start name date d d' q, days_ok d ->
  (correct_level1_text start d name date = Ok (d', q) <-> corrected start name date d d' q).
Proof. exact corrected_iff. Qed.
Print Assumptions C62_correction.

(** The corrections of a file are made one after the other. *)
Theorem C62_file : forall start rows d d', days_ok d ->
  (read_corrections start (Some rows) d = Ok d' <-> corrections start rows d d').
Proof. exact corrections_iff. Qed.
Print Assumptions C62_file.

(** As long as nothing is registered for day 0 the last row before the date gets the value
    of the row on the date. *)
Theorem C62_continuous : forall start name date d d' q t k a b a' i,
  corrected start name date d d' q -> registered_day0 d name 0 -> first_column d name i -> nth_error (d_tables d) i = Some t ->
  increasing t -> nth_error t k = Some a -> nth_error t (S k) = Some b ->
  (exists d0 d1 n, (0 <= n)%Z /\ civil d0 /\ written start d0 /\ civil d1 /\ written date d1 /\ days_apart d0 n d1 /\ fst b == inject_Z n) ->
  (exists t', nth_error (d_tables d') i = Some t' /\ nth_error t' k = Some a') -> snd a' == snd b.
Proof. exact continuous. Qed.
Print Assumptions C62_continuous.

(** A correction on a day without a row stops the simulation with an unset variable. *)
Theorem C62_no_row_refuted : exists d name date, days_ok d /\ In name (d_header d) /\
  correct_level1_text "2012-02-29" d name date = Err UnboundLocalError.
Proof. exact no_row_refuted. Qed.
Print Assumptions C62_no_row_refuted.

Example C62_example : exists d' q, corrected "2012-02-29" "A" "2012-03-20" camps d' q /\ q == 3 # 4 /\
  nth_error (d_tables d') 1 = Some [(0, 40 * q); (10, 80 * q); (20, 60); (30, 90)].
Proof. exact correction_case. Qed.
Example C62_file_example : exists d', corrections "2012-02-29" [["A"; "2012-03-20"]; []; ["total"; "2011-12-31"]] camps d' /\
  d_tables d' <> d_tables camps.
Proof. exact corrections_case. Qed.
Example C62_C63_table : days_ok camps /\ first_column camps "A" 1 /\ registered_day0 camps "A" 0 /\ NoDup (d_header camps).
Proof. exact camps_ok. Qed.

(** C63. The largest value is that of the rows up to the first one on or after the day, or
    0 if all are negative. *)
Theorem C63_largest : forall d name days i t, days_ok d -> first_column d name i -> nth_error (d_tables d) i = Some t ->
  exists m, get_max_from_data d name days = Ok m /\ (0 <= m)%Z /\
    (forall k r z, nth_error t k = Some r -> counted t days k -> whole (snd r) z -> (z <= m)%Z) /\
    (m = 0%Z \/ exists k r, nth_error t k = Some r /\ counted t days k /\ whole (snd r) m).
Proof. exact max_ok. Qed.
Print Assumptions C63_largest.

(** So it may come from a day after the time span. *)
Theorem C63_span_refuted : exists d name days i t m, days_ok d /\ first_column d name i /\ nth_error (d_tables d) i = Some t /\
  get_max_from_data d name days = Ok m /\ forall r, In r t -> fst r <= inject_Z days -> snd r < inject_Z m.
Proof. exact max_refuted. Qed.
Print Assumptions C63_span_refuted.

(** A day of a column is interpolated exactly if no row of the column is on it. *)
Theorem C63_interpolated : forall d name day i t, days_ok d -> NoDup (d_header d) -> first_column d name i ->
  nth_error (d_tables d) i = Some t ->
  exists b, is_interpolated d name day = Ok b /\ (b = false <-> exists r, In r t /\ fst r == inject_Z day).
Proof. exact interpolated_iff. Qed.
Print Assumptions C63_interpolated.

Theorem C63_unknown : forall d name day, ~ In name (d_header d) -> is_interpolated d name day = Ok true.
Proof. exact interpolated_unknown. Qed.
Print Assumptions C63_unknown.

Example C63_example : get_max_from_data camps "A" 20 = Ok 80%Z /\ is_interpolated camps "A" 20 = Ok false /\ is_interpolated camps "A" 21 = Ok true /\
  nth_error (d_tables camps) 1 = Some [(0, 40); (10, 80); (20, 60); (30, 90)] /\ counted [(0, 40); (10, 80); (20, 60); (30, 90)] 20 2.
Proof. exact max_case. Qed.
