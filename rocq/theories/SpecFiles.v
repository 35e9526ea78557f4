(** * SpecFiles: vocabulary for the properties of data files *)

From Verif Require Import Base Dates SpecDates DataTable SpecData DataFiles.
Local Open Scope Q_scope.

(** Rows of a data file that carry no data: fewer than two cells, a comment, or no number *)
Inductive no_data : list string -> Prop :=
| Too_short r : (List.length r < 2)%nat -> no_data r
| Comment s c r : no_data (String "#" s :: c :: r)
| No_number a s r : no_data (String a s :: ""%string :: r).

(** The entry of a row: days from the start date to the date in the first cell, and the
    number in the second cell divided by the scale factor *)
Inductive entry_of (start : string) (factor : Z) : list string -> Q * Q -> Prop :=
| Entry a s c r n v d0 d :
    a <> "#"%char -> c <> ""%string ->
    civil d0 -> written start d0 -> civil d -> written (String a s) d -> days_apart d0 n d ->
    parse_Z c = Some v -> factor <> 0%Z ->
    entry_of start factor (String a s :: c :: r) (inject_Z n, inject_Z v / inject_Z factor).

(** The entries of the rows, in their order *)
Inductive entries (start : string) (factor : Z) : csv -> series -> Prop :=
| No_rows : entries start factor [] []
| Skip r rs t : no_data r -> entries start factor rs t -> entries start factor (r :: rs) t
| Take r rs x t : entry_of start factor r x -> entries start factor rs t -> entries start factor (r :: rs) (x :: t).

(** The first row may be a header, or have an empty first cell. *)
Definition header_row (r : list string) : Prop :=
  exists c c' r', r = c :: c' :: r' /\ (c = "" \/ c = "Date" \/ c = "DateTime")%string.
Definition file_entries (start : string) (factor : Z) (rows : csv) (t : series) : Prop :=
  exists r rs, rows = r :: rs /\
    (header_row r /\ entries start factor rs t \/ ~ header_row r /\ entries start factor rows t).

(** The series of several files: that of the first, to which the others are added one by
    one *)
Inductive combined (files : directory) (start : string) (factor : Z) : list string -> series -> Prop :=
| First f rows t : files f = Some rows -> file_entries start factor rows t -> combined files start factor [f] t
| Added fs t f rows t2 t' : combined files start factor fs t -> files f = Some rows -> file_entries start factor rows t2 ->
    add_csv_tables t t2 = Ok t' -> combined files start factor (fs ++ [f]) t'.

(** The columns a layout file describes: rows with at least two cells that are not
    comments give a name and its files. *)
Inductive columns (files : directory) (start : string) (factor : Z) : csv -> list string -> list series -> Prop :=
| No_columns : columns files start factor [] [] []
| Skip_row r rs ns ts : (List.length r < 2)%nat \/ (exists s r', r = String "#" s :: r') -> columns files start factor rs ns ts ->
    columns files start factor (r :: rs) ns ts
| Column a s fs rs t ns ts : a <> "#"%char -> combined files start factor fs t -> columns files start factor rs ns ts ->
    columns files start factor ((String a s :: fs) :: rs) (String a s :: ns) (t :: ts).

(** Days are whole numbers. *)
Definition whole_days (t : series) : Prop := forall r, In r t -> exists n, fst r == inject_Z n.

(** The series [t'] is [t] with the values of the first [k] rows multiplied by [q]. *)
Definition scaled_before (k : nat) (q : Q) (t t' : series) : Prop :=
  List.length t' = List.length t /\
  forall i r, nth_error t i = Some r ->
    nth_error t' i = Some (if (i <? k)%nat then (fst r, snd r * q) else r).

(** [d'] is [d] with the column [i] replaced by [t']. *)
Definition with_column (i : nat) (t' : series) (d d' : dtable) : Prop :=
  d_header d' = d_header d /\ d_start_empty d' = d_start_empty d /\ d_day0 d' = d_day0 d /\
  List.length (d_tables d') = List.length (d_tables d) /\
  forall j, nth_error (d_tables d') j = if Nat.eqb j i then Some t' else nth_error (d_tables d) j.

(** [i] is the first column with the name. *)
Definition first_column (d : dtable) (name : string) (i : nat) : Prop :=
  nth_error (d_header d) i = Some name /\ forall j, (j < i)%nat -> nth_error (d_header d) j <> Some name.

(** The value of the first row on or after the day, and of the last row on or before it *)
Definition next_value (t : series) (day v : Q) : Prop :=
  exists i r, nth_error t i = Some r /\ day <= fst r /\ v = snd r /\
    forall j r', (j < i)%nat -> nth_error t j = Some r' -> fst r' < day.
Definition last_value (t : series) (day v : Q) : Prop :=
  exists i r, nth_error t i = Some r /\ fst r <= day /\ v = snd r /\
    forall j r', (i < j)%nat -> nth_error t j = Some r' -> day < fst r'.

(** The rows of two added series: on every day of the second series its value and the value
    of the first row of the first series on or after the day; on every other day of the
    first series up to the end of the second its value and the value of the last row of the
    second series before the day. *)
Definition added_rows (t1 t2 t : series) : Prop :=
  increasing t /\
  forall day v, In (day, v) t <->
    (exists v1 v2, In (day, v2) t2 /\ next_value t1 day v1 /\ v = v2 + v1) \/
    (exists v1 v2, In (day, v1) t1 /\ (forall r, In r t2 -> ~ fst r == day) /\ (exists r, In r t2 /\ day < fst r) /\
       last_value t2 day v2 /\ v = v2 + v1).

(** Two series on the same days *)
Definition same_days (t1 t2 : series) : Prop :=
  List.length t1 = List.length t2 /\
  forall i r1 r2, nth_error t1 i = Some r1 -> nth_error t2 i = Some r2 -> fst r1 == fst r2.

(** Every column has increasing whole days. *)
Definition days_ok (d : dtable) : Prop :=
  List.length (d_tables d) = List.length (d_header d) /\ Forall (fun t => increasing t /\ whole_days t) (d_tables d).

(** The number registered for the name on day 0 so far, 0 if there is none *)
Definition registered_day0 (d : dtable) (name : string) (p : Z) : Prop :=
  dict_get name (d_day0 d) = Some p \/ dict_get name (d_day0 d) = None /\ p = 0%Z.

(** A level 1 correction of a column from a date on: nothing for a date before the start
    date.  Otherwise some row but the first is on that date, and the values of the rows
    before it are multiplied by the quotient of its value and that of the row before it, to
    both of which the number registered on day 0 is added first. *)
Definition corrected (start name date : string) (d d' : dtable) (q : Q) : Prop :=
  exists i t d0 d1 n p, first_column d name i /\ nth_error (d_tables d) i = Some t /\ registered_day0 d name p /\
    civil d0 /\ written start d0 /\ civil d1 /\ written date d1 /\ days_apart d0 n d1 /\
    ((n < 0)%Z /\ d' = d /\ q = 1 \/
     (0 <= n)%Z /\ exists k a b t', nth_error t k = Some a /\ nth_error t (Datatypes.S k) = Some b /\ fst b == inject_Z n /\
       1 <= snd a + inject_Z p /\ q = (snd b + inject_Z p) / (snd a + inject_Z p) /\
       scaled_before (Datatypes.S k) q t t' /\ with_column i t' d d').

(** The corrections of a file, in their order: rows with less than two cells are skipped. *)
Inductive corrections (start : string) : csv -> dtable -> dtable -> Prop :=
| No_corrections d : corrections start [] d d
| Short_row r rs d d' : (List.length r < 2)%nat -> corrections start rs d d' -> corrections start (r :: rs) d d'
| Correction name date more rs d d1 d' q : corrected start name date d d1 q -> corrections start rs d1 d' ->
    corrections start ((name :: date :: more) :: rs) d d'.

(** The rows up to the first on or after the day *)
Definition counted (t : series) (day : Z) (k : nat) : Prop :=
  forall j r, (j < k)%nat -> nth_error t j = Some r -> fst r < inject_Z day.
