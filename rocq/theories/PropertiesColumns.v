(** * PropertiesColumns: C75 (files with a column per location, files of rows)

    Vocabulary: SpecColumns.v ([column_names], [row_lists], [tabulated], [readable], [decimal],
    [integer], [starts_empty]), SpecNetwork.v ([skipped]) *)

From Verif Require Import Base State InputGeography SpecNetwork SpecColumns Defaults ExampleRun NetworkWitness ColumnProofs ColumnWitness.
Local Open Scope string_scope.
Local Open Scope Q_scope.
Local Open Scope list_scope.

(** C75. Reading the file of conflict levels gives each name in the heading the numbers in
    its columns, row after row, and nothing else; it succeeds exactly if every cell, but
    those of the first column, has a name above it and is a number. *)
Theorem C75_conflicts : forall heading data,
  (forall d, read_conflicts (heading :: data) = Ok d -> tabulated decimal heading data d) /\
  ((exists d, read_conflicts (heading :: data) = Ok d) <-> Forall (readable decimal heading) data).
Proof. exact conflicts_columns. Qed.
Print Assumptions C75_conflicts.
Example C75_conflicts_example :
  read_conflicts (col_heading :: col_data) = Ok [("A", [0; 5 # 10; 5 # 10]); ("B", [1; 1; 0])].
Proof. exact col_read. Qed.

(** The same for a file with an attribute of the locations. *)
Theorem C75_attributes : forall heading data,
  (forall d, read_attribute (heading :: data) = Ok d -> tabulated integer heading data d) /\
  ((exists d, read_attribute (heading :: data) = Ok d) <-> Forall (readable integer heading) data).
Proof. exact attribute_columns. Qed.
Print Assumptions C75_attributes.
Example C75_attributes_example :
  read_attribute (cells ["#Day"; "A"; "B"; ""] :: map cells [["0"; "3"; "-1"]; ["1"; " 4"; "0"]]) = Ok [("A", [3; 4]%Z); ("B", [-1; 0]%Z)].
Proof. exact int_read. Qed.

(** If all names differ and no row is too short, the value for day t is in row t. *)
Theorem C75_days : forall heading data d t r i c n,
  read_conflicts (heading :: data) = Ok d -> NoDup (column_names heading) ->
  (forall r, In r data -> List.length r = List.length heading) ->
  nth_error data t = Some r -> nth_error (tl r) i = Some c -> nth_error (column_names heading) i = Some n ->
  exists vals v, In (n, vals) d /\ nth_error vals t = Some v /\ decimal (strip (sval c)) v.
Proof. exact conflicts_day. Qed.
Print Assumptions C75_days.
Example C75_days_example : is_ok (read_conflicts (col_heading :: col_data)) = true /\ NoDup (column_names col_heading) /\
  (forall r, In r col_data -> List.length r = List.length col_heading) /\
  nth_error col_data 2 = Some (cells ["2"; "0.5"; "0"]) /\ nth_error (tl (cells ["2"; "0.5"; "0"])) 1 = Some (PS "0" 0) /\
  nth_error (column_names col_heading) 1 = Some "B".
Proof. split; [reflexivity|]. split; [exact (proj2 col_names)|]. split; [exact col_lengths|]. exact col_cells. Qed.

(** Neither condition can be dropped: a row that ends early makes later values early, *)
Theorem C75_short_row_refuted : ~ (forall heading data d t r i c n,
  read_conflicts (heading :: data) = Ok d -> NoDup (column_names heading) ->
  nth_error data t = Some r -> nth_error (tl r) i = Some c -> nth_error (column_names heading) i = Some n ->
  exists vals v, In (n, vals) d /\ nth_error vals t = Some v /\ decimal (strip (sval c)) v).
Proof. exact short_row. Qed.
Print Assumptions C75_short_row_refuted.

(** and a name above two columns gets two values a day. *)
Theorem C75_same_name_refuted : ~ (forall heading data d t r i c n, read_conflicts (heading :: data) = Ok d ->
  (forall r, In r data -> List.length r = List.length heading) ->
  nth_error data t = Some r -> nth_error (tl r) i = Some c -> nth_error (column_names heading) i = Some n ->
  exists vals v, In (n, vals) d /\ nth_error vals t = Some v /\ decimal (strip (sval c)) v).
Proof. exact same_name. Qed.
Print Assumptions C75_same_name_refuted.

(** The numbers of the days in the first column have no effect. *)
Theorem C75_day_numbers_refuted : forall heading data data', map (@tl pystr) data = map (@tl pystr) data' ->
  read_conflicts (heading :: data) = read_conflicts (heading :: data').
Proof. exact conflicts_first. Qed.
Print Assumptions C75_day_numbers_refuted.
Example C75_day_numbers_example :
  let data := map cells [["0"; "0"; "1"]; ["5"; "0.5"; " 1"]; ["3"; "0.5"; "0"]] in
  map (@tl pystr) data = map (@tl pystr) col_data /\ data <> col_data.
Proof. split; [reflexivity|]. intro H. vm_compute in H. discriminate H. Qed.

(** Of files of closures and of location changes, exactly the rows that are neither empty
    nor comments are kept; a row with an empty first cell is an error. *)
Theorem C75_rows : forall rows out, read_plain rows = Ok out <->
  out = filter (fun r => negb (skipped r)) rows /\ forall r, In r rows -> ~ starts_empty r.
Proof. exact read_plain_iff. Qed.
Print Assumptions C75_rows.
Example C75_rows_example : read_plain plain_file = Ok (map cells [["B"; "camp"; "3"]; ["A"; "town"; "4"]]).
Proof. exact plain_read. Qed.

(** Comments in the file of major routes are kept, too: *)
Theorem C75_major_comments_refuted : forall rows out, read_major_links rows = Ok out <->
  out = rows /\ forall r, In r rows -> ~ starts_empty r.
Proof. exact read_major_iff. Qed.
Print Assumptions C75_major_comments_refuted.
(** the route that has been turned into a comment becomes one of A. *)
Example C75_major_comments_example :
  read_major_links (map cells [["#C"; "B"; "A"]; ["A"; "B"; "C"]]) = Ok (ig_major_routes commented) /\
  rmap (fun r => map (fun l => (sval (l_name l), l_major_routes l)) (e_locations (fst (fst r)))) (net_of commented) =
    Ok [("A", [["B"; "#C"]; ["B"; "C"]]); ("B", []); ("C", [["B"; "A"]])].
Proof. exact comment_kept. Qed.

(** A blank line there is read as a route, and then no network can be stored. *)
Theorem C75_major_blank_refuted : exists rows out, read_major_links rows = Ok out /\ In [] out /\
  forall S o factor ig changes e g r, ig_major_routes ig = out -> store_input S o factor ig changes e g <> Ok r.
Proof. exact blank_kept. Qed.
Print Assumptions C75_major_blank_refuted.
Theorem C75_major_blank : forall S o factor ig changes e g, In [] (ig_major_routes ig) ->
  forall e' g' ig', store_input S o factor ig changes e g <> Ok (e', g', ig').
Proof. exact major_blank. Qed.
Print Assumptions C75_major_blank.
Example C75_major_blank_example : read_major_links (major_file ++ [[]]) = Ok (ig_major_routes blank_major) /\
  In [] (ig_major_routes blank_major) /\ is_ok (net_of commented) = true.
Proof. split; [exact blank_read|]. split; [right; right; now left|vm_compute; reflexivity]. Qed.
