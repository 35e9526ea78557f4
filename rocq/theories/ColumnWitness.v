(** * ColumnWitness: files for the examples of C75 and C76 *)

From Verif Require Import Base State Moving Crawling Flee InputGeography Api SpecNetwork SpecColumns Defaults Defaults ExampleRun SpecHistory NetworkWitness ColumnProofs DueProofs.
Local Open Scope string_scope.
Local Open Scope Q_scope.
Local Open Scope list_scope.

Definition col_heading : row := cells ["#Day"; " A"; "B "].
Definition col_data : list row := map cells [["0"; "0"; "1"]; ["1"; "0.5"; " 1"]; ["2"; "0.5"; "0"]].

Lemma col_names : column_names col_heading = ["A"; "B"] /\ NoDup (column_names col_heading).
Proof.
  assert (E : column_names col_heading = ["A"; "B"]) by (vm_compute; reflexivity). split; [exact E|]. rewrite E.
  repeat constructor; cbn [In]; intuition discriminate.
Qed.
Lemma col_lengths : forall r, In r col_data -> List.length r = List.length col_heading.
Proof. intros r [<-|[<-|[<-|[]]]]; reflexivity. Qed.
Lemma col_read : read_conflicts (col_heading :: col_data) = Ok [("A", [0; 5 # 10; 5 # 10]); ("B", [1; 1; 0])].
Proof. vm_compute. reflexivity. Qed.
Lemma col_cells : nth_error col_data 2 = Some (cells ["2"; "0.5"; "0"]) /\ nth_error (tl (cells ["2"; "0.5"; "0"])) 1 = Some (PS "0" 0) /\
  nth_error (column_names col_heading) 1 = Some "B".
Proof. repeat split; vm_compute; reflexivity. Qed.

(** A table of integers *)
Lemma int_read : read_attribute (cells ["#Day"; "A"; "B"; ""] :: map cells [["0"; "3"; "-1"]; ["1"; " 4"; "0"]]) = Ok [("A", [3; 4]%Z); ("B", [-1; 0]%Z)].
Proof. vm_compute. reflexivity. Qed.

(** A row that ends too early: from then on the values of B are early by one day. *)
Definition short_data : list row := map cells [["0"; "0"; "1"]; ["1"; "0.5"]; ["2"; "0.5"; "0"]].
Lemma short_row : ~ (forall heading data d t r i c n,
  read_conflicts (heading :: data) = Ok d -> NoDup (column_names heading) ->
  nth_error data t = Some r -> nth_error (tl r) i = Some c -> nth_error (column_names heading) i = Some n ->
  exists vals v, In (n, vals) d /\ nth_error vals t = Some v /\ decimal (strip (sval c)) v).
Proof.
  intro H.
  assert (R : read_conflicts (col_heading :: short_data) = Ok [("A", [0; 5 # 10; 5 # 10]); ("B", [1; 0])]) by (vm_compute; reflexivity).
  destruct (H col_heading short_data _ 2%nat (cells ["2"; "0.5"; "0"]) 1%nat (PS "0" 0) "B" R (proj2 col_names)) as (vals & v & I & N & _);
    [vm_compute; reflexivity|vm_compute; reflexivity|vm_compute; reflexivity|].
  destruct I as [X|[X|[]]]; [discriminate|]. injection X as <-. discriminate N.
Qed.

(** The same name above two columns: two values per day *)
Lemma same_name : ~ (forall heading data d t r i c n, read_conflicts (heading :: data) = Ok d ->
  (forall r, In r data -> List.length r = List.length heading) ->
  nth_error data t = Some r -> nth_error (tl r) i = Some c -> nth_error (column_names heading) i = Some n ->
  exists vals v, In (n, vals) d /\ nth_error vals t = Some v /\ decimal (strip (sval c)) v).
Proof.
  intro H.
  assert (R : read_conflicts (cells ["#Day"; "A"; "A "] :: col_data) = Ok [("A", [0; 1; 5 # 10; 1; 5 # 10; 0])]) by (vm_compute; reflexivity).
  destruct (H _ _ _ 2%nat (cells ["2"; "0.5"; "0"]) 1%nat (PS "0" 0) "A" R) as (vals & v & I & N & D);
    [exact col_lengths|vm_compute; reflexivity|vm_compute; reflexivity|vm_compute; reflexivity|].
  destruct I as [X|[]]. injection X as <-. injection N as <-. vm_compute in D. discriminate D.
Qed.

(** Major routes *)
Definition plain_file : list row := map cells [["#name"; "type"; "day"]; []; ["B"; "camp"; "3"]; ["#A"; "town"; "1"]; ["A"; "town"; "4"]].
Lemma plain_read : read_plain plain_file = Ok (map cells [["B"; "camp"; "3"]; ["A"; "town"; "4"]]).
Proof. reflexivity. Qed.
Definition major_file : list row := map cells [["#C"; "B"; "A"]; ["A"; "B"; "C"]].
Definition commented : igeo :=
  IGeo (ig_locations tables) (ig_columns tables) (ig_links tables) (ig_link_columns tables) major_file (ig_closures tables) None [] [].
Lemma comment_kept : read_major_links major_file = Ok (ig_major_routes commented) /\
  rmap (fun r => map (fun l => (sval (l_name l), l_major_routes l)) (e_locations (fst (fst r)))) (net_of commented) =
    Ok [("A", [["B"; "#C"]; ["B"; "C"]]); ("B", []); ("C", [["B"; "A"]])].
Proof. split; vm_compute; reflexivity. Qed.
Definition blank_major : igeo :=
  IGeo (ig_locations tables) (ig_columns tables) (ig_links tables) (ig_link_columns tables) (major_file ++ [[]]) (ig_closures tables) None [] [].
Lemma blank_read : read_major_links (major_file ++ [[]]) = Ok (ig_major_routes blank_major).
Proof. reflexivity. Qed.
Lemma blank_kept : exists rows out, read_major_links rows = Ok out /\ In [] out /\
  forall S o factor ig changes e g r, ig_major_routes ig = out -> store_input S o factor ig changes e g <> Ok r.
Proof.
  exists (major_file ++ [[]]), (major_file ++ [[]]). split; [reflexivity|]. split; [right; right; now left|].
  intros S o factor ig changes e g [[e' g'] ig'] E. apply major_blank. rewrite E. right. right. now left.
Qed.

(** ** Dates *)

Definition due_rows : list row := map cells [["B"; "camp"; "3"]; ["A"; "town"; "4"]; ["C"; "town"; "3"]].
Lemma due_calls : ordered ex_S 3 due_rows
  [(ex_S, OChangeLocationType (PS "B" 0) "camp"); (ex_S, OChangeLocationType (PS "C" 0) "town")].
Proof.
  apply ordered_now; [vm_compute; reflexivity|]. apply ordered_other_day with (d := 4%Z); [vm_compute; reflexivity|discriminate|].
  apply ordered_now; [vm_compute; reflexivity|]. constructor.
Qed.
Definition due_tables : igeo := with_changes tables due_rows.
Lemma due_happens :
  rmap (fun r => map (fun l => (l_camp l, l_town l)) (e_locations (fst r)))
    (step ex_oracle ex_S (OAddNewConflictZones false due_tables 3) (net_eco tables) (net_rng tables)) =
    Ok [(false, false); (true, false); (false, true)] /\
  map (fun l => (l_camp l, l_town l)) (e_locations (net_eco tables)) = [(false, false); (false, true); (true, false)].
Proof. split; vm_compute; reflexivity. Qed.

(** Row 1 of [tables] has a conflict zone that starts on day 7. *)
Lemma later_row : exists r, nth_error (ig_locations tables) 1 = Some r /\ later_zone r.
Proof.
  exists (cells ["B"; ""; "X"; ""; "3"; "conflict_zone"; "7"; "200"]). split; [vm_compute; reflexivity|].
  exists (PS "conflict_zone" 0), (PS "7" 0), 7%Z. repeat split; vm_compute; reflexivity.
Qed.
Lemma later_changes : ig_location_changes (result_tables (net_of tables)) = Some [].
Proof. vm_compute. reflexivity. Qed.
Lemma later_never : s_FloodRulesEnabled ex_S = false /\
  (forall rows t, ig_location_changes (result_tables (net_of tables)) = Some rows -> ordered ex_S t rows []).
Proof. split; [vm_compute; reflexivity|]. intros rows t H. rewrite later_changes in H. injection H as <-. constructor. Qed.
