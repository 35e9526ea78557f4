(** * PropertiesAcled: C74 (the conversion of conflict events to locations)

    Vocabulary: SpecAcled.v ([event_text], [start_text], [days_from_start], [made_from],
    [listed], [saved], [sorts]), SpecDates.v *)

From Coq Require Import Permutation Sorted.
From Verif Require Import Base Dates Acled SpecDates SpecAcled AcledProofs AcledWitness.
Local Open Scope string_scope.
Local Open Scope Z_scope.
Local Open Scope list_scope.

(** C74. The conflict date of an event is the number of days between it and the start. *)
Theorem C74_days : forall e start n,
  (exists out, date_format (ev_date e) = Ok out /\ between_date out start = Ok n) <-> days_from_start e start n.
Proof. exact event_day_iff. Qed.
Print Assumptions C74_days.
Example C74_days_example : Forall2 (fun e n => days_from_start e "01-01-2019" n) acled_events [75; 1; 50; 7].
Proof. exact acled_days. Qed.

(** The new file has a row for each region with a deadly event, made from one that is
    nearest to the start; rows are in the order of their dates; no file is overwritten. *)
Theorem C74_rows : forall order events pops start opt level files files', sorts order ->
  acled2locations order events pops start opt level files = Ok files' ->
  exists rows, saved files files' rows /\ NoDup (map lr_name rows) /\
    (forall row, In row rows -> made_from events start pops row) /\
    (forall e, In e events -> 0 < ev_fatalities e -> In (ev_admin1 e) (map lr_name rows)) /\
    StronglySorted (fun a b => lr_conflict_date a <= lr_conflict_date b) rows.
Proof. exact acled_rows. Qed.
Print Assumptions C74_rows.
Example C74_rows_example : sorts by_date /\
  acled2locations by_date acled_events acled_pops "01-01-2019" "earliest" "admin1" (OutFiles None None) =
    Ok (OutFiles (Some [LocationRow "Borno" "Borno" "Nigeria" "11.5" "13.0" "conflict_zone" 1 5860183;
                        LocationRow "Adamawa" "Adamawa" "Nigeria" "9.3" "12.4" "conflict_zone" 7 4248436]) None) /\
  acled2locations by_date acled_events acled_pops "01-01-2019" "fatalities" "admin1" (OutFiles (Some []) None) = Ok (OutFiles (Some []) (Some acled_result)).
Proof. split; [exact by_date_sorts|exact acled_case]. Qed.

(** When the conversion succeeds *)
Theorem C74_success : forall order events pops start opt level files, sorts order ->
  ((exists files', acled2locations order events pops start opt level files = Ok files') <->
   (forall e, In e events -> exists n, days_from_start e start n) /\ level = "admin1" /\
   (In opt ["earliest"; "conflict_date"; "country"; "admin1"; "latitude"; "longitude"; "fatalities"] \/ (forall e, In e events -> ev_fatalities e <= 0)) /\
   (forall e, In e events -> 0 < ev_fatalities e -> exists p, listed pops (ev_admin1 e) p) /\
   (f_locations files = None \/ f_new files = None)).
Proof. exact acled_success. Qed.
Print Assumptions C74_success.

(** That the level can be chosen is false: no level but admin1 works. *)
Theorem C74_level_refuted : forall order events pops start opt level files, level <> "admin1" ->
  forall files', acled2locations order events pops start opt level files <> Ok files'.
Proof. exact acled_level. Qed.
Print Assumptions C74_level_refuted.
Example C74_level_refuted_example : "location" <> "admin1" /\
  acled2locations by_date acled_events acled_pops "01-01-2019" "earliest" "location" (OutFiles None None) = Err SystemExit.
Proof. split; [discriminate|vm_compute; reflexivity]. Qed.

(** That the option fatalities takes the event with the most fatalities is false: all
    options give the same, *)
Theorem C74_options : forall order events pops start opt opt' level files, sorts order ->
  In opt ["earliest"; "conflict_date"; "country"; "admin1"; "latitude"; "longitude"; "fatalities"] ->
  In opt' ["earliest"; "conflict_date"; "country"; "admin1"; "latitude"; "longitude"; "fatalities"] ->
  forall files', acled2locations order events pops start opt level files = Ok files' <-> acled2locations order events pops start opt' level files = Ok files'.
Proof. exact acled_options. Qed.
Print Assumptions C74_options.
(** and there are regions whose most deadly event is not the one of the row. *)
Theorem C74_fatalities_refuted : exists rows row e, In row rows /\ In e acled_events /\ ev_admin1 e = lr_name row /\ lr_latitude row <> ev_latitude e /\
  (forall e', In e' acled_events -> ev_admin1 e' = lr_name row -> e' = e \/ ev_fatalities e' < ev_fatalities e) /\
  acled2locations by_date acled_events acled_pops "01-01-2019" "fatalities" "admin1" (OutFiles None None) = Ok (OutFiles (Some rows) None).
Proof. exact fatalities_ignored. Qed.
Print Assumptions C74_fatalities_refuted.

(** That a conflict date of n means n days after the start is false: this event is seven
    days before it. *)
Theorem C74_after_refuted : exists d d0, In christmas acled_events /\ civil d /\ event_text (ev_date christmas) d /\ civil d0 /\ start_text "01-01-2019" d0 /\
  days_apart d 7 d0 /\ exists rows row, acled2locations by_date acled_events acled_pops "01-01-2019" "earliest" "admin1" (OutFiles None None) = Ok (OutFiles (Some rows) None) /\
  In row rows /\ lr_name row = ev_admin1 christmas /\ lr_conflict_date row = 7.
Proof. exact before_start. Qed.
Print Assumptions C74_after_refuted.
