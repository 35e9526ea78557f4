(** * AcledWitness: conversions of conflict events for the examples *)

From Coq Require Import Permutation Sorted Lia.
From Verif Require Import Base Lemmas Dates Coupling Acled SpecDates SpecCoupling SpecAcled DateProofs CouplingText AcledProofs.
Local Open Scope string_scope.
Local Open Scope Z_scope.
Local Open Scope list_scope.

(** An order: insertion sort *)
Fixpoint insert (r : Z * event) (l : list (Z * event)) : list (Z * event) :=
  match l with
  | [] => [r]
  | x :: l' => if fst r <=? fst x then r :: l else x :: insert r l'
  end.
Definition by_date (l : list (Z * event)) : list (Z * event) := fold_right insert [] l.
Lemma insert_perm r l : Permutation (insert r l) (r :: l).
Proof.
  induction l as [|x l IH]; cbn [insert]; [reflexivity|]. destruct (fst r <=? fst x); [reflexivity|].
  etransitivity; [apply perm_skip, IH|apply perm_swap].
Qed.
Lemma insert_sorted r l : StronglySorted nearer l -> StronglySorted nearer (insert r l).
Proof.
  induction l as [|x l IH]; intro H; cbn [insert]; [repeat constructor|]. inversion H as [|? ? Hs Hf]; subst. rewrite Forall_forall in Hf.
  destruct (Z.leb_spec (fst r) (fst x)) as [A|A].
  - constructor; [exact H|]. apply Forall_forall. intros y [<-|Y]; [exact A|]. unfold nearer in *. specialize (Hf y Y). lia.
  - constructor; [auto|]. apply Forall_forall. intros y Y. apply (Permutation_in _ (insert_perm r l)) in Y. destruct Y as [<-|Y]; [unfold nearer; lia|auto].
Qed.
Lemma by_date_sorts : sorts by_date.
Proof.
  intro l. induction l as [|r l [A B]]; cbn [by_date fold_right]; [repeat constructor|]. split.
  - etransitivity; [apply insert_perm|]. now apply perm_skip.
  - apply insert_sorted, B.
Qed.

Definition acled_events : list event :=
  [Event "17-March-19" "Nigeria" "Borno" "11.8" "13.1" 40; Event "02 January 2019" "Nigeria" "Borno" "11.5" "13.0" 5;
   Event "20-Feb-2019" "Nigeria" "Yobe" "12.0" "11.5" 0; Event "25 DEC 2018" "Nigeria" "Adamawa" "9.3" "12.4" 3].
Definition acled_pops : list (string * Z) := [("Adamawa", 4248436); ("Borno", 5860183); ("Borno", 1)].
Definition acled_result : list location_row :=
  [LocationRow "Borno" "Borno" "Nigeria" "11.5" "13.0" "conflict_zone" 1 5860183;
   LocationRow "Adamawa" "Adamawa" "Nigeria" "9.3" "12.4" "conflict_zone" 7 4248436].
Lemma acled_case : acled2locations by_date acled_events acled_pops "01-01-2019" "earliest" "admin1" (OutFiles None None) = Ok (OutFiles (Some acled_result) None) /\
  acled2locations by_date acled_events acled_pops "01-01-2019" "fatalities" "admin1" (OutFiles (Some []) None) = Ok (OutFiles (Some []) (Some acled_result)).
Proof. split; vm_compute; reflexivity. Qed.

Lemma event_day e start n : match date_format (ev_date e) with Ok out => between_date out start | Err x => Err x end = Ok n -> days_from_start e start n.
Proof. intro H. apply event_day_iff. destruct (date_format (ev_date e)) as [out|]; [|discriminate]. eauto. Qed.
Lemma acled_days : Forall2 (fun e n => days_from_start e "01-01-2019" n) acled_events [75; 1; 50; 7].
Proof. repeat constructor; apply event_day; vm_compute; reflexivity. Qed.

(** The event of 25 December 2018 *)
Definition christmas : event := Event "25 DEC 2018" "Nigeria" "Adamawa" "9.3" "12.4" 3.
Lemma before_start : exists d d0, In christmas acled_events /\ civil d /\ event_text (ev_date christmas) d /\ civil d0 /\ start_text "01-01-2019" d0 /\
  days_apart d 7 d0 /\ exists rows row, acled2locations by_date acled_events acled_pops "01-01-2019" "earliest" "admin1" (OutFiles None None) = Ok (OutFiles (Some rows) None) /\
  In row rows /\ lr_name row = ev_admin1 christmas /\ lr_conflict_date row = 7.
Proof.
  exists (Date 2018 12 25), (Date 2019 1 1). split; [cbn; tauto|].
  destruct (proj1 (event_date_iff (ev_date christmas) (Date 2018 12 25))) as [C T]; [eexists; split; vm_compute; reflexivity|].
  destruct (proj1 (dmy_iff "01-01-2019" (Date 2019 1 1))) as [C0 T0]; [vm_compute; reflexivity|].
  split; [exact C|]. split; [exact T|]. split; [exact C0|]. split; [exact T0|]. split.
  - apply civil_iff in C, C0. apply apart_iff; [tauto|tauto|]. vm_compute. reflexivity.
  - exists acled_result. eexists. split; [apply acled_case|]. split; [right; left; reflexivity|]. split; reflexivity.
Qed.

Lemma fatalities_ignored : exists rows row e, In row rows /\ In e acled_events /\ ev_admin1 e = lr_name row /\ lr_latitude row <> ev_latitude e /\
  (forall e', In e' acled_events -> ev_admin1 e' = lr_name row -> e' = e \/ ev_fatalities e' < ev_fatalities e) /\
  acled2locations by_date acled_events acled_pops "01-01-2019" "fatalities" "admin1" (OutFiles None None) = Ok (OutFiles (Some rows) None).
Proof.
  exists acled_result. do 2 eexists. split; [left; reflexivity|]. split; [left; reflexivity|]. split; [reflexivity|]. split; [discriminate|]. split.
  - intros e' [<-|[<-|[<-|[<-|[]]]]]; cbn; intro H; try discriminate; [now left|right; lia].
  - vm_compute. reflexivity.
Qed.
