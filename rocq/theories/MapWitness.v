(** * MapWitness: locations to draw *)

From Verif Require Import Base State Flee InputGeography Api SpecAgents SpecHistory Defaults ExampleRun MapLists SpecMap MapProofs.
Local Open Scope string_scope.
Local Open Scope Q_scope.
Local Open Scope list_scope.

Definition line_of (ss : list string) : row := map (fun s => PS s 0) ss.
Definition map_geo (ls : list (list string)) : igeo := IGeo (map line_of ls) None [] None [] (Some []) None [] [].

(** Three places *)
Definition three : igeo := map_geo
  [["A"; "r"; "X"; "1"; "2"; "Conflict_Zone"; "0"; "100"]; ["B"; "r"; "X"; "3"; "4.5"; "town"; ""; "50"]; ["C"; "r"; "Y"; "5"; "6"; "camp"; ""; "10"]].
(** Two of them with the same name *)
Definition twins : igeo := map_geo
  [["A"; "r"; "X"; "1"; "2"; "conflict_zone"; "0"; "100"]; ["A"; "q"; "X"; "3"; "4"; "town"; ""; "50"]; ["C"; "r"; "Y"; "5"; "6"; "camp"; ""; "10"]].
(** A place without coordinates *)
Definition nowhere : igeo := map_geo [["A"; "r"; "X"; ""; ""; "town"; ""; "100"]].

Lemma three_case : names_differ (ig_locations three) /\
  rmap (map (fun p => (fst p, (Qred (fst (snd p)), Qred (snd (snd p)))))) (make_location_list three) =
    Ok [("A", (1, 2)); ("B", (3, 9 # 2)); ("C", (5, 6))] /\
  make_location_colors three = Ok ["red"; "yellow"; "green"].
Proof.
  split; [unfold names_differ; cbn; repeat constructor; cbn; intuition discriminate|]. split; vm_compute; reflexivity.
Qed.
Lemma twins_case : exists d, make_location_list twins = Ok d /\ make_location_colors twins = Ok ["red"; "yellow"; "green"] /\
  map fst d = ["A"; "C"] /\ (exists l, nth_error (ig_locations twins) 2 = Some l /\ says_type l "camp" /\ option_map sval (nth_error l 0) = Some "C").
Proof. eexists. split; [vm_compute; reflexivity|]. do 2 (split; [reflexivity|]). eexists. split; [reflexivity|]. split; reflexivity. Qed.
Lemma nowhere_case : exists r, store_input ex_S ex_oracle 1 nowhere [] empty_eco ex_draws = Ok r /\ make_location_list nowhere = Err ValueError.
Proof. eexists. split; vm_compute; reflexivity. Qed.
