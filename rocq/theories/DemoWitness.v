(** * DemoWitness: demographics files for the examples of C82 *)

From Coq Require Import Lqa Permutation.
From Verif Require Import Base State Lemmas Moving Flee DataTable Spawning Coupling SpecCoupling SpecChoice SpecHistory SpecSpawn Api
  Demographics SpecDemographics DemoProofs.
Local Open Scope string_scope.
Local Open Scope list_scope.

Definition age_frame : frame :=
  [("age", [Some (VInt 10); Some (VInt 30); Some (VInt 60)]);
   ("Default", [Some (VInt 1); Some (VInt 2); Some (VInt 1)]);
   ("A", [None; Some (VFloat (1 # 2)); Some (VFloat (1 # 2))])].
Definition work_frame : frame :=
  [("work", [Some (VStr "farm"); Some (VStr "trade")]); ("Default", [Some (VInt 1); Some (VInt 1)])].
Definition home_frame : frame :=
  [("home_region", [Some (VStr "north"); Some (VStr "south")]); ("Default", [Some (VInt 1); Some (VInt 1)])].
Definition town_frame : frame := [("home_town", [Some (VStr "A")]); ("Default", [Some (VInt 1)])].
Definition two_files : list (string * frame) := [(file_of "age", age_frame); ("locations.csv", []); (file_of "work", work_frame)].
Definition home_files : list (string * frame) := [(file_of "home_region", home_frame); (file_of "home_town", town_frame)].

(** Random numbers 0, 7/8, 0, 7/8 ... *)
Definition swing : rng := Rng (fun _ => 0%Q) (fun n => if Nat.even n then 0%Q else 7 # 8)%Q (fun _ => 0%nat) 0 0 0.
Lemma swing_ok : rng_ok swing.
Proof. split; intro n; cbn; [split; lra|]. destruct (Nat.even n); split; lra. Qed.

Local Ltac freely := unfold free; cbn; intuition discriminate.
Lemma two_names : file_names two_files. Proof. repeat constructor; freely. Qed.
Lemma home_names : file_names home_files. Proof. repeat constructor; freely. Qed.
Lemma age_proper : proper "age" age_frame.
Proof.
  exists [Some (VInt 10); Some (VInt 30); Some (VInt 60)]. split; [reflexivity|]. intros h col [E|[E|[E|[]]]]; injection E as <- <-; (split; [reflexivity|]).
  - intro N. contradiction.
  - intros _. eexists. vm_compute. reflexivity.
  - intros _. eexists. vm_compute. reflexivity.
Qed.
Lemma age_weights : place_weights age_frame "A" [0; 1 # 2; 1 # 2]%Q /\ place_weights age_frame "B" [1; 2; 1]%Q.
Proof.
  split.
  - eexists. split; [left; reflexivity|]. repeat constructor.
  - eexists. split; [right; split; reflexivity|]. repeat constructor.
Qed.
Lemma home_word : first_word "home" "home_region" /\ first_word "home" "home_town".
Proof.
  split; (split; [freely|]; split; [freely|]); [exists "_region"|exists "_town"]; (split; [reflexivity|]); right; eexists; right; reflexivity.
Qed.
Lemma no_camps : exists folder, demographics_of_run folder [] = Ok [] /\
  exists dm, read_demographics folder [] = Ok dm /\ dm <> [].
Proof.
  exists (Some two_files). split; [reflexivity|]. exists [("age", age_frame); ("work", work_frame)]. split; [vm_compute; reflexivity|discriminate].
Qed.
Lemma order_matters : exists files files' place g dm dm' d d', Permutation files files' /\ rng_ok g /\
  load_demographics (Some files) [] = Ok dm /\ load_demographics (Some files') [] = Ok dm' /\
  rmap fst (draw_from_frames dm place g) = Ok d /\ rmap fst (draw_from_frames dm' place g) = Ok d' /\
  dict_get "work" d <> dict_get "work" d'.
Proof.
  exists two_files, (List.rev two_files), "B", swing. do 4 eexists. split; [apply Permutation_rev|]. split; [exact swing_ok|].
  split; [vm_compute; reflexivity|]. split; [vm_compute; reflexivity|]. split; [vm_compute; reflexivity|]. split; [vm_compute; reflexivity|].
  vm_compute. discriminate.
Qed.
Lemma words_matter : exists files dm, file_names files /\ List.length files = 2%nat /\
  load_demographics (Some files) [] = Ok dm /\ List.length dm = 1%nat /\
  forall place, exists err, draw_from_frames dm place swing = Err err.
Proof.
  exists home_files, [("home", town_frame)]. split; [exact home_names|]. split; [reflexivity|]. split; [vm_compute; reflexivity|]. split; [reflexivity|].
  intro place. cbn [draw_from_frames]. unfold draw_from_frame. destruct (dict_get place town_frame) as [col|] eqn:E.
  - cbn [bind]. destruct (mapM weight_of col) as [w|err]; [|eexists; reflexivity]. cbn [bind].
    destruct (sample_index (List.length col) w swing) as [[n g1]|err]; [|eexists; reflexivity]. cbn. eexists. reflexivity.
  - vm_compute. eexists. reflexivity.
Qed.
Lemma place_matters : exists a fr g, proper a fr /\ place_weights fr "elsewhere" [1; 2; 1]%Q /\ rng_ok g /\
  rmap fst (draw_from_frame fr a "elsewhere" g) <> rmap fst (draw_from_frame fr a a g) /\ place_weights fr a [10; 30; 60]%Q.
Proof.
  exists "age", age_frame, (Rng (fun _ => 0%Q) (fun _ => 1 # 5)%Q (fun _ => 0%nat) 0 0 0). split; [exact age_proper|].
  split; [eexists; split; [right; split; reflexivity|repeat constructor]|].
  split; [split; intro; cbn; split; reflexivity || discriminate|]. split; [vm_compute; discriminate|].
  eexists. split; [left; reflexivity|]. repeat constructor.
Qed.
