(** * PropertiesDemographics: C82

    The files demographics_*.csv decide which attributes people have.  Vocabulary:
    SpecDemographics.v ([file_of], [first_word], [last_of], [place_weights], [proper]);
    the reader and the draws are in Demographics.v. *)

From Coq Require Import Permutation.
From Verif Require Import Base State Moving Flee DataTable Spawning SpecCoupling SpecHistory SpecSpawn Api
  Demographics SpecDemographics DemoProofs DemoWitness.
Local Open Scope string_scope.
Local Open Scope list_scope.

(** A file gives the attribute named by the first word after "demographics_". *)
Theorem C82_names : forall a x, free "/" x -> attribute_of ("input_csv/" ++ file_of x) = Ok a <-> first_word a x.
Proof. exact word_iff. Qed.
Print Assumptions C82_names.

Example C82_names_case : free "/" "home_region" /\ first_word "home" "home_region".
Proof. split; [unfold free; cbn; intuition discriminate|exact (proj1 home_word)]. Qed.

(** C82. The first call that adds initial refugees reads all demographics files of the
    folder, whatever else is in it, and never fails; an attribute gets the frame of the
    last file that gives it, and there are no other attributes. *)
Theorem C82_read : forall files, file_names files -> exists dm,
  load_demographics (Some files) [] = Ok dm /\ NoDup (map fst dm) /\ forall a fr, dict_get a dm = Some fr <-> last_of files a fr.
Proof. exact f_read. Qed.
Print Assumptions C82_read.

(** If each file is named by one word, every file counts and the order does not matter for
    what each attribute is. *)
Theorem C82_one_word : forall files, file_names files -> NoDup (map fst files) ->
  (forall f, In f files -> exists x, fst f = file_of x /\ free "." x /\ free "_" x) -> exists dm,
  load_demographics (Some files) [] = Ok dm /\ NoDup (map fst dm) /\ forall a fr, dict_get a dm = Some fr <-> In (file_of a, fr) files.
Proof. exact f_clear. Qed.
Print Assumptions C82_one_word.

Example C82_read_case : file_names two_files /\
  load_demographics (Some two_files) [] = Ok [("age", age_frame); ("work", work_frame)].
Proof. split; [exact two_names|vm_compute; reflexivity]. Qed.

(** Later calls read nothing, even if the files have changed. *)
Theorem C82_once : forall folder dm, dm <> [] -> load_demographics folder dm = Ok dm.
Proof. exact f_once. Qed.
Print Assumptions C82_once.

(** Without the folder there are no attributes. *)
Theorem C82_no_folder : forall dm, load_demographics None dm = Ok dm.
Proof. exact f_no_folder. Qed.
Print Assumptions C82_no_folder.

(** The run script reads the files once, however many camps there are. *)
Theorem C82_main_program : forall folder camp camps, demographics_of_run folder (camp :: camps) = read_demographics folder [].
Proof. exact (fun folder => proj2 (f_run folder)). Qed.
Print Assumptions C82_main_program.

(** But without any camp it never reads them. *)
Theorem C82_no_camps_refuted : exists folder, demographics_of_run folder [] = Ok [] /\
  exists dm, read_demographics folder [] = Ok dm /\ dm <> [].
Proof. exact no_camps. Qed.
Print Assumptions C82_no_camps_refuted.

(** The weights of the place where a person starts are the shares of the values: row [k]
    with weight [q] is taken exactly by the random numbers of an interval of length
    [q / total]. *)
Theorem C82_shares : forall fr a place vs w g k c q,
  rng_ok g -> dict_get a fr = Some vs -> place_weights fr place w -> List.length w = List.length vs ->
  Forall (fun q => 0 <= q)%Q w -> (0 < sumQ w)%Q -> nth_error vs k = Some c -> nth_error w k = Some q ->
  (sumQ (firstn k w) / sumQ w <= fst (rng_nu g))%Q -> (fst (rng_nu g) < sumQ (firstn k w) / sumQ w + q / sumQ w)%Q ->
  draw_from_frame fr a place g = Ok (cell_value fr c, snd (rng_nu g)).
Proof. exact f_interval. Qed.
Print Assumptions C82_shares.

(** Every draw takes some row, by one random number. *)
Theorem C82_some_row : forall fr a place vs w g,
  rng_ok g -> dict_get a fr = Some vs -> place_weights fr place w -> List.length w = List.length vs ->
  Forall (fun q => 0 <= q)%Q w -> (0 < sumQ w)%Q ->
  exists k c, draw_from_frame fr a place g = Ok (cell_value fr c, snd (rng_nu g)) /\ nth_error vs k = Some c /\
    SpecChoice.share w k (fst (rng_nu g)).
Proof. exact f_share. Qed.
Print Assumptions C82_some_row.

(** In place "A" nobody is 10 years old; elsewhere a quarter is.  Since the frame has
    floats, the ages are floats. *)
Example C82_shares_case : rng_ok swing /\ place_weights age_frame "A" [0; 1 # 2; 1 # 2]%Q /\ place_weights age_frame "B" [1; 2; 1]%Q /\
  rmap fst (draw_from_frame age_frame "age" "A" swing) = Ok (VFloat 30) /\
  rmap fst (draw_from_frame age_frame "age" "B" swing) = Ok (VFloat 10).
Proof. split; [exact swing_ok|]. split; [exact (proj1 age_weights)|]. split; [exact (proj2 age_weights)|]. vm_compute. split; reflexivity. Qed.

(** The value of a cell is what the file says: a text, or a number.  A whole number becomes
    a float exactly if the frame has only numbers and one of them is not whole or missing. *)
Theorem C82_values : forall fr,
  (forall s, cell_value fr (Some (VStr s)) = VStr s) /\ (forall q, cell_value fr (Some (VFloat q)) = VFloat q) /\
  (forall z, (cell_value fr (Some (VInt z)) = VInt z /\ ~ (only_numbers fr /\ some_float fr)) \/
             (cell_value fr (Some (VInt z)) = VFloat (inject_Z z) /\ only_numbers fr /\ some_float fr)).
Proof. exact f_values. Qed.
Print Assumptions C82_values.
Example C82_values_case : cell_value age_frame (Some (VInt 10)) = VFloat 10 /\ cell_value work_frame (Some (VInt 10)) = VInt 10.
Proof. split; vm_compute; reflexivity. Qed.

(** Weights that are negative or not positive in sum are refused, and so are frames without
    the columns that are needed. *)
Theorem C82_bad_weights : forall fr a place w g, place_weights fr place w ->
  ((exists q, In q w /\ (q < 0)%Q) \/ (sumQ w <= 0)%Q) -> draw_from_frame fr a place g = Err ValueError.
Proof. exact f_bad. Qed.
Print Assumptions C82_bad_weights.
Theorem C82_no_default : forall fr a place g, dict_get place fr = None -> dict_get "Default" fr = None ->
  draw_from_frame fr a place g = Err KeyError.
Proof. exact f_no_default. Qed.
Print Assumptions C82_no_default.
Theorem C82_no_values : forall fr a place w g, rng_ok g -> dict_get a fr = None -> place_weights fr place w ->
  Forall (fun q => 0 <= q)%Q w -> (0 < sumQ w)%Q -> draw_from_frame fr a place g = Err KeyError.
Proof. exact f_no_values. Qed.
Print Assumptions C82_no_values.

Example C82_bad_case :
  place_weights [("age", [Some (VInt 10)]); ("Default", [None])] "A" [0]%Q /\ (sumQ [0] <= 0)%Q /\
  dict_get "age" home_frame = None /\ place_weights home_frame "A" [1; 1]%Q /\ (0 < sumQ [1; 1])%Q.
Proof.
  split; [|split; [discriminate|split; [reflexivity|split; [|reflexivity]]]].
  - eexists. split; [right; split; reflexivity|]. repeat constructor.
  - eexists. split; [right; split; reflexivity|]. repeat constructor.
Qed.

(** What the other theorems say for tables of values and weights (C48, C49, C66 …) holds for
    proper frames: the draws are the same. *)
Theorem C82_tables : forall place dm, Forall (fun p => proper (fst p) (snd p) /\ place <> fst p /\ fst p <> "Default") dm ->
  forall g, draw_from_frames dm place g = draw_samples (as_tables dm) place g.
Proof. exact f_tables. Qed.
Print Assumptions C82_tables.

Example C82_tables_case : proper "age" age_frame /\ "A" <> "age" /\ "age" <> "Default" /\
  rmap fst (draw_from_frames [("age", age_frame); ("work", work_frame)] "A" swing) = Ok [("age", VFloat 30); ("work", VStr "trade")].
Proof. split; [exact age_proper|]. split; [discriminate|]. split; [discriminate|]. vm_compute. reflexivity. Qed.

(** The order in which the system lists the files decides who gets what: with the same
    random numbers, people differ. *)
Theorem C82_order_refuted : exists files files' place g dm dm' d d', Permutation files files' /\ rng_ok g /\
  load_demographics (Some files) [] = Ok dm /\ load_demographics (Some files') [] = Ok dm' /\
  rmap fst (draw_from_frames dm place g) = Ok d /\ rmap fst (draw_from_frames dm' place g) = Ok d' /\
  dict_get "work" d <> dict_get "work" d'.
Proof. exact order_matters. Qed.
Print Assumptions C82_order_refuted.

(** Of two files whose names begin with the same word only the last one counts, and a file
    with a name of several words and a heading to match makes the first draw fail. *)
Theorem C82_words_refuted : exists files dm, file_names files /\ List.length files = 2%nat /\
  load_demographics (Some files) [] = Ok dm /\ List.length dm = 1%nat /\
  forall place, exists err, draw_from_frames dm place swing = Err err.
Proof. exact words_matter. Qed.
Print Assumptions C82_words_refuted.

(** A place that has the name of an attribute uses the values as weights. *)
Theorem C82_place_name_refuted : exists a fr g, proper a fr /\ place_weights fr "elsewhere" [1; 2; 1]%Q /\ rng_ok g /\
  rmap fst (draw_from_frame fr a "elsewhere" g) <> rmap fst (draw_from_frame fr a a g) /\ place_weights fr a [10; 30; 60]%Q.
Proof. exact place_matters. Qed.
Print Assumptions C82_place_name_refuted.
