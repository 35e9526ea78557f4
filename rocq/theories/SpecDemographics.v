(** * SpecDemographics: vocabulary of C82 (files with demographic attributes) *)

From Verif Require Import Base State Spawning SpecCoupling Demographics.
Local Open Scope string_scope.
Local Open Scope list_scope.

(** The name of a demographics file: "demographics_", then [x], then ".csv" *)
Definition file_of (x : string) : string := "demographics_" ++ x ++ ".csv".

(** [a] is the first word of [x], which ends before the first dot or underscore. *)
Definition first_word (a x : string) : Prop :=
  free "." a /\ free "_" a /\ exists rest, x = (a ++ rest)%string /\
    (rest = "" \/ exists r, rest = String "." r \/ rest = String "_" r).

(** A file gives attribute [a]. *)
Definition gives (a : string) (file : string * frame) : Prop := exists x, fst file = file_of x /\ first_word a x.

(** File names have no slashes. *)
Definition file_names (files : list (string * frame)) : Prop := Forall (fun f => free "/" (fst f)) files.

(** The last of the files that give attribute [a] has frame [fr]. *)
Definition last_of (files : list (string * frame)) (a : string) (fr : frame) : Prop :=
  exists before f after, files = before ++ (f, fr) :: after /\ gives a (f, fr) /\ forall f', In f' after -> ~ gives a f'.

(** The weights of the rows of a frame for the people of a place: its own column, else the
    column "Default", with empty cells as zeros *)
Definition place_weights (fr : frame) (place : string) (w : list Q) : Prop :=
  exists col, (dict_get place fr = Some col \/ dict_get place fr = None /\ dict_get "Default" fr = Some col) /\
    Forall2 (fun c q => match c with None => q = 0%Q | Some v => py_float v = Ok q end) col w.

(** A frame of attribute [a] as it should be: a column with the values, and all other
    columns are weights; as many as there are values. *)
Definition proper (a : string) (fr : frame) : Prop :=
  exists vs, dict_get a fr = Some vs /\
    forall h col, In (h, col) fr -> List.length col = List.length vs /\ (h <> a -> exists w, mapM weight_of col = Ok w).

(** All cells are numbers or empty; some cell is a float or empty. *)
Definition only_numbers (fr : frame) : Prop := forall h col c, In (h, col) fr -> In c col ->
  c = None \/ (exists z, c = Some (VInt z)) \/ (exists q, c = Some (VFloat q)).
Definition some_float (fr : frame) : Prop := exists h col c, In (h, col) fr /\ In c col /\ (c = None \/ exists q, c = Some (VFloat q)).
