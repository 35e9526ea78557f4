(** * Coupling: flee/coupling.py, class CouplingInterface

    Modelled: the list of coupled locations, the text exchanged, how it is read, how the
    texts of several instances are combined, and one exchange ([Couple]) with coupling type
    "file" for submodels "macro" and "micro".  Muscle.v models coupling through MUSCLE3, and
    CouplingFiles.v the waiting for files, ExchangeLog.v the logs.  Not modelled: the plots.  What is read from a
    file is given as its text. *)

From Coq Require Import Qround.
From Verif Require Import Base State Moving Crawling Scoring Diagnostics Flee DataTable
  Spawning InputGeography Api Pflee ParApi.
Local Open Scope string_scope.
Local Open Scope list_scope.

(** Attributes location_ids, location_names, names, directions, intervals (lines 80-86) *)
Record coupling : Type := Cpl {
  cp_ids : list nat; cp_locations : list string; cp_names : list string;
  cp_directions : list string; cp_intervals : list Z }.

Definition no_coupling : coupling := Cpl [] [] [] [] [].

(** addCoupledLocation (lines 123-171).  The location object is given by its number;
    a location selected twice is ignored with a warning. *)
Definition add_coupled (i : nat) (name direction : string) (interval : Z) (e : eco) (cp : coupling)
  : res coupling :=
  l <- loc_of e i ;;
  if mem_str (lname l) (cp_locations cp) then Ok cp
  else Ok (Cpl (cp_ids cp ++ [convert_name e (l_name l)]) (cp_locations cp ++ [lname l])
             (cp_names cp ++ [name]) (cp_directions cp ++ [direction]) (cp_intervals cp ++ [interval])).

(** The loops of addGhostLocations and addMicroConflictLocations over conflict names and
    locations (lines 188-198, 215-225).  [conflict_names] is the result of
    ig.getConflictLocationNames(). *)
Definition add_named (only_isolated : bool) (direction : string) (conflict_names : list string)
    (e : eco) (cp : coupling) : res coupling :=
  foldM (fun cp1 n =>
    foldM (fun cp2 i =>
        l <- loc_of e i ;;
        if String.eqb (lname l) n then
          if (only_isolated && negb (match l_links l with [] => true | _ => false end))%bool then Ok cp2
          else add_coupled i (lname l) direction 1 e cp2
        else Ok cp2)
      (seq 0 (List.length (e_locations e))) cp1) conflict_names cp.
(** addGhostLocations (lines 174-198), addMicroConflictLocations (lines 201-225) *)
Definition add_ghosts : list string -> eco -> coupling -> res coupling := add_named true "out".
Definition add_micro_conflicts : list string -> eco -> coupling -> res coupling := add_named false "in".

Definition newline : ascii := ascii_of_nat 10.
Definition comma : ascii := ascii_of_nat 44.

(** generateOutputCSVString (lines 389-413) *)
Definition csv_line (name : string) (number : Z) : string :=
  (name ++ String comma (str_of_Z number ++ String newline EmptyString))%string.
Definition out_line (e : eco) (row : nat * (string * string)) : res string :=
  let '(i, (name, direction)) := row in
  if str_in "out" direction then l <- loc_of e i ;; Ok (csv_line name (l_numAgents l)) else Ok EmptyString.
Definition cp_rows (cp : coupling) : list (nat * (string * string)) :=
  combine (cp_ids cp) (combine (cp_names cp) (cp_directions cp)).
Definition output_csv (e : eco) (cp : coupling) : res string :=
  ls <- mapM (out_line e) (cp_rows cp) ;; Ok (fold_right String.append EmptyString ls).

(** writeOutputToFile (lines 446-462): the file is opened for appending. *)
Definition write_output (old : string) (e : eco) (cp : coupling) : res string :=
  s <- output_csv e cp ;; Ok (old ++ s)%string.

(** [s.split(c)] for a separator of one character *)
Fixpoint split (c : ascii) (s : string) : list string :=
  match s with
  | EmptyString => [EmptyString]
  | String d s' =>
      if Ascii.eqb d c then EmptyString :: split c s'
      else match split c s' with
           | w :: ws => String d w :: ws
           | [] => [String d EmptyString]
           end
  end.

(** extractNewAgentsFromCSVString (lines 417-442) *)
Definition read_row (cp : coupling) (d : list (string * Z)) (row : list string) : res (list (string * Z)) :=
  match row with
  | [] | EmptyString :: _ => Ok d
  | String c w :: rest =>
      if Ascii.eqb c "#"%char then Ok d
      else foldM (fun d1 n =>
             if String.eqb (String c w) n then
               v <- of_option IndexError (nth_error rest 0) ;;
               z <- of_option ValueError (parse_Z v) ;; Ok (dict_set n z d1)
             else Ok d1) (cp_names cp) d
  end.
Definition extract (cp : coupling) (text : list string) : res (list (string * Z)) :=
  foldM (fun d line => read_row cp d (split comma line)) text [].
Definition extract_text (cp : coupling) (text : string) : res (list (string * Z)) :=
  extract cp (split newline text).

(** [int(round(x))]: halves go to the even neighbour. *)
Definition round_even (x : Q) : Z :=
  let f := Qfloor x in
  let r := (x - inject_Z f)%Q in
  match Qcompare r (1 # 2) with
  | Lt => f
  | Gt => (f + 1)%Z
  | Eq => if Z.even f then f else (f + 1)%Z
  end.
(** [np.mean], exact *)
Definition mean (zs : list Z) : Q := (inject_Z (sumZ zs) / inject_Z (Z.of_nat (List.length zs)))%Q.

(** readInputFromFile (lines 519-540), given the texts of the files of all instances *)
Definition combine_one (agg : list (string * list Z)) (one : list (string * Z))
  : res (list (string * list Z)) :=
  match agg with
  | [] => Ok (map (fun p => (fst p, [snd p])) one)
  | _ => foldM (fun a p => old <- of_option KeyError (dict_get (fst p) a) ;;
                           Ok (dict_set (fst p) (old ++ [snd p]) a)) one agg
  end.
Definition read_input (cp : coupling) (texts : list string) : res (list (string * Z)) :=
  agg <- foldM (fun a t => one <- extract_text cp t ;; combine_one a one) texts [] ;;
  Ok (map (fun p => (fst p, round_even (mean (snd p)))) agg).

(** Couple (lines 229-365) for coupling type "file" and submodels "macro" and "micro", on
    all processes of a parallel run: the calls made on the ecosystem after the input of the
    time step has been read; the same list on each process.  [newAgents[names[i]]] is
    evaluated before the membership test (line 355). *)
Definition couple_calls (n : nat) (lat : latency) (new_agents : list (string * Z)) (cp : coupling)
  : res (list pop) :=
  ins <- mapM (fun row : nat * (string * string) =>
           let '(i, (name, direction)) := row in
           if str_in "in" direction then
             z <- of_option KeyError (dict_get name new_agents) ;;
             Ok [PInsertAgents (repeat i n) z; PUpdateNumAgents lat false]
           else Ok [PUpdateNumAgents lat false]) (cp_rows cp) ;;
  Ok (PClearLocations lat (cp_locations cp) :: List.concat ins).
(** [time % intervals[0] == 0] (line 247) *)
Definition couples_now (time : Z) (cp : coupling) : res bool :=
  i <- of_option IndexError (nth_error (cp_intervals cp) 0) ;;
  if (i =? 0)%Z then Err ZeroDivisionError else Ok (time mod i =? 0)%Z.
Definition couple (o : oracle) (S : settings) (lat : latency) (time : Z) (texts : list string)
    (cp : coupling) (st : list (eco * rng)) : res (list (eco * rng)) :=
  now <- couples_now time cp ;;
  if (now : bool) then
    d <- read_input cp texts ;;
    cs <- couple_calls (List.length st) lat d cp ;;
    prun o (map (fun c => (S, c)) cs) st
  else Ok st.

(** Couple in a run without MPI: flee.Ecosystem has no attribute [mpi]. *)
Definition couple_serial (time : Z) (texts : list string) (cp : coupling) (e : eco) : res eco :=
  now <- couples_now time cp ;;
  if (now : bool) then
    d <- read_input cp texts ;;
    e1 <- clear_locations (cp_locations cp) e ;;
    foldM (fun e2 row => let '(i, (name, direction)) := row in
             if str_in "in" direction then
               z <- of_option KeyError (dict_get name d) ;; insert_agents i z e2
             else Ok e2) (cp_rows cp) e1
  else Ok e.
