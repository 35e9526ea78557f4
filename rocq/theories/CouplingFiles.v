(** * CouplingFiles: coupled simulations that wait for each other's files (flee/coupling.py)

    Several programs run at the same time, each with its own speed.  They share a folder. *)

From Verif Require Import Base State Flee Api Pflee ParApi Coupling.
Local Open Scope string_scope.
Local Open Scope list_scope.

(** The folder out/file/coupled: the content of each file *)
Definition folder : Type := string -> option string.
Definition no_files : folder := fun _ => None.
Definition exists_file (d : folder) (f : string) : bool := match d f with Some _ => true | None => false end.
(** [open(f, "a")]: creates the file if there is none *)
Definition open_file (f : string) (d : folder) : folder :=
  fun g => if String.eqb g f then Some (match d f with Some s => s | None => "" end) else d g.
(** What was written reaches the file when it is closed. *)
Definition append_file (f s : string) (d : folder) : folder :=
  fun g => if String.eqb g f then Some ((match d f with Some s0 => s0 | None => "" end) ++ s)%string else d g.

(** [CouplingInterface.writeOutputToFile], line 459, and [readInputFromFile], line 513:
    "{channel}[{instance}].{day}.csv" *)
Definition filename (channel : string) (instance day : nat) : string :=
  (channel ++ "[" ++ str_of_Z (Z.of_nat instance) ++ "]." ++ str_of_Z (Z.of_nat day) ++ ".csv")%string.

(** A coupled program with states [X]: outputchannel, instance_index, inputchannel,
    num_instances (lines 41-100, 369-385); the days on which it couples (line 247); what
    it does on a day before it couples, the text it writes (line 458), and what it does
    with the texts of the files it reads (lines 519-365). *)
Record member (X : Type) : Type := Member {
  m_out : string; m_index : nat; m_in : string; m_num : nat;
  m_now : nat -> bool;
  m_work : nat -> X -> res X;
  m_text : nat -> X -> res string;
  m_take : nat -> list string -> X -> res X }.
Arguments Member {X}. Arguments m_out {X}. Arguments m_index {X}. Arguments m_in {X}. Arguments m_num {X}.
Arguments m_now {X}. Arguments m_work {X}. Arguments m_text {X}. Arguments m_take {X}.

(** Where a program is: at the start of a day; with its file open and the text in the
    buffer; in the loop of waitForInputFiles, with the files found so far (lines 487-495);
    after reading some of the files (lines 521-523); done; or stopped by an exception. *)
Inductive phase (X : Type) : Type :=
| Working (t : nat) (x : X)
| Opened (t : nat) (x : X) (text : string)
| Waiting (t : nat) (x : X) (found : list bool)
| Reading (t : nat) (x : X) (texts : list string)
| Finished (x : X)
| Failed (err : exn).
Arguments Working {X}. Arguments Opened {X}. Arguments Waiting {X}. Arguments Reading {X}.
Arguments Finished {X}. Arguments Failed {X}.

Definition input_files {X} (m : member X) (t : nat) : list string :=
  map (fun k => filename (m_in m) k t) (seq 0 (m_num m)).

(** What a program does when it is its turn: the work of a day up to opening the file;
    closing the file; one pass of the waiting loop (files never disappear, so that a pass
    may be taken as one step); reading one file; going on after the last one.  [T] is the
    number of days. *)
Definition act {X} (T : nat) (m : member X) (ph : phase X) (d : folder) : phase X * folder :=
  match ph with
  | Working t x =>
      if (t <? T)%nat then
        match m_work m t x with
        | Err err => (Failed err, d)
        | Ok x1 =>
            if m_now m t then
              match m_text m t x1 with
              | Err err => (Failed err, d)
              | Ok s => (Opened t x1 s, open_file (filename (m_out m) (m_index m) t) d)
              end
            else (Working (S t) x1, d)
        end
      else (Finished x, d)
  | Opened t x s => (Waiting t x (repeat false (m_num m)), append_file (filename (m_out m) (m_index m) t) s d)
  | Waiting t x found =>
      let found1 := map (fun p => (fst p || exists_file d (snd p))%bool) (combine found (input_files m t)) in
      if forallb (fun b => b) found1 then (Reading t x [], d) else (Waiting t x found1, d)
  | Reading t x texts =>
      if (List.length texts <? m_num m)%nat then
        match d (filename (m_in m) (List.length texts) t) with
        | None => (Failed OSError, d)
        | Some s => (Reading t x (texts ++ [s]), d)
        end
      else match m_take m t texts x with Err err => (Failed err, d) | Ok x1 => (Working (S t) x1, d) end
  | Finished _ | Failed _ => (ph, d)
  end.

(** The programs take turns in the order of a schedule. *)
Definition turn {X} (T : nat) (ms : list (member X)) (sys : list (phase X) * folder) (who : nat) : list (phase X) * folder :=
  match nth_error ms who, nth_error (fst sys) who with
  | Some m, Some ph => let '(ph1, d1) := act T m ph (snd sys) in (upd who (fun _ => ph1) (fst sys), d1)
  | _, _ => sys
  end.
Definition execute {X} (T : nat) (ms : list (member X)) (schedule : list nat) (sys : list (phase X) * folder)
  : list (phase X) * folder := fold_left (turn T ms) schedule sys.

(** A simulation with coupled locations [cp] (Couple, lines 229-365, coupling type "file"),
    on any number of processes; [work] is what it does on a day, process 0 writes. *)
Definition flee_member (out : string) (index : nat) (inp : string) (num : nat) (o : oracle) (S : settings) (lat : latency)
    (cp : coupling) (work : nat -> list (eco * rng) -> res (list (eco * rng))) : member (list (eco * rng)) :=
  {| m_out := out; m_index := index; m_in := inp; m_num := num;
     m_now := fun t => match couples_now (Z.of_nat t) cp with Ok b => b | Err _ => true end;
     m_work := work;
     m_text := fun t st => _ <- couples_now (Z.of_nat t) cp ;; p <- of_option IndexError (nth_error st 0) ;; output_csv (fst p) cp;
     m_take := fun t texts st => couple o S lat (Z.of_nat t) texts cp st |}.
