(** * Muscle: coupling through MUSCLE3 and its managers (flee/coupling.py 229-332)

    Sending and receiving messages is left to MUSCLE3: what is received in the slots is
    given.  A manager and a simulation each have their own list of coupled locations. *)

From Verif Require Import Base State Flee Api Pflee ParApi Coupling.
Local Open Scope string_scope.
Local Open Scope list_scope.

(** ["\n".join("{},{}".format(key, value) for ...)] (lines 277-279, 313-315) *)
Definition row_text (r : string * Z) : string := (fst r ++ String comma (str_of_Z (snd r)))%string.
Fixpoint joined (rows : list (string * Z)) : string :=
  match rows with
  | [] => EmptyString
  | [r] => row_text r
  | r :: rows' => (row_text r ++ String newline (joined rows'))%string
  end.

(** Couple for submodel "macro_manager" (lines 252-282) and "micro_manager" (284-318), which
    do the same: combine the texts of all instances as readInputFromFile does, and send the
    result to each instance of the other side. *)
Definition manage (cp : coupling) (texts : list string) : res string :=
  d <- read_input cp texts ;; Ok (joined d).

(** Couple for submodels "macro" and "micro" (lines 320-365): process 0 receives the message
    and broadcasts what it says. *)
Definition couple_muscle (o : oracle) (S : settings) (lat : latency) (time : Z) (message : string)
    (cp : coupling) (st : list (eco * rng)) : res (list (eco * rng)) :=
  now <- couples_now time cp ;;
  if (now : bool) then
    d <- extract_text cp message ;;
    cs <- couple_calls (List.length st) lat d cp ;;
    prun o (map (fun c => (S, c)) cs) st
  else Ok st.
