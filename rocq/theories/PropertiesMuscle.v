(** * PropertiesMuscle: C83

    Coupling through MUSCLE3: each simulation sends its table to a manager, the managers
    send what they combined to the simulations on the other side.  Vocabulary:
    SpecCoupling.v, SpecExchange.v. *)

From Coq Require Import Qabs.
From Verif Require Import Base State Flee Api SpecHistory Pflee ParApi SpecParallel Coupling SpecCoupling
  Defaults ExampleRun ParallelWitness CouplingText CouplingRun CouplingWitness SpecExchange ExchangeProofs GhostProofs ExchangeWitness
  Muscle MuscleProofs MuscleWitness.
Local Open Scope string_scope.
Local Open Scope list_scope.
Local Opaque prun run.

(** C83. The tables [texts] of the instances of one side go through a manager.  What an
    instance of the other side gets from the message: for each name that the manager knows,
    the average of the numbers given for it, rounded to a nearest integer, and nothing for
    other names. *)
Theorem C83_mean : forall cm cp texts message ds, Forall plain (cp_names cm) -> manage cm texts = Ok message ->
  Forall2 (fun t x => extract_text cp t = Ok x) texts ds ->
  exists d, extract_text cp message = Ok d /\
    (forall n z, dict_get n d = Some z -> In n (cp_names cm) /\ given n ds <> [] /\ (Qabs (inject_Z z - average (given n ds)) <= 1 # 2)%Q /\
       forall a b, (forall y, In y (given n ds) -> (a <= y <= b)%Z) -> (a <= z <= b)%Z) /\
    (forall n, dict_get n d = None -> ~ In n (cp_names cm) \/ given n ds = []).
Proof. exact f_between. Qed.
Print Assumptions C83_mean.

Example C83_mean_example :
  Forall plain (cp_names short_cp) /\ Forall plain (cp_names sender_cp) /\
  manage sender_cp [("east,1" ++ lf ++ "west,2" ++ lf)%string; ("west,3" ++ lf ++ "east,4" ++ lf)%string] = Ok ("east,2" ++ lf ++ "west,2")%string /\
  manage short_cp [("east,1" ++ lf ++ "west,2" ++ lf)%string; ("west,3" ++ lf ++ "east,5" ++ lf)%string] = Ok "east,3" /\
  extract_text other_cp ("east,1" ++ lf ++ "west,2" ++ lf)%string = Ok [("east", 1%Z); ("west", 2%Z)] /\
  extract_text other_cp ("west,3" ++ lf ++ "east,5" ++ lf)%string = Ok [("west", 3%Z); ("east", 5%Z)] /\
  extract_text other_cp "east,3" = Ok [("east", 3%Z)].
Proof. split; [exact short_plain|]. split; [exact sender_plain|]. repeat split; vm_compute; reflexivity. Qed.

(** If the manager knows the names of the incoming locations, the exchange does what it does
    through files: the same people are there afterwards, or it fails in the same way. *)
Theorem C83_as_files : forall o S lat time cm cp texts message d st, Forall plain (cp_names cm) ->
  (forall i name dir, coupled cp i name dir -> says "in" dir -> In name (cp_names cm)) ->
  manage cm texts = Ok message -> read_input cp texts = Ok d ->
  couple_muscle o S lat time message cp st = couple o S lat time texts cp st.
Proof. exact f_same. Qed.
Print Assumptions C83_as_files.

(** A manager with the same names as an instance fails exactly when the instance would fail
    on the files, in the same way, and has the same result. *)
Theorem C83_same_names : forall cm cp, (forall n, In n (cp_names cm) <-> In n (cp_names cp)) ->
  forall texts, read_input cm texts = read_input cp texts.
Proof. exact f_names. Qed.
Print Assumptions C83_same_names.

(** An incoming location whose name the manager does not know makes the instance fail,
    although the files would do … *)
Theorem C83_unknown : forall o S lat time cm cp texts message d st i name dir, Forall plain (cp_names cm) -> manage cm texts = Ok message ->
  read_input cp texts = Ok d -> at_interval time cp -> coupled cp i name dir -> says "in" dir -> ~ In name (cp_names cm) ->
  couple_muscle o S lat time message cp st = Err KeyError.
Proof. exact f_unknown. Qed.
Print Assumptions C83_unknown.

(** … so that the managers cannot always stand in for the files. *)
Theorem C83_as_files_refuted : exists o S lat time cm cp texts message st st',
  Forall plain (cp_names cm) /\ (exists name, In name (cp_names cm) /\ In name (cp_names cp)) /\ manage cm texts = Ok message /\
  couple o S lat time texts cp st = Ok st' /\ couple_muscle o S lat time message cp st = Err KeyError.
Proof. exact short_manager. Qed.
Print Assumptions C83_as_files_refuted.

Example C83_unknown_example :
  manage short_cp [other_text false] = Ok short_message /\ read_input sender_cp [other_text false] = Ok [("east", 1%Z); ("south", 4%Z)] /\
  at_interval 0 sender_cp /\ (coupled sender_cp 2 "south" "in" /\ says "in" "in") /\ ~ In "south" (cp_names short_cp) /\
  (forall n, In n (cp_names sender_cp) <-> In n (cp_names other_cp)).
Proof.
  split; [exact short_managed|]. split; [exact other_read|]. split; [exact sender_at|]. split; [exact south_in|]. split; [exact south_unknown|].
  rewrite sender_list, other_list. reflexivity.
Qed.

(** Two parallel runs, one of each side, and a manager for each: nobody is created, and
    exactly the people in coupled locations that are not outgoing are lost. *)
Theorem C83_conserved : forall oA nA cpA cmA stA eA textA messageA stA' SA latA oB nB cpB cmB stB eB textB messageB stB' SB latB time,
  takes_part oA nA cpA stA -> takes_part oB nB cpB stB -> leads_to cpA cpB -> leads_to cpB cpA ->
  at_interval time cpA -> at_interval time cpB ->
  Forall plain (cp_names cmA) -> (forall i name dir, coupled cpA i name dir -> says "out" dir -> In name (cp_names cmA)) ->
  Forall plain (cp_names cmB) -> (forall i name dir, coupled cpB i name dir -> says "out" dir -> In name (cp_names cmB)) ->
  In eA (map fst stA) -> output_csv eA cpA = Ok textA -> In eB (map fst stB) -> output_csv eB cpB = Ok textB ->
  manage cmA [textA] = Ok messageA -> manage cmB [textB] = Ok messageB ->
  couple_muscle oA SA latA time messageB cpA stA = Ok stA' -> couple_muscle oB SB latB time messageA cpB stB = Ok stB' ->
  (people stA' + people stB' + stranded stA cpA + stranded stB cpB = people stA + people stB)%Z.
Proof. exact f_conserved. Qed.
Print Assumptions C83_conserved.

(** Hypotheses met (see also C77_example): three people in the first run and five in the
    second one change places. *)
Example C83_conserved_example :
  takes_part ex_oracle 2 sender_cp (par_end two_one) /\ takes_part ex_oracle 2 other_cp (par_end (other_prog false)) /\
  leads_to sender_cp other_cp /\ leads_to other_cp sender_cp /\ at_interval 0 sender_cp /\ at_interval 0 other_cp /\
  Forall plain (cp_names sender_cp) /\ (forall i name dir, coupled sender_cp i name dir -> says "out" dir -> In name (cp_names sender_cp)) /\
  Forall plain (cp_names other_cp) /\ (forall i name dir, coupled other_cp i name dir -> says "out" dir -> In name (cp_names other_cp)) /\
  In sender (map fst (par_end two_one)) /\ output_csv sender sender_cp = Ok sender_text /\
  In (other false) (map fst (par_end (other_prog false))) /\ output_csv (other false) other_cp = Ok (other_text false) /\
  manage sender_cp [sender_text] = Ok sender_message /\ manage other_cp [other_text false] = Ok other_message /\
  couple_muscle ex_oracle par_S HighLatency 0 other_message sender_cp (par_end two_one) = Ok (sender_after false) /\
  couple_muscle ex_oracle par_S HighLatency 0 sender_message other_cp (par_end (other_prog false)) = Ok (other_after false) /\
  sender_message = ("east,2" ++ lf ++ "west,1")%string /\ other_message = ("east,1" ++ lf ++ "south,4")%string /\
  (people (par_end two_one), people (par_end (other_prog false)), people (sender_after false), people (other_after false)) = (3, 5, 5, 3)%Z.
Proof.
  split; [exact sender_takes|]. split; [apply other_takes|]. split; [exact sender_leads|]. split; [exact other_leads|].
  split; [exact sender_at|]. split; [exact other_at|]. split; [exact sender_plain|]. split; [apply knows|]. split; [exact other_plain|]. split; [apply knows|].
  split; [exact sender_in|]. split; [exact sender_writes|]. split; [apply other_in|]. split; [apply other_writes|].
  split; [exact sender_managed|]. split; [exact other_managed|]. split; [exact sender_receives|]. split; [exact other_receives|].
  split; [vm_compute; reflexivity|]. split; vm_compute; reflexivity.
Qed.
