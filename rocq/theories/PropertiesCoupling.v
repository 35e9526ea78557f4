(** * PropertiesCoupling: C39, C52, C53

    Coupled simulations exchange tables of names and numbers of agents.  The vocabulary
    ([plain], [sends], [coupled], [says], [ignored], [given]) is in SpecCoupling.v, that for
    parallel runs in SpecParallel.v. *)

From Coq Require Import Qabs.
From Verif Require Import Base State Flee Api SpecHistory Pflee ParApi SpecParallel Coupling SpecCoupling
  Defaults ExampleRun ParallelWitness CouplingText CouplingMean CouplingRun CouplingWitness.
Local Open Scope string_scope.
Local Open Scope list_scope.
Local Opaque prun run.

(** C39. Reading the text that a simulation [e] wrote gives exactly the numbers of agents of
    its outgoing locations, for the names that the reader knows. *)
Theorem C39_round_trip : forall e cp reader text,
  (forall n z, sends e cp n z -> plain n) -> certain e cp -> output_csv e cp = Ok text ->
  exists d, extract_text reader text = Ok d /\
    forall n z, dict_get n d = Some z <-> In n (cp_names reader) /\ sends e cp n z.
Proof. exact round_trip. Qed.
Print Assumptions C39_round_trip.

(** Empty lines, comments and rows of unknown names make no difference. *)
Theorem C39_ignored : forall reader before line after, ignored reader line ->
  extract reader (before ++ line :: after) = extract reader (before ++ after).
Proof. exact extract_skips. Qed.
Print Assumptions C39_ignored.

(** A file that is there already is appended to; then the new numbers count, and the old
    ones of names that are not sent again remain. *)
Theorem C39_append : forall old e cp reader text d, whole_lines old -> extract_text reader old = Ok d ->
  (forall n z, sends e cp n z -> plain n) -> certain e cp -> write_output old e cp = Ok text ->
  whole_lines text /\
  exists d', extract_text reader text = Ok d' /\
    (forall n z, sends e cp n z -> In n (cp_names reader) -> dict_get n d' = Some z) /\
    (forall n, ~ In n (cp_names reader) \/ (forall z, ~ sends e cp n z) -> dict_get n d' = dict_get n d).
Proof. exact appended. Qed.
Print Assumptions C39_append.

(** A name with a comma is written but never read. *)
Theorem C39_comma_refuted : exists e cp text d, declared e cp /\ certain e cp /\ sends e cp "a,b" 2 /\
  output_csv e cp = Ok text /\ extract_text cp text = Ok d /\ dict_get "a,b" d = None.
Proof. exact comma_name. Qed.
Print Assumptions C39_comma_refuted.

Example C39_example :
  declared sender sender_cp /\
  output_csv sender sender_cp = Ok ("east,2" ++ lf ++ "west,1" ++ lf)%string /\
  extract_text sender_cp ("#day 1" ++ lf ++ "east,2" ++ lf ++ "north,7" ++ lf ++ "west,1" ++ lf)%string = Ok [("east", 2%Z); ("west", 1%Z)] /\
  ignored sender_cp "north,7" /\ ignored sender_cp "#day 1" /\
  write_output ("south,4" ++ lf ++ "east,9" ++ lf)%string sender sender_cp = Ok ("south,4" ++ lf ++ "east,9" ++ lf ++ "east,2" ++ lf ++ "west,1" ++ lf)%string /\
  extract_text sender_cp ("south,4" ++ lf ++ "east,9" ++ lf ++ "east,2" ++ lf ++ "west,1" ++ lf)%string = Ok [("south", 4%Z); ("east", 2%Z); ("west", 1%Z)] /\
  plain "east" /\ plain "west".
Proof.
  split; [apply cp0_declared; vm_compute; reflexivity|]. split; [vm_compute; reflexivity|]. split; [vm_compute; reflexivity|].
  split; [right; right; exists "north", "7"; split; [reflexivity|]; split; [|vm_compute; intros H; repeat (destruct H as [H|H]; [discriminate H|]); exact H];
    vm_compute; intros H; repeat (destruct H as [H|H]; [discriminate H|]); exact H|].
  split; [right; left; eexists; reflexivity|]. split; [vm_compute; reflexivity|]. split; [vm_compute; reflexivity|].
  split; (split; [|split; [|discriminate]]); vm_compute; intros H; repeat (destruct H as [H|H]; [discriminate H|]); exact H.
Qed.

(** C52. In a parallel run, after an exchange each incoming location holds exactly the number
    of agents that was read for it and each purely outgoing location holds none; all other
    locations and all roads keep their agents, and every process sees these head counts. *)
Theorem C52_exchange : forall o n S lat time texts cp st st' e1 e0 d, (0 < n)%nat -> preachable o n st ->
  declared e1 cp -> In e0 (map fst st) ->
  map (fun l => sval (l_name l)) (e_locations e0) = map (fun l => sval (l_name l)) (e_locations e1) ->
  NoDup (map (fun l => sval (l_name l)) (e_locations e1)) ->
  (forall l, In l (e_locations e1) -> not_road (sval (l_name l))) ->
  at_interval time cp -> read_input cp texts = Ok d ->
  couple o S lat time texts cp st = Ok st' ->
  (forall i name dir, coupled cp i name dir -> says "in" dir ->
     exists z, dict_get name d = Some z /\ people_in st' i = Z.max 0 z) /\
  (forall i name dir, coupled cp i name dir -> ~ says "in" dir -> people_in st' i = 0%Z) /\
  (forall i, (forall name dir, ~ coupled cp i name dir) -> people_in st' i = people_in st i) /\
  (forall k, people_on st' k = people_on st k) /\
  (forall e i l, In e (map fst st') -> nth_error (e_locations e) i = Some l -> l_numAgents l = people_in st' i).
Proof. exact exchange. Qed.
Print Assumptions C52_exchange.

(** If the text was written by a simulation [eA], the incoming locations hold what that
    simulation sent. *)
Theorem C52_hand_over : forall o n S lat time cpA eA text cp st st' e1 e0,
  (forall nm z, sends eA cpA nm z -> plain nm /\ (0 <= z)%Z) -> certain eA cpA -> output_csv eA cpA = Ok text ->
  (0 < n)%nat -> preachable o n st ->
  declared e1 cp -> In e0 (map fst st) ->
  map (fun l => sval (l_name l)) (e_locations e0) = map (fun l => sval (l_name l)) (e_locations e1) ->
  NoDup (map (fun l => sval (l_name l)) (e_locations e1)) ->
  (forall l, In l (e_locations e1) -> not_road (sval (l_name l))) ->
  at_interval time cp -> couple o S lat time [text] cp st = Ok st' ->
  forall i name dir, coupled cp i name dir -> says "in" dir -> sends eA cpA name (people_in st' i).
Proof. exact hand_over. Qed.
Print Assumptions C52_hand_over.

(** At other times nothing happens. *)
Theorem C52_interval : forall o S lat time texts cp st,
  between_intervals time cp -> couple o S lat time texts cp st = Ok st.
Proof. exact no_exchange. Qed.
Print Assumptions C52_interval.

(** Without MPI an exchange works only if all agents are in coupled locations (the loop that
    removes agents raises an exception as soon as it has to keep one). *)
Theorem C52_serial : forall time texts cp e e', at_interval time cp ->
  couple_serial time texts cp e = Ok e' ->
  forall a, In a (e_agents e) -> exists n, In n (cp_locations cp) /\ pos_name e (a_location a) = Ok n.
Proof. exact couple_serial_places. Qed.
Print Assumptions C52_serial.
Theorem C52_serial_refuted : exists o e g cp, reachable o e g /\ declared e cp /\ e_agents e <> [] /\
  couple_serial 0 [("south,3" ++ lf)%string] cp e = Err TypeError.
Proof. exact serial_fails. Qed.
Print Assumptions C52_serial_refuted.

(** An incoming location without an entry in the input ends the run, although the code
    goes on to test for this case. *)
Theorem C52_no_entry_refuted : exists o S lat st cp e, preachable o 2 st /\ In e (map fst st) /\ declared e cp /\
  couple o S lat 0 ["east,3"] cp st = Err KeyError.
Proof. exact no_entry. Qed.
Print Assumptions C52_no_entry_refuted.

Example C52_example :
  let st := par_end two_one in
  let text := ("east,5" ++ lf ++ "south,4" ++ lf)%string in
  preachable ex_oracle 2 st /\ declared sender sender_cp /\ In sender (map fst st) /\
  map (fun l => sval (l_name l)) (e_locations sender) = ["A"; "B"; "C"] /\
  at_interval 3 sender_cp /\
  map (people_in st) [0; 1; 2]%nat = [2; 1; 0]%Z /\
  rmap (fun st' => (map (people_in st') [0; 1; 2]%nat, map (fun p => map l_numAgents (e_locations (fst p))) st'))
    (couple ex_oracle par_S HighLatency 3 [text] sender_cp st) = Ok ([5; 0; 4]%Z, [[5; 0; 4]; [5; 0; 4]]%Z).
Proof.
  cbv zeta. split; [apply par_reachable; vm_compute; reflexivity|]. split; [apply cp0_declared; vm_compute; reflexivity|].
  split; [vm_compute; now left|]. split; [vm_compute; reflexivity|]. split; [apply now_at; reflexivity|]. vm_compute. repeat split; reflexivity.
Qed.

(** C53. With several instances the number taken for a name is the mean of the numbers given
    for it, rounded to a nearest integer; so it lies between the smallest and the largest of
    them.  Names that no instance gives are missing. *)
Theorem C53_mean : forall cp texts d, read_input cp texts = Ok d ->
  exists ds, Forall2 (fun t x => extract_text cp t = Ok x) texts ds /\
    (forall n z, dict_get n d = Some z -> given n ds <> [] /\ (Qabs (inject_Z z - average (given n ds)) <= 1 # 2)%Q /\
       forall a b, (forall y, In y (given n ds) -> (a <= y <= b)%Z) -> (a <= z <= b)%Z) /\
    (forall n, dict_get n d = None -> given n ds = []).
Proof. exact input_between. Qed.
Print Assumptions C53_mean.

(** With one instance it is the number given. *)
Theorem C53_one_instance : forall cp text d, extract_text cp text = Ok d ->
  exists d', read_input cp [text] = Ok d' /\ forall n, dict_get n d' = dict_get n d.
Proof. exact one_instance. Qed.
Print Assumptions C53_one_instance.

(** Reading works if no instance gives a name that is missing in all earlier ones (unless
    these give nothing at all); *)
Theorem C53_success : forall cp texts ds, Forall2 (fun t x => extract_text cp t = Ok x) texts ds ->
  (forall k d, nth_error ds k = Some d -> forall n z, dict_get n d = Some z ->
     forall j c, (j < k)%nat -> nth_error ds j = Some c -> c <> [] ->
     exists i b y, (i < k)%nat /\ nth_error ds i = Some b /\ dict_get n b = Some y) ->
  exists d, read_input cp texts = Ok d.
Proof. exact read_input_ok. Qed.
Print Assumptions C53_success.
(** otherwise it fails, and whether it does depends on the order of the instances. *)
Theorem C53_order_refuted : exists cp, (exists e, declared e cp) /\
  is_ok (read_input cp [("east,1" ++ lf)%string; ("east,1" ++ lf ++ "west,2" ++ lf)%string]) = false /\
  is_ok (read_input cp [("east,1" ++ lf ++ "west,2" ++ lf)%string; ("east,1" ++ lf)%string]) = true.
Proof. exact later_name. Qed.
Print Assumptions C53_order_refuted.

Example C53_example :
  read_input sender_cp [("east,1" ++ lf ++ "west,2" ++ lf)%string; ("west,3" ++ lf ++ "east,4" ++ lf)%string; ("east,9" ++ lf)%string]
    = Ok [("east", 5%Z); ("west", 2%Z)].
Proof. vm_compute. reflexivity. Qed.
