(** * PropertiesTurns: C81

    Coupled programs run at their own speed and wait for each other's files.  The
    vocabulary is in SpecTurns.v ([partners], [side_by_side], [careful], [a_round],
    [day_of]); programs, phases and schedules are in CouplingFiles.v. *)

From Verif Require Import Base State Flee Api Pflee ParApi Coupling CouplingFiles SpecTurns TurnsProofs TurnsWitness.
Local Open Scope string_scope.
Local Open Scope list_scope.
Local Open Scope nat_scope.
Local Opaque execute.

(** Different channels, instances or days never share a file. *)
Theorem C81_names : forall c i t c' i' t', filename c i t = filename c' i' t' -> c = c' /\ i = i' /\ t = t'.
Proof. exact filename_inj. Qed.
Print Assumptions C81_names.

(** C81. Whatever the order in which the programs get on, as long as no file is read
    while it is being written, every program is at the start of each day, and at the end,
    in the state it would be in if all went side by side; and none fails. *)
Theorem C81_any_schedule : forall X T (ms : list (member X)) st schedule phs d,
  partners ms -> side_by_side T ms st ->
  careful T ms schedule (at_start (map (st 0) (seq 0 (List.length ms))), no_files) ->
  execute T ms schedule (at_start (map (st 0) (seq 0 (List.length ms))), no_files) = (phs, d) ->
  List.length phs = List.length ms /\
  forall i ph, nth_error phs i = Some ph ->
    (forall t x, ph = Working t x -> t <= T /\ x = st t i) /\ (forall x, ph = Finished x -> x = st T i) /\ (forall err, ph <> Failed err).
Proof. exact (fun X T ms st schedule phs d P L => f_result T ms st P L schedule phs d). Qed.
Print Assumptions C81_any_schedule.

(** There is no deadlock: after enough rounds in which every program gets its turn, all
    have finished, in the states they would have if all went side by side. *)
Theorem C81_all_finish : forall X T (ms : list (member X)) st before rounds phs d,
  partners ms -> side_by_side T ms st -> enough T ms <= List.length rounds -> Forall (a_round ms) rounds ->
  careful T ms (before ++ List.concat rounds) (at_start (map (st 0) (seq 0 (List.length ms))), no_files) ->
  execute T ms (before ++ List.concat rounds) (at_start (map (st 0) (seq 0 (List.length ms))), no_files) = (phs, d) ->
  forall i, i < List.length ms -> nth_error phs i = Some (Finished (st T i)).
Proof. exact (fun X T ms st before rounds phs d P L => f_finishes T ms st P L before rounds phs d). Qed.
Print Assumptions C81_all_finish.

(** Hypotheses met: two simulations on two processes each, for two days; the second one
    starts first, then both take turns. *)
Example C81_case : partners pair_of /\ side_by_side 2 pair_of pair_st /\
  enough 2 pair_of <= List.length rounds /\ Forall (a_round pair_of) rounds /\
  careful 2 pair_of ([1; 1; 1] ++ List.concat rounds) (at_start (map (pair_st 0) (seq 0 (List.length pair_of))), no_files) /\
  map shown (fst (execute 2 pair_of ([1; 1; 1] ++ List.concat rounds) (at_start (map (pair_st 0) (seq 0 (List.length pair_of))), no_files))) =
    [Some [[4; 0; 0]; [4; 0; 0]]; Some [[3; 0; 0]; [3; 0; 0]]]%Z.
Proof.
  exact (conj pair_partners (conj pair_side (conj (Nat.eq_le_incl _ _ (eq_sym (repeat_length _ _))) (conj rounds_ok
    (conj (careful_ok _ _ _ _ rounds_careful) rounds_end))))).
Qed.

(** Nobody runs ahead: a program gets past a day of coupling only after those it reads
    from have reached that day.  With coupling every day they are at most a day apart. *)
Theorem C81_waits : forall X T (ms : list (member X)) st schedule phs d i j m m' ph ph' t,
  partners ms -> side_by_side T ms st ->
  careful T ms schedule (at_start (map (st 0) (seq 0 (List.length ms))), no_files) ->
  execute T ms schedule (at_start (map (st 0) (seq 0 (List.length ms))), no_files) = (phs, d) ->
  nth_error ms i = Some m -> nth_error ms j = Some m' -> m_out m' = m_in m -> m_index m' < m_num m ->
  nth_error phs i = Some ph -> nth_error phs j = Some ph' -> m_now m t = true -> t < day_of T ph -> t <= day_of T ph'.
Proof. exact (fun X T ms st schedule phs d i j m m' ph ph' t P L => f_waits T ms st P L schedule phs d i j m m' ph ph' t). Qed.
Print Assumptions C81_waits.

Example C81_waits_case : nth_error pair_of 0 = Some macro /\ nth_error pair_of 1 = Some micro /\
  m_out micro = m_in macro /\ m_index micro < m_num macro /\ m_now macro 0 = true /\ m_now macro 1 = true.
Proof. repeat split; vm_compute; reflexivity. Qed.

(** If nobody writes the file that a program waits for on some day, the program never gets
    past that day; so it is with programs that couple at different intervals. *)
Theorem C81_stuck : forall X T (ms : list (member X)) xs i k t m schedule phs d ph,
  nth_error ms i = Some m -> k < m_num m -> m_now m t = true -> t < T ->
  (forall j m', nth_error ms j = Some m' -> m_out m' = m_in m -> m_index m' = k -> m_now m' t = false) ->
  execute T ms schedule (at_start xs, no_files) = (phs, d) -> nth_error phs i = Some ph ->
  (exists err, ph = Failed err) \/ day_of T ph <= t.
Proof. exact (fun X T ms xs i k t m schedule phs d ph I K N Lt O => f_stuck T ms i k t m I K N Lt O xs schedule phs d ph). Qed.
Print Assumptions C81_stuck.

(** Coupling every day with a partner that couples every second day *)
Example C81_stuck_case : nth_error [macro; slow] 0 = Some macro /\ 0 < m_num macro /\ m_now macro 1 = true /\ 1 < 3 /\
  forall j m', nth_error [macro; slow] j = Some m' -> m_out m' = m_in macro -> m_index m' = 0 -> m_now m' 1 = false.
Proof. exact slow_case. Qed.

(** The code does nothing to make schedules careful: it waits until a file exists, not
    until it is complete.  A program that reads too early stops with a KeyError … *)
Theorem C81_open_file_refuted : exists T (ms : list (member (list (eco * rng)))) st schedule, partners ms /\ side_by_side T ms st /\
  nth_error (fst (execute T ms schedule (at_start (map (st 0) (seq 0 (List.length ms))), no_files))) 1 = Some (Failed KeyError).
Proof. exact (ex_intro _ 2 (ex_intro _ pair_of (ex_intro _ pair_st (ex_intro _ too_early (conj pair_partners (conj pair_side too_early_fails)))))). Qed.
Print Assumptions C81_open_file_refuted.

(** … or, with several instances, goes on with the numbers of the others only. *)
Theorem C81_instances_refuted : exists T (ms : list (member (list (eco * rng)))) xs schedule schedule' ys ys', partners ms /\
  careful T ms schedule (at_start xs, no_files) /\
  fst (execute T ms schedule (at_start xs, no_files)) = map Finished ys /\
  fst (execute T ms schedule' (at_start xs, no_files)) = map Finished ys' /\ ys <> ys'.
Proof. exact silent. Qed.
Print Assumptions C81_instances_refuted.

(** Files of an earlier run in the folder are taken for those of this one. *)
Theorem C81_old_files_refuted : exists T (ms : list (member (list (eco * rng)))) xs old schedule ys ys', partners ms /\
  careful T ms schedule (at_start xs, old) /\ careful T ms schedule (at_start xs, no_files) /\
  fst (execute T ms schedule (at_start xs, old)) = map Finished ys /\
  fst (execute T ms schedule (at_start xs, no_files)) = map Finished ys' /\ ys <> ys'.
Proof. exact stale. Qed.
Print Assumptions C81_old_files_refuted.
