(** * RunInputs: what the main program makes of its input files before the first day *)

From Verif Require Import Base Lemmas State Moving Crawling Flee DataTable Spawning InputGeography Dates DataFiles Analysis RunScript Api Pflee ParApi RunPar
  SpecAgents SpecFiles SpecRun SpecRunPar FileProofs TableProofs RunProofs RunParBuild RunParProofs CouplingRun.
Local Open Scope string_scope.
Local Open Scope Q_scope.
Local Open Scope list_scope.

Lemma data_read files layout start factor empty d0 corr d : new_table files layout start factor empty = Ok d0 -> read_corrections start corr d0 = Ok d ->
  exists ns ts, columns files start factor layout ns ts /\ let t := DTable ns ts (if empty then 1 else 0)%Z [] in
    match corr with None => d = t | Some rows => days_ok t -> corrections start rows t d end.
Proof.
  intros H K. apply table_iff in H as (ns & ts & C & ->). exists ns, ts. split; [exact C|]. cbv zeta. destruct corr as [rows|].
  - intro Ok0. now apply corrections_iff.
  - cbn in K. congruence.
Qed.

Lemma initial_run S o dm d : forall camps e g e' g',
  foldM (fun st c => let '(e, g) := st in i <- lm_index e c ;; add_initial_refugees S dm d i e g) camps (e, g) = Ok (e', g') ->
  flags e' = flags e /\ exists is, run o (map (fun i => (S, OAddInitialRefugees dm d i)) is) e g = Ok (e', g') /\
    Forall2 (fun c i => exists l, nth_error (e_locations e') i = Some l /\ sval (l_name l) = c) camps is.
Proof.
  induction camps as [|c camps IH]; intros e g e' g' H; cbn [foldM] in H.
  - injection H as <- <-. split; [reflexivity|]. exists []. split; [reflexivity|constructor].
  - destruct (lm_index e c) as [i|] eqn:L; [|discriminate]. cbn [bind] in H.
    destruct (add_initial_refugees S dm d i e g) as [[e1 g1]|] eqn:E; [|discriminate]. cbn [bind] in H.
    apply IH in H as (F & is & R & N). assert (F' : flags e' = flags e) by (rewrite F; eapply flags_initial; exact E).
    split; [exact F'|]. exists (i :: is). split.
    + cbn [map]. rewrite run_cons. cbn [step]. rewrite E. exact R.
    + constructor; [|exact N]. unfold lm_index in L. apply of_option_ok in L. pose proof (last_index_spec c (map lname (e_locations e)) 0 None) as X.
      rewrite L in X. destruct X as [X|[_ X]]; [discriminate|]. rewrite Nat.sub_0_r in X.
      unfold flags in F'. assert (X2 : nth_error (map (fun p : pystr * bool => sval (fst p)) (map (fun l => (l_name l, l_camp l)) (e_locations e'))) i = Some c).
      { rewrite F', map_map. exact X. }
      rewrite map_map in X2. rewrite nth_error_map in X2. destruct (nth_error (e_locations e') i) as [l|]; [|discriminate]. exists l. split; [reflexivity|].
      now injection X2.
Qed.

Theorem script_inputs S o inp g w : set_up S o inp g = Ok w ->
  (exists ns ts, columns (in_files inp) (w_start w) (in_factor inp) (in_layout inp) ns ts /\
     let t := DTable ns ts (if s_EmptyCampsOnDay0 S then 1 else 0)%Z [] in
     match in_corrections inp with None => w_data w = t | Some rows => days_ok t -> corrections (w_start w) rows t (w_data w) end) /\
  exists is, run o ([(S, OStoreInput (in_factor inp) (in_geo inp) (in_changes inp))] ++
                    match in_agents inp with Some rows => [(S, OReadAgents rows)] | None => [] end ++
                    map (fun i => (S, OAddInitialRefugees (in_dm inp) (w_data w) i)) is) empty_eco g = Ok (w_eco w, w_rng w) /\
    Forall2 (fun c i => exists l, nth_error (e_locations (w_eco w)) i = Some l /\ sval (l_name l) = c) (w_camps w) is.
Proof.
  unfold set_up. intro H. destruct (read_sim_period (in_period inp)) as [[start n]|]; [|discriminate]. cbn [bind] in H. cbv zeta in H.
  destruct (store_input S o (in_factor inp) (in_geo inp) (in_changes inp) empty_eco g) as [[[e g1] ig]|] eqn:E1; [|discriminate]. cbn [bind] in H.
  destruct (match in_agents inp with Some rows => _ | None => _ end) as [e1|] eqn:E2; [|discriminate]. cbn [bind] in H.
  destruct (new_table _ _ _ _ _) as [d0|] eqn:E3; [|discriminate]. cbn [bind] in H.
  destruct (read_corrections _ _ _) as [d|] eqn:E4; [|discriminate]. cbn [bind] in H.
  destruct (foldM _ _ _) as [[e2 g2]|] eqn:E5 in H; [|discriminate]. cbn [bind] in H. injection H as <-. cbn [w_eco w_camps w_start w_end w_data w_rng].
  split; [exact (data_read _ _ _ _ _ _ _ _ E3 E4)|].
  apply (initial_run S o) in E5 as (_ & is & R & N). exists is. split; [|exact N].
  cbn [app]. rewrite run_cons. cbn [step]. rewrite E1. cbn [bind fst snd]. destruct (in_agents inp) as [rows|].
  - cbn [app]. rewrite run_cons. cbn [step]. rewrite E2. exact R.
  - injection E2 as <-. exact R.
Qed.

Theorem par_inputs S o inp gs w st : started S o inp gs w st -> gs <> [] ->
  exists ns ts, columns (in_files inp) (w_start w) (in_factor inp) (in_layout inp) ns ts /\
    let t := DTable ns ts (if s_EmptyCampsOnDay0 S then 1 else 0)%Z [] in
    match in_corrections inp with None => w_data w = t | Some rows => days_ok t -> corrections (w_start w) rows t (w_data w) end.
Proof.
  intros St N. unfold started in St. destruct gs as [|g gs]; [congruence|]. unfold pstart in St. cbn [List.length seq map combine] in St.
  inversion St as [|x [e ge] l m (p & X & _ & W1 & _ & _ & W4 & _) _ E1 E2]; subst. apply par_parts in X as (_ & X & _).
  apply setup_parts in X as (e1 & g1 & ig & e2 & _ & _ & _ & _ & _ & d0 & T & C). rewrite W1 in *. rewrite W4 in *.
  exact (data_read _ _ _ _ _ _ _ _ T C).
Qed.
