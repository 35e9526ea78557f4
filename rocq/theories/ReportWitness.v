(** * ReportWitness: concrete cases for the properties of scores and logs *)

From Verif Require Import Base State Moving Crawling Scoring Diagnostics Flee DataTable Spawning InputGeography Api
  SpecAgents SpecHistory SpecZones SpecReports Lemmas Defaults ExampleRun ClosureWitness.
Local Open Scope string_scope.
Local Open Scope Q_scope.
Local Opaque run.

(** The example network with two flood zones: F (level 2, no forecast) and G (level 1,
    forecast level 2), after one day *)
Definition flood_S : settings :=
  up_s_FloodLocWeights (fun _ => Some [1; 1 # 2; 1 # 4]) (up_s_FloodForecaster (fun _ => true)
  (up_s_FloodForecasterTimescale (fun _ => Some 3%Z) (up_s_FloodForecasterEndTime (fun _ => Some 3%Z)
  (up_s_FloodForecasterWeights (fun _ => Some [1; 1; 1 # 2; 1 # 4])
  (up_s_CampWeight (fun _ => 2) (up_s_ForeignWeight (fun _ => 3 # 2) ex_S)))))).
Definition flood_ops : list op :=
  [ OAddLocation (PS "F" 4) "r" 1 1 (Some "flood_zone") 1 (-1) 10 false "X" (Some [("flood_level", VInt 2)]);
    OAddLocation (PS "G" 5) "r" 1 1 (Some "flood_zone") 1 (-1) 10 false "X"
      (Some [("flood_level", VInt 1); ("forecast_flood_level", VInt 2)]) ].
Definition flood_run : res (eco * rng) :=
  run ex_oracle (map (pair ex_S) (ex_build ++ [OEvolve 10])%list ++ map (pair flood_S) flood_ops)%list empty_eco ex_draws.
Definition flood_eco := end_eco flood_run.
Definition flood_rng := end_rng flood_run.
Lemma flood_reachable : reachable ex_oracle flood_eco flood_rng.
Proof.
  assert (H : is_ok flood_run = true) by (vm_compute; reflexivity).
  exact (ex_intro _ _ (ex_intro _ _ (end_ok flood_run H))).
Qed.

(** Deciding [floods_ok] *)
Definition entry_b (t : option (list Q)) (i : Z) : bool :=
  match t with Some l => ((0 <=? i) && (i <? Z.of_nat (List.length l)))%Z%bool | None => false end.
Lemma entry_b_ok t i : entry_b t i = true -> has_entry t i.
Proof.
  destruct t as [l|]; cbn; [|discriminate]. intro H. apply Bool.andb_true_iff in H as [A B].
  apply Z.leb_le in A. apply Z.ltb_lt in B. auto.
Qed.
Definition flood_b (S : settings) (day : Z) (l : location) (d : dict) : bool :=
  (negb (l_flood_zone l) || match dict_get "flood_level" d with
   | None => true
   | Some (VInt level) => entry_b (s_FloodLocWeights S) level &&
       match window S day with
       | None => true
       | Some (ts, last) => match dict_get "forecast_flood_level" d with
           | None => true
           | Some (VInt f) => (negb (0 <? f)%Z || (entry_b (s_FloodLocWeights S) f &&
               forallb (entry_b (s_FloodForecasterWeights S)) (forecast_days day ts last)))
           | _ => false
           end
       end
   | _ => false
   end)%bool.
Lemma flood_b_ok S day l d : flood_b S day l d = true -> flood_ok S day l d.
Proof.
  unfold flood_b, flood_ok. intros H Z v V. rewrite Z, V in H. cbn [negb orb] in H.
  destruct v as [lv| | |]; try discriminate. apply Bool.andb_true_iff in H as [A B]. split; [exists lv; auto using entry_b_ok|].
  intros ts last W f F. rewrite W, F in B. destruct f as [f| | |]; try discriminate. exists f. split; [reflexivity|]. intro Pf.
  apply Z.ltb_lt in Pf. rewrite Pf in B. cbn [negb orb] in B. apply Bool.andb_true_iff in B as [B C]. split; [now apply entry_b_ok|].
  intros x Hx. rewrite forallb_forall in C. apply entry_b_ok, C, Hx.
Qed.
Definition floods_b (S : settings) (e : eco) : bool :=
  forallb (fun l => match nth_error (e_dicts e) (l_attributes l) with Some d => flood_b S (e_time e) l d | None => true end) (e_locations e).
Lemma floods_b_ok S e : floods_b S e = true -> floods_ok S e.
Proof.
  unfold floods_b, floods_ok, attributes_of. rewrite forallb_forall. intros H l d L D. specialize (H l L). rewrite D in H. now apply flood_b_ok.
Qed.

Definition scores (r : res (eco * rng)) : res (list (Q * Q)) :=
  rmap (fun r => map (fun l => (l_score0 l, Qred (l_score1 l))) (e_locations (fst r))) r.

(** Settings with an agent log of the given level *)
Definition log_S (k : Z) : settings := up_s_log_agent (fun _ => k) ex_S.
