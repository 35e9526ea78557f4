(** * CrawlWitness: concrete stored routes *)

From Coq Require Import Lia Lqa.
From Verif Require Import Base State Moving Crawling Scoring Diagnostics Flee DataTable
  Spawning InputGeography Api SpecAgents SpecHistory SpecRoutes SpecCrawl Defaults ExampleRun Lemmas CrawlProofs.
Local Open Scope Q_scope.
Local Open Scope string_scope.
Local Open Scope list_scope.

Local Opaque run.

Definition fixed_S (level : Z) : settings :=
  up_s_AwarenessLevel (fun _ => level) (up_s_FixedRoutes (fun _ => true) default_settings).

Lemma ex_pow_respects : pow_respects ex_oracle.
Proof.
  intros x y z E. unfold ex_oracle. cbn [o_pow]. destruct (Qeqb z 0); [reflexivity|].
  destruct (Qeqb z 1); [exact E|]. now rewrite E.
Qed.

(** A triangle in which the direct road A-C is long *)
Definition tri_build : list op :=
  [ OAddLocation nA "r" 0 0 (Some "town") 1 (-1) 100 false "X" (Some []);
    OAddLocation nB "r" 1 0 (Some "town") 1 (-1) 50 false "X" (Some []);
    OAddLocation nC "r" 2 0 (Some "camp") 1 1000 0 true "Y" (Some []);
    OLinkUp "A" "B" 100 false None; OLinkUp "B" "C" 100 false None; OLinkUp "A" "C" 1000 false None ].
Definition tri_run (level : Z) : res (eco * rng) :=
  run ex_oracle (map (pair (fixed_S level)) (tri_build ++ [OEvolve 10])) empty_eco ex_draws.
Definition tri (level : Z) : eco := end_eco (tri_run level).

Definition summary (r : res (eco * rng)) (i : nat) : list (string * Q * list string) :=
  match r with
  | Ok (e, _) => map (fun x : stored => let '(n, (w, st, _)) := x in (n, Qred w, st)) (routes_at e i)
  | Err _ => []
  end.

Lemma tri_summary : summary (tri_run 2) 0 = [("B", 1 # 110, ["B"]); ("C", 1 # 210, ["B"; "C"])] /\
  summary (tri_run 1) 0 = [("B", 1 # 110, ["B"]); ("C", 1 # 1010, ["C"])].
Proof. vm_compute. split; reflexivity. Qed.

(** A line A-B-C with a major route A-B-C, read from files *)
Definition cells (l : list string) : row := map (fun s => PS s 0) l.
Definition line_geo : igeo :=
  IGeo [cells ["A"; "r"; "X"; "0"; "0"; "town"; ""; "100"]; cells ["B"; "r"; "X"; "0"; "1"; "town"; ""; "100"];
        cells ["C"; "r"; "X"; "0"; "2"; "camp"; ""; "100"]] (Some ["name"; "region"; "country"; "gps_x"; "gps_y"; "location_type"; "conflict_date"; "population"])
       [cells ["A"; "B"; "100"]; cells ["B"; "C"; "100"]] None
       [cells ["A"; "B"; "C"]] (Some []) None [] [].
Definition line_run : res (eco * rng) :=
  run ex_oracle (map (pair (fixed_S 1)) [OStoreInput 1 line_geo []; OEvolve 10]) empty_eco ex_draws.
(** B becomes a conflict zone between two time steps. *)
Definition stale_run : res (eco * rng) :=
  run ex_oracle (map (pair (fixed_S 1)) (tri_build ++ [OEvolve 10; OAddConflictZone "B" 1 true; OEvolve 10])) empty_eco ex_draws.

Lemma run_reachable h r : r = run ex_oracle h empty_eco ex_draws -> is_ok r = true ->
  reachable ex_oracle (end_eco r) (end_rng r).
Proof. intros -> H. exists h, ex_draws. now apply end_ok. Qed.
Lemma line_reachable : reachable ex_oracle (end_eco line_run) (end_rng line_run).
Proof. apply (run_reachable _ line_run eq_refl). vm_compute. reflexivity. Qed.
Lemma stale_reachable : reachable ex_oracle (end_eco stale_run) (end_rng stale_run).
Proof. apply (run_reachable _ stale_run eq_refl). vm_compute. reflexivity. Qed.
Local Opaque line_run stale_run tri_run.

(** Neighbours by name, decidable *)
Definition next_names (e : eco) (i : nat) : list string :=
  match nth_error (e_locations e) i with
  | Some l => map (fun ki => match nth_error (e_links e) ki with Some k => name_at e (k_endpoint k) | None => "" end) (l_links l)
  | None => []
  end.
Lemma one_stop e i stops d n : path e i stops d -> stop_names e stops = [n] -> In n (next_names e i).
Proof.
  intros P E. inversion P as [i' ki k (l & Hl & I & Hk) E1 E2 E3|i' ki k st d' O P' E1 E2 E3]; subst.
  - cbn in E. injection E as <-. unfold next_names. rewrite Hl. apply in_map_iff. exists ki. now rewrite Hk.
  - destruct st; [inversion P'|discriminate E].
Qed.

Definition stores (n : string) (p : list string -> bool) (q : Q -> bool) (rs : list stored) : bool :=
  existsb (fun x : stored => let '(m, (w, st, _)) := x in (String.eqb m n && p st && q w)%bool) rs.
Lemma stores_In n p q rs : stores n p q rs = true -> exists w st j, In (n, (w, st, j)) rs /\ p st = true /\ q w = true.
Proof.
  intro H. apply existsb_exists in H as ([m [[w st] j]] & I & H). apply andb_prop in H as [H H3].
  apply andb_prop in H as [H1 H2]. apply String.eqb_eq in H1 as ->. eauto 7.
Qed.
Definition just_C (st : list string) : bool := match st with [m] => String.eqb m "C" | _ => false end.
Lemma just_C_eq st : just_C st = true -> st = ["C"].
Proof. destruct st as [|m [|]]; cbn; intro H; try discriminate H. now apply String.eqb_eq in H as ->. Qed.

Lemma line_stores : stores "C" just_C (fun _ => true) (routes_at (end_eco line_run) 0) = true.
Proof. vm_compute. reflexivity. Qed.
Lemma line_next : mem_str "C" (next_names (end_eco line_run) 0) = false.
Proof. vm_compute. reflexivity. Qed.

Lemma major_first_hop : exists o S e g, reachable o e g /\ s_FixedRoutes S = true /\
  (exists w j, In ("C", (w, ["C"], j)) (routes_at e 0)) /\
  ~ exists stops d, path e 0 stops d /\ stop_names e stops = ["C"].
Proof.
  exists ex_oracle, (fixed_S 1), (end_eco line_run), (end_rng line_run).
  split; [exact line_reachable|]. split; [reflexivity|]. split.
  - destruct (stores_In _ _ _ _ line_stores) as (w & st & j & I & P & _). apply just_C_eq in P as ->. eauto.
  - intros (stops & d & P & E). apply (one_stop _ _ _ _ _ P) in E.
    apply (proj1 (RouteProofs.mem_str_notIn _ _) line_next E).
Qed.

Definition link_to (e : eco) (i j : nat) (d : Q) : bool :=
  match nth_error (e_locations e) i with
  | Some l => existsb (fun ki => match nth_error (e_links e) ki with
                                 | Some k => (Nat.eqb (k_endpoint k) j && Z.eqb (Qnum (k_distance k)) (Qnum d) && Pos.eqb (Qden (k_distance k)) (Qden d))%bool
                                 | None => false end) (l_links l)
  | None => false
  end.
Lemma link_to_path e i j d : link_to e i j d = true -> path e i [j] d.
Proof.
  unfold link_to. destruct (nth_error (e_locations e) i) as [l|] eqn:E; [|discriminate]. intro H.
  apply existsb_exists in H as (ki & I & H). destruct (nth_error (e_links e) ki) as [k|] eqn:Ek; [|discriminate].
  apply andb_prop in H as [H H3]. apply andb_prop in H as [H1 H2].
  apply Nat.eqb_eq in H1 as <-. apply Z.eqb_eq in H2. apply Pos.eqb_eq in H3.
  replace d with (k_distance k) by (destruct (k_distance k), d; cbn in *; congruence).
  apply path_one with ki. exists l. auto.
Qed.

(** The weight of a direct link *)
Definition weigh (S : settings) (o : oracle) (e : eco) (i : nat) (d : Q) : res Q :=
  l <- loc_of e i ;; sc <- crawlScore S e l ;; p <- fpow o (s_DistanceSoftening S + d) (s_DistancePower S) ;;
  q <- fdiv (s_WeightSoftening S + sc) p ;; fpow o q (s_WeightPower S).
Lemma weigh_spec S o e i d w : weigh S o e i d = Ok w -> route_weight S o e i d w.
Proof.
  unfold weigh. intro H. rstep H. rstep H. rstep H. rstep H. apply RouteProofs.loc_of_ok in E.
  unfold fdiv in E2. destruct (Qeqb v1 0) eqn:Z0; [discriminate|]. injection E2 as <-.
  exists (s_DistanceSoftening S + d). split; [reflexivity|]. exists v, v0, v1.
  split; [assumption|]. split; [assumption|]. split; [assumption|]. split; [now apply Qeqb_false|assumption].
Qed.

Definition stale_facts : bool :=
  let e := end_eco stale_run in
  (stores "B" (fun _ => true) (fun w => Qltb (9 # 1000) w) (routes_at e 0) && link_to e 0 1 100 &&
   negb (is_marker e 1) && String.eqb (name_at e 0) "A" && String.eqb (name_at e 1) "B" &&
   match weigh (fixed_S 1) ex_oracle e 1 100 with Ok w => Qltb w (9 # 1000) | Err _ => false end)%bool.
Lemma stale_facts_ok : stale_facts = true. Proof. vm_compute. reflexivity. Qed.

Lemma stale_scores : exists o S e g w w', reachable o e g /\ s_FixedRoutes S = true /\ pow_respects o /\
  (exists r j, In ("B", (w, r, j)) (routes_at e 0)) /\
  explored S e 0 [1%nat] 100 /\ name_at e 1 = "B" /\ route_weight S o e 1 100 w' /\ w' < w.
Proof.
  pose proof stale_facts_ok as H. unfold stale_facts in H. cbv zeta in H. revert H. generalize stale_reachable.
  generalize (end_eco stale_run) (end_rng stale_run). intros e g R H.
  destruct (weigh (fixed_S 1) ex_oracle e 1 100) as [w'|] eqn:W; [|rewrite Bool.andb_comm in H; discriminate H].
  repeat match goal with X : (_ && _)%bool = true |- _ => apply andb_prop in X as [? X] || (let Y := fresh in apply andb_prop in X as [X Y]) end.
  repeat match goal with X : (_ && _)%bool = true |- _ => let Y := fresh in apply andb_prop in X as [X Y] end.
  match goal with X : stores _ _ _ _ = true |- _ => destruct (stores_In _ _ _ _ X) as (w & st & j & I & _ & Qw) end.
  exists ex_oracle, (fixed_S 1), e, g, w, w'. split; [exact R|]. split; [reflexivity|]. split; [exact ex_pow_respects|].
  split; [eauto|].
  repeat match goal with X : String.eqb _ _ = true |- _ => apply String.eqb_eq in X end.
  split.
  - split; [now apply link_to_path|]. split; [now apply Bool.negb_true_iff|].
    split; [vm_compute; discriminate|]. cbn. 
    match goal with X : name_at e 0 = _, Y : name_at e 1 = _ |- _ => rewrite X, Y end.
    constructor; [intros [F|[]]; discriminate F|]. constructor; [intros []|constructor].
  - split; [assumption|]. split; [now apply weigh_spec|].
    repeat match goal with X : Qltb _ _ = true |- _ => apply Qltb_true in X end. lra.
Qed.

Lemma path_join e i j d st d' : path e i [j] d -> path e j st d' -> path e i (j :: st) (d + d').
Proof.
  intros A B. remember [j] as one eqn:E. destruct A as [i ki k O|i ki k st' d0 O P']; injection E as E.
  - subst j. now apply path_more with ki.
  - subst. inversion P'.
Qed.

(** The triangle meets the hypotheses of the theorems. *)
Definition no_major_b (e : eco) : bool := forallb (fun l => match l_major_routes l with [] => true | _ => false end) (e_locations e).
Lemma no_major_ok e : no_major_b e = true -> no_major_routes e.
Proof.
  intros H i l Hl. unfold no_major_b in H. rewrite forallb_forall in H. apply nth_error_In in Hl. specialize (H _ Hl).
  now destruct (l_major_routes l).
Qed.
Lemma tri_no_major : no_major_routes (tri 2). Proof. apply no_major_ok. vm_compute. reflexivity. Qed.
Lemma tri_generates : rmap (fun x => map fst (routes_at (fst x) 0)) (generateLocationRoutes (fixed_S 2) ex_oracle 0 (tri 2) ex_draws) = Ok ["B"; "C"].
Proof. vm_compute. reflexivity. Qed.
Lemma tri_explored : explored (fixed_S 2) (tri 2) 0 [1%nat; 2%nat] (100 + 100) /\ explored (fixed_S 2) (tri 2) 0 [2%nat] 1000.
Proof.
  assert (A : link_to (tri 2) 0 1 100 = true) by (vm_compute; reflexivity).
  assert (B : link_to (tri 2) 1 2 100 = true) by (vm_compute; reflexivity).
  assert (C : link_to (tri 2) 0 2 1000 = true) by (vm_compute; reflexivity).
  assert (N : map (name_at (tri 2)) [0; 1; 2]%nat = ["A"; "B"; "C"]) by (vm_compute; reflexivity).
  assert (M : is_marker (tri 2) 2 = false) by (vm_compute; reflexivity).
  revert A B C N M. generalize (tri 2). intros e A B C N M. cbn [map] in N. injection N as NA NB NC.
  apply link_to_path in A, B, C. split; (split; [|split; [exact M|split; [vm_compute; discriminate|]]]).
  - exact (path_join _ _ _ _ _ _ A B).
  - cbn. rewrite NA, NB, NC. repeat constructor; cbn; intuition discriminate.
  - exact C.
  - cbn. rewrite NA, NC. repeat constructor; cbn; intuition discriminate.
Qed.
