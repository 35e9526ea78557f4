(** * MicroWays: the two directions of a road in bad weather *)

From Coq Require Import Lia.
From Verif Require Import Base State Flee InputGeography Pflee MicroGeography
  SpecAgents SpecHistory SpecNetwork SpecMicro Lemmas NetworkProofs MicroProofs NetworkWitness Defaults ExampleRun.
Local Open Scope string_scope.
Local Open Scope Q_scope.
Local Open Scope list_scope.

Lemma laid_pair e : forall rs ks, all_laid e rs ks -> forall m k k', nth_error ks (2 * m) = Some k -> nth_error ks (Datatypes.S (2 * m)) = Some k' ->
  k_startpoint k' = k_endpoint k /\ k_endpoint k' = k_startpoint k /\ k_distance k' = k_distance k.
Proof.
  induction 1 as [|r rs k1 k2 ks L A IH]; intros m k k' H H'; [destruct m; discriminate|].
  destruct m as [|m].
  - cbn in H, H'. injection H as <-. injection H' as <-. destruct L as (i & j & _ & _ & -> & ->). cbn. auto.
  - replace (2 * Datatypes.S m)%nat with (Datatypes.S (Datatypes.S (2 * m))) in * by lia. cbn [nth_error] in H, H'. exact (IH _ _ _ H H').
Qed.
Lemma types_odd : forall l : list (option string), (forall m t, nth_error l (Datatypes.S (2 * m)) = Some t -> t = None) ->
  Nat.Even (List.length l) -> forall l', (forall m t, nth_error l' (Datatypes.S (2 * m)) = Some t -> t = None) ->
  forall m t, nth_error (l ++ l') (Datatypes.S (2 * m)) = Some t -> t = None.
Proof.
  intros l A [h Eh] l' B m t H. destruct (Nat.lt_ge_cases (Datatypes.S (2 * m)) (List.length l)) as [L|L].
  - rewrite nth_error_app1 in H by exact L. exact (A _ _ H).
  - rewrite nth_error_app2, Eh in H by exact L. apply (B (m - h)%nat). rewrite <- H. f_equal. lia.
Qed.
Lemma link_types_odd rs type : (forall m t, nth_error (link_types rs type) (Datatypes.S (2 * m)) = Some t -> t = None) /\ Nat.Even (List.length (link_types rs type)).
Proof.
  induction rs as [|r rs [IH [h Eh]]]; cbn [link_types flat_map].
  - split; [intros [|m] t H; discriminate|exists 0%nat; reflexivity].
  - fold (link_types rs type). split; [|exists (Datatypes.S h); cbn [app List.length]; lia]. apply types_odd; [|exists 1%nat; reflexivity|exact IH].
    intros [|m] t H; cbn in H; [now injection H|]. rewrite Nat.add_succ_r in H. destruct m; discriminate.
Qed.
Lemma all_types_odd (rss : list (list road * string)) : forall m t, nth_error (flat_map (fun rt => link_types (fst rt) (snd rt)) rss) (Datatypes.S (2 * m)) = Some t -> t = None.
Proof.
  induction rss as [|rt rss IH]; cbn [flat_map]; [intros [|m] t H; discriminate|].
  destruct (link_types_odd (fst rt) (snd rt)) as [A B]. now apply types_odd.
Qed.

Theorem two_ways : forall S o factor locs links closures rank size g e types g' w x1 x2 time n d d',
  micro_store S o factor locs links closures (empty_par rank size) [] g = Ok (e, types, g') ->
  nth_error types (2 * n) <> Some (Some "crossing") ->
  link_length w e types (2 * n) x1 x2 time d -> link_length w e types (Datatypes.S (2 * n)) x1 x2 time d' -> d' = d.
Proof.
  intros S o factor locs links closures rank size g e types g' w x1 x2 time n d d' H NC (k & t & a & b & K & T & A & B & D) (k' & t' & a' & b' & K' & T' & A' & B' & D').
  apply micro_stored in H as (rss & new & _ & _ & _ & _ & L & E & -> & _); [|reflexivity]. cbn [empty_par e_links app] in E. rewrite E in *.
  destruct (laid_pair _ _ _ L _ _ _ K K') as (X & Y & Z0). rewrite X in A'. rewrite Y in B'. rewrite Z0 in D'. 
  assert (a' = b) as -> by congruence. assert (b' = a) as -> by congruence.
  cbn [app] in T, T', NC. apply all_types_odd in T'. subst t'.
  assert (N : t <> Some "crossing") by (intros ->; exact (NC T)).
  rewrite weather_both_ways in D' by discriminate.
  enough (Q : weather_distance (Some w) None (sval (l_name a)) (sval (l_name b)) x1 x2 (k_distance k) time = weather_distance (Some w) t (sval (l_name a)) (sval (l_name b)) x1 x2 (k_distance k) time) by congruence.
  unfold weather_distance. destruct t as [t|]; [|reflexivity]. destruct (String.eqb_spec t "crossing"); [congruence|reflexivity].
Qed.

(** ** Examples *)

Definition micro_loc_rows : list (list pystr) := map cells
  [["A"; "500"; "1.5"; "2"; "conflict_zone"; "0"; ""; "X"]; ["B"; "200"; ""; "3"; "conflict_zone"; "7"; ""; ""];
   ["C"; "90"; "4"; "3"; "Camp"; ""; ""; "Y"]].
Definition micro_link_file : list (list pystr) := map cells
  [["#name1"; "name2"; "distance"; "forced_redirection"; "link_type"];
   ["A"; "B"; "100"; "0"; "crossing"; "old"]; ["C"; "B"; "40"; "2"; "drive"]; ["A"; "C"; "300"; "1"; "walk"]].
Definition micro_link_rows : list (list pystr) := match micro_read_links micro_link_file with Ok l => l | Err _ => [] end.
Notation micro_example := (micro_store ex_S ex_oracle 10 micro_loc_rows micro_link_rows closure_rows (empty_par 0 1) [] ex_draws).
Definition st_eco (r : res (eco * list (option string) * rng)) : eco := match r with Ok (e, _, _) => e | Err _ => empty_par 0 1 end.
Definition st_types (r : res (eco * list (option string) * rng)) : list (option string) := match r with Ok (_, t, _) => t | Err _ => [] end.
Definition st_rng (r : res (eco * list (option string) * rng)) : rng := match r with Ok (_, _, g) => g | Err _ => ex_draws end.
Lemma st_ok r : is_ok r = true -> r = Ok (st_eco r, st_types r, st_rng r).
Proof. destruct r as [[[e t] g]|x]; [reflexivity|discriminate]. Qed.
Lemma micro_example_is : is_ok micro_example = true.
Proof. vm_compute. reflexivity. Qed.
Definition micro_eco : eco := st_eco micro_example.
Definition micro_types : list (option string) := st_types micro_example.
Definition micro_rng : rng := st_rng micro_example.
Lemma micro_example_ok : micro_example = Ok (micro_eco, micro_types, micro_rng).
Proof. exact (st_ok _ micro_example_is). Qed.

(** Three days: dry, wet and flooded; the river is high on the first *)
Definition micro_weather : weather :=
  Weather [("A - C", [0; 10; 20]); ("B - A", [1; 10; 20]); ("B - C", [2; 10; 20])] [(0%Z, 9000); (1%Z, 100); (2%Z, 8000)].

Lemma one_way : ~ (forall S o factor locs links closures rank size g e types g' w x1 x2 time n d d',
  micro_store S o factor locs links closures (empty_par rank size) [] g = Ok (e, types, g') ->
  link_length w e types (2 * n) x1 x2 time d -> link_length w e types (Datatypes.S (2 * n)) x1 x2 time d' -> d' == d).
Proof.
  intro H. pose proof micro_example_ok as E. specialize (H _ _ _ _ _ _ _ _ _ _ _ _ micro_weather 5 12 0%nat 0%nat (100 * 10000) (100 * 1) E).
  assert (X : 100 * 1 == 100 * 10000); [apply H; clear H E|discriminate X].
  - exists (nth 0 (e_links micro_eco) (Link 0 0 false 0 0 0 0 false 0 [])), (Some "crossing"), (nth 0 (e_locations micro_eco) (blank (PS "" 0) "" 0 0 0 0 0 false "" 0)), (nth 1 (e_locations micro_eco) (blank (PS "" 0) "" 0 0 0 0 0 false "" 0)).
    do 4 (split; [vm_compute; reflexivity|]). vm_compute. reflexivity.
  - exists (nth 1 (e_links micro_eco) (Link 0 0 false 0 0 0 0 false 0 [])), None, (nth 1 (e_locations micro_eco) (blank (PS "" 0) "" 0 0 0 0 0 false "" 0)), (nth 0 (e_locations micro_eco) (blank (PS "" 0) "" 0 0 0 0 0 false "" 0)).
    do 4 (split; [vm_compute; reflexivity|]). vm_compute. reflexivity.
Qed.

Lemma tables_stored : is_ok (store_input ex_S ex_oracle 10 tables [] empty_eco ex_draws) = true.
Proof. vm_compute. reflexivity. Qed.
Lemma tables_row : exists r c, In r (ig_locations tables) /\ nth_error r 2 = Some c /\ sval c <> "" /\ parse_Q (sval c) = None.
Proof.
  exists (nth 0 (ig_locations tables) []), (PS "X" 0). split; [vm_compute; left; reflexivity|].
  split; [vm_compute; reflexivity|]. split; [discriminate|vm_compute; reflexivity].
Qed.
Lemma same_file_false : ~ (forall S o factor ig changes e1 g r e2 links closures types,
  store_input S o factor ig changes e1 g = Ok r ->
  exists x, micro_store S o factor (ig_locations ig) links closures e2 types g = Ok x).
Proof.
  intro H. destruct (H ex_S ex_oracle 10%Z tables [] empty_eco ex_draws _ (empty_par 0 1) [] [] [] (result_ok _ tables_stored)) as [x X].
  destruct tables_row as (r & c & I & C & N & P). exact (micro_refuses _ _ _ _ _ _ _ _ _ _ _ _ I C N P X).
Qed.
