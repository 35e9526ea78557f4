(** * NetworkWitness: tables for the examples of the network properties *)

From Verif Require Import Base State Moving Crawling Flee DataTable Spawning InputGeography Api SpecAgents SpecHistory Defaults ExampleRun.
Local Open Scope string_scope.
Local Open Scope list_scope.

(** Rows of text cells; the identities of the cells do not matter here. *)
Definition cells (ss : list string) : list pystr := map (fun s => PS s 0) ss.

Definition loc_rows : list (list pystr) := map cells
  [["#name"; "region"; "country"; "lat"; "lon"; "location_type"; "conflict_date"; "pop/cap"; "conflict_intensity"];
   ["A"; "north"; "X"; "1.5"; "2"; "conflict_zone"; "0"; "500"; "0.5"];
   ["B"; ""; "X"; ""; "3"; "conflict_zone"; "7"; "200"];
   ["C"; "east"; "Y"; "4"; "3"; "Camp"; ""; "90"]].
Definition link_rows : list (list pystr) := map cells
  [["#name1"; "name2"; "distance"; "forced_redirection"; "surface"];
   ["A"; "B"; "100"; "1"; "gravel"]; ["C"; "B"; "40.5"; "2"]; ["A"; "C"; "300"]].
Definition closure_rows : list (list pystr) := map cells [["country"; "X"; "Y"; "3"; "9"]].
Definition agent_rows : list (list pystr) := map cells
  [["location"; "age"; "sex"]; ["A"; "34"; "f"]; ["# nobody here"]; ["C"; "7"]; ["nowhere"; "50"; "m"]; ["A"]].

Definition tables : igeo :=
  match read_locations loc_rows, read_links link_rows with
  | Ok (cols, locs), Ok (lcols, links) =>
      IGeo locs cols links lcols [cells ["A"; "B"; "C"]; cells ["C"; "A"; ""]] (Some closure_rows) None [] []
  | _, _ => IGeo [] None [] None [] None None [] []
  end.

Definition result_eco (r : res (eco * rng * igeo)) : eco := match r with Ok (e, _, _) => e | Err _ => empty_eco end.
Definition result_rng (r : res (eco * rng * igeo)) : rng := match r with Ok (_, g, _) => g | Err _ => ex_draws end.
Definition result_tables (r : res (eco * rng * igeo)) : igeo := match r with Ok (_, _, t) => t | Err _ => tables end.
Lemma result_ok r : is_ok r = true -> r = Ok (result_eco r, result_rng r, result_tables r).
Proof. destruct r as [[[e g] t]|x]; [reflexivity|discriminate]. Qed.

Lemma empty_reachable o g : reachable o empty_eco g.
Proof. exists [], g. reflexivity. Qed.
Lemma store_reached S o f t ch g e g' t' : store_input S o f t ch empty_eco g = Ok (e, g', t') -> reachable o e g'.
Proof.
  intro H. exists [(S, OStoreInput f t ch)], g. unfold run. cbn [foldM fst snd]. unfold step. rewrite H. reflexivity.
Qed.


(** The network of some tables, in an empty world *)
Definition net_of (t : igeo) : res (eco * rng * igeo) := store_input ex_S ex_oracle 10 t [] empty_eco ex_draws.
Definition net_eco (t : igeo) : eco := result_eco (net_of t).
Definition net_rng (t : igeo) : rng := result_rng (net_of t).
Lemma net_reachable t : is_ok (net_of t) = true -> reachable ex_oracle (net_eco t) (net_rng t).
Proof. intro H. exact (store_reached _ _ _ _ _ _ _ _ _ (result_ok _ H)). Qed.
Lemma net_ok : is_ok (net_of tables) = true. Proof. vm_compute. reflexivity. Qed.

(** Eight links from three rows *)
Lemma net_links : List.length (e_links (net_eco tables)) = 8%nat /\ List.length (ig_links tables) = 3%nat.
Proof. split; vm_compute; reflexivity. Qed.
Lemma net_stored t : is_ok (net_of t) = true ->
  store_input ex_S ex_oracle 10 t [] empty_eco ex_draws = Ok (net_eco t, net_rng t, result_tables (net_of t)).
Proof. intro H. exact (result_ok _ H). Qed.
Lemma one_road_false : ~ (forall o e g0 S factor ig changes g e' g' ig',
  reachable o e g0 -> store_input S o factor ig changes e g = Ok (e', g', ig') ->
  List.length (e_links e') = (List.length (e_links e) + 2 * List.length (ig_links ig))%nat).
Proof.
  intro H. specialize (H _ _ _ _ _ _ _ _ _ _ _ (empty_reachable ex_oracle ex_draws) (net_stored _ net_ok)).
  destruct net_links as [A B]. rewrite A, B in H. discriminate H.
Qed.
