(** * PrintProofs: what is shown of a graph *)

From Coq Require Import Lia.
From Verif Require Import Base State Moving Crawling Flee Api SpecAgents SpecHistory SpecRoutes SpecClosures SpecGraph Lemmas CrawlProofs Schedule GraphProofs GraphPrint SpecPrint.
Local Open Scope string_scope.
Local Open Scope list_scope.

(** ** print_graph *)

Lemma filter_own {A} (f : A -> bool) l : (forall x, In x l -> f x = true) -> filter f l = l.
Proof.
  induction l as [|x l IH]; intro H; [reflexivity|]. cbn [filter]. rewrite (H x) by now left. f_equal. apply IH. intros y Y. apply H. now right.
Qed.
Lemma filter_others {A} (f : A -> bool) l : (forall x, In x l -> f x = false) -> filter f l = [].
Proof.
  induction l as [|x l IH]; intro H; [reflexivity|]. cbn [filter]. rewrite (H x) by now left. apply IH. intros y Y. apply H. now right.
Qed.
Lemma name_at_seq e : map (fun l => sval (l_name l)) (e_locations e) = map (name_at e) (seq 0 (List.length (e_locations e))).
Proof.
  assert (G : forall n ls, (forall i l, nth_error ls i = Some l -> nth_error (e_locations e) (n + i) = Some l) ->
    map (fun l => sval (l_name l)) ls = map (name_at e) (seq n (List.length ls))).
  { intros n ls. revert n. induction ls as [|l ls IH]; intros n H; [reflexivity|]. cbn [List.length seq map]. f_equal.
    - unfold name_at. rewrite <- (Nat.add_0_r n), (H 0%nat l eq_refl). reflexivity.
    - apply IH. intros i k Hk. rewrite <- (H (Datatypes.S i) k Hk). f_equal. lia. }
  apply (G 0%nat). auto.
Qed.
Lemma own_edges e i : distinct_names e -> (i < List.length (e_locations e))%nat ->
  filter (fun x : edge => String.eqb (fst (fst x)) (name_at e i)) (graph_edges e) =
  map (fun k => (name_at e i, name_at e (k_endpoint k), k_distance k)) (opens e i).
Proof.
  intros D I. unfold graph_edges. set (n := List.length (e_locations e)) in *.
  assert (A : forall j, (j < n)%nat -> j <> i -> name_at e j <> name_at e i).
  { intros j J N E. apply N. unfold name_at in E. destruct (nth_error (e_locations e) j) eqn:Ej; [|apply nth_error_None in Ej; lia].
    destruct (nth_error (e_locations e) i) eqn:Ei; [|apply nth_error_None in Ei; lia]. eapply D; eauto. }
  assert (G : forall m k, (k + m <= n)%nat -> filter (fun x : edge => String.eqb (fst (fst x)) (name_at e i))
      (flat_map (fun j => map (fun q => (name_at e j, name_at e (k_endpoint q), k_distance q)) (opens e j)) (seq k m)) =
      if (Nat.leb k i && Nat.ltb i (k + m))%bool then map (fun q => (name_at e i, name_at e (k_endpoint q), k_distance q)) (opens e i) else []).
  { induction m as [|m IH]; intros k B; cbn [seq flat_map].
    - destruct (Nat.leb_spec k i); [|reflexivity]. destruct (Nat.ltb_spec i (k + 0)); [lia|reflexivity].
    - rewrite filter_app, IH by lia. destruct (Nat.eq_dec k i) as [->|N].
      + rewrite filter_own by (intros x X; apply in_map_iff in X as (q & <- & _); cbn [fst]; apply String.eqb_refl).
        destruct (Nat.leb_spec (Datatypes.S i) i); [lia|]. cbn [andb]. rewrite app_nil_r. rewrite Nat.leb_refl.
        destruct (Nat.ltb_spec i (i + Datatypes.S m)); [reflexivity|lia].
      + rewrite (filter_others _ (map _ (opens e k))).
        2:{ intros x X. apply in_map_iff in X as (q & <- & _). cbn [fst]. apply String.eqb_neq. apply A; [lia|exact N]. }
        cbn [app]. replace (k + Datatypes.S m)%nat with (Datatypes.S k + m)%nat by lia.
        destruct (Nat.leb_spec (Datatypes.S k) i), (Nat.leb_spec k i); try lia; reflexivity. }
  rewrite G by lia. cbn [plus]. destruct (Nat.ltb_spec i n); [reflexivity|lia].
Qed.

Lemma printed_ok o e g dist vs es : reachable o e g -> distinct_names e -> export_graph e = Ok (vs, es) ->
  print_graph vs es dist = flat_map (fun i => Vertex (name_at e i) ::
    map (fun k => Arrow (name_at e (k_endpoint k)) (if dist then Some (k_distance k) else None)) (opens e i)) (seq 0 (List.length (e_locations e))).
Proof.
  intros R D X. apply graph_ok in X as [-> ->]. unfold print_graph. rewrite name_at_seq, !flat_map_concat_map, map_map. f_equal.
  apply map_ext_in. intros i I. apply in_seq in I. rewrite own_edges by (try assumption; lia). rewrite map_map. reflexivity.
Qed.

(** ** Dictionaries *)

Lemma get_set {A} k (v : A) d k' : dict_get k' (dict_set k v d) = if String.eqb k' k then Some v else dict_get k' d.
Proof.
  induction d as [|[q x] d IH]; cbn [dict_set dict_get]; [reflexivity|].
  destruct (String.eqb_spec k q) as [->|N]; cbn [dict_get].
  - destruct (String.eqb k' q); reflexivity.
  - destruct (String.eqb_spec k' q) as [->|M]; [|exact IH]. destruct (String.eqb_spec q k); [congruence|reflexivity].
Qed.
Lemma get_app {A} k (d d' : list (string * A)) : dict_get k (d ++ d') = match dict_get k d with Some v => Some v | None => dict_get k d' end.
Proof. induction d as [|[q x] d IH]; [reflexivity|]. cbn [app dict_get]. destruct (String.eqb k q); [reflexivity|exact IH]. Qed.
Lemma get_none {A} k (d : list (string * A)) : dict_get k d = None <-> ~ In k (map fst d).
Proof.
  induction d as [|[q x] d IH]; [cbn; tauto|]. cbn [dict_get map fst]. destruct (String.eqb_spec k q) as [->|N].
  - split; [discriminate|]. intro H. exfalso. apply H. now left.
  - rewrite IH. split; intro H; [intros [->|X]; [now apply N|now apply H]|]. intro X. apply H. now right.
Qed.
Lemma set_same {A} k (v : A) d : In k (map fst d) -> map fst (dict_set k v d) = map fst d.
Proof.
  induction d as [|[q x] d IH]; [intros []|]. cbn [dict_set map fst]. destruct (String.eqb_spec k q) as [->|N]; [reflexivity|].
  intros [->|X]; [now elim N|]. cbn [map fst]. f_equal. now apply IH.
Qed.

(** ** The graph of networkx *)

Definition weight (G : digraph) (a b : string) : option Z := match dict_get a G with Some adj => dict_get b adj | None => None end.

Lemma weight_node v G a b : weight (add_node v G) a b = weight G a b.
Proof.
  unfold weight, add_node. destruct (dict_get v G) eqn:E; [reflexivity|]. rewrite get_app. destruct (dict_get a G); [reflexivity|].
  cbn [dict_get]. destruct (String.eqb a v); reflexivity.
Qed.
Lemma nodes_node v G : nodes (add_node v G) = if dict_get v G then nodes G else nodes G ++ [v].
Proof. unfold nodes, add_node. destruct (dict_get v G); [reflexivity|]. now rewrite map_app. Qed.
Lemma in_node v G : In v (nodes (add_node v G)).
Proof.
  rewrite nodes_node. destruct (dict_get v G) eqn:E; [|apply in_or_app; right; now left].
  destruct (in_dec string_dec v (nodes G)) as [H|H]; [exact H|]. apply get_none in H. congruence.
Qed.
Lemma keep_node v x G : In x (nodes G) -> In x (nodes (add_node v G)).
Proof. intro H. rewrite nodes_node. destruct (dict_get v G); [exact H|apply in_or_app; now left]. Qed.

Lemma weight_edge u v w G a b : weight (add_edge u v w G) a b = if (String.eqb a u && String.eqb b v)%bool then Some w else weight G a b.
Proof.
  unfold add_edge. set (G1 := add_node v (add_node u G)).
  assert (W : weight G a b = weight G1 a b) by (unfold G1; now rewrite !weight_node). rewrite W.
  destruct (dict_get u G1) as [adj|] eqn:E.
  - unfold weight. rewrite get_set. destruct (String.eqb_spec a u) as [->|N]; [|reflexivity]. rewrite E, get_set. cbn [andb]. reflexivity.
  - exfalso. apply get_none in E. apply E. unfold G1. apply keep_node. apply in_node.
Qed.
Lemma nodes_edge u v w G : In u (nodes G) -> In v (nodes G) -> nodes (add_edge u v w G) = nodes G.
Proof.
  intros U V. assert (X : forall x H, In x (nodes H) -> add_node x H = H).
  { intros x H I. unfold add_node. destruct (dict_get x H) eqn:E; [reflexivity|]. apply get_none in E. contradiction. }
  unfold add_edge. rewrite (X u G U), (X v G V). destruct (dict_get u G); [|reflexivity]. unfold nodes. now apply set_same.
Qed.

Definition add_all (es : list edge) (G : digraph) : digraph := fold_left (fun G e => add_edge (fst (fst e)) (snd (fst e)) (Qtrunc (snd e)) G) es G.
Definition hit (a b : string) (e : edge) : bool := (String.eqb a (fst (fst e)) && String.eqb b (snd (fst e)))%bool.
Definition last_w (es : list edge) (a b : string) (o : option Z) : option Z := fold_left (fun o e => if hit a b e then Some (Qtrunc (snd e)) else o) es o.

Lemma weight_all es : forall G a b, weight (add_all es G) a b = last_w es a b (weight G a b).
Proof.
  induction es as [|[[u v] d] es IH]; intros G a b; [reflexivity|]. unfold add_all, last_w. cbn [fold_left fst snd].
  change (weight (add_all es (add_edge u v (Qtrunc d) G)) a b = last_w es a b (if hit a b (u, v, d) then Some (Qtrunc d) else weight G a b)).
  rewrite IH, weight_edge. reflexivity.
Qed.
Lemma last_any es a b o : last_w es a b o = match last_w es a b None with Some w => Some w | None => o end.
Proof.
  unfold last_w. revert o. induction es as [|e es IH]; intro o; [reflexivity|]. cbn [fold_left]. destruct (hit a b e).
  - rewrite IH. destruct (fold_left _ es None); reflexivity.
  - apply IH.
Qed.
Lemma nodes_all es : forall G, (forall a b d, In (a, b, d) es -> In a (nodes G) /\ In b (nodes G)) -> nodes (add_all es G) = nodes G.
Proof.
  induction es as [|[[u v] d] es IH]; intros G H; [reflexivity|]. unfold add_all. cbn [fold_left fst snd].
  destruct (H u v d (or_introl eq_refl)) as [U V]. change (nodes (add_all es (add_edge u v (Qtrunc d) G)) = nodes G).
  rewrite IH; [now apply nodes_edge|]. intros a b c I. rewrite nodes_edge by assumption. eapply H. right. exact I.
Qed.
Lemma last_edge_iff es a b : forall w, last_w es a b None = Some w <-> exists d, last_edge es a b d /\ w = Qtrunc d.
Proof.
  unfold last_edge. induction es as [|[[u v] d] es IH]; intro w.
  - split; [discriminate|]. intros (d & (es1 & es2 & E & _) & _). now destruct es1.
  - unfold last_w. cbn [fold_left]. change (last_w es a b (if hit a b (u, v, d) then Some (Qtrunc d) else None) = Some w <->
      exists d0, (exists es1 es2, (u, v, d) :: es = es1 ++ (a, b, d0) :: es2 /\ forall d', ~ In (a, b, d') es2) /\ w = Qtrunc d0).
    rewrite last_any. destruct (last_w es a b None) as [w'|] eqn:L.
    + split.
      * intro H. injection H as ->. destruct (proj1 (IH w) eq_refl) as (d0 & (es1 & es2 & -> & N) & ->). exists d0. split; [|reflexivity].
        exists ((u, v, d) :: es1), es2. auto.
      * intros (d0 & (es1 & es2 & E & N) & ->). f_equal. destruct es1 as [|x es1]; cbn [app] in E.
        -- injection E as -> -> -> ->. destruct (proj1 (IH w') eq_refl) as (d1 & (e1 & e2 & -> & _) & _). exfalso. apply (N d1). apply in_or_app. right. now left.
        -- injection E as _ ->. assert (X : Some w' = Some (Qtrunc d0)); [|now injection X]. apply IH.
           exists d0. split; [|reflexivity]. exists es1, es2. auto.
    + assert (NO : forall d', ~ In (a, b, d') es).
      { intros d' X. assert (Y : exists w0, last_w es a b None = Some w0); [|destruct Y; congruence]. clear - X. unfold last_w.
        assert (Z : forall o, exists w0, last_w es a b o = Some w0); [|apply Z]. induction es as [|e es IH]; [destruct X|]. intro o. unfold last_w. cbn [fold_left].
        destruct X as [->|X]; [|apply (IH X)]. unfold hit. cbn [fst snd]. rewrite !String.eqb_refl. cbn [andb].
        change (exists w0, last_w es a b (Some (Qtrunc d')) = Some w0). rewrite last_any. destruct (last_w es a b None); eauto. }
      destruct (hit a b (u, v, d)) eqn:Hh.
      * unfold hit in Hh. cbn [fst snd] in Hh. apply andb_true_iff in Hh as [A B]. apply String.eqb_eq in A, B. subst u v. split.
        -- intro H. injection H as <-. exists d. split; [|reflexivity]. exists [], es. auto.
        -- intros (d0 & (es1 & es2 & E & N) & ->). destruct es1 as [|x es1]; cbn [app] in E; [now injection E as -> ->|].
           injection E as _ ->. exfalso. apply (NO d0). apply in_or_app. right. now left.
      * split; [discriminate|]. intros (d0 & (es1 & es2 & E & N) & _). exfalso. destruct es1 as [|x es1]; cbn [app] in E.
        -- injection E as -> -> -> ->. unfold hit in Hh. cbn [fst snd] in Hh. rewrite !String.eqb_refl in Hh. discriminate.
        -- injection E as _ ->. apply (NO d0). apply in_or_app. right. now left.
Qed.

Lemma nodes_start vs : NoDup vs -> nodes (fold_left (fun G v => add_node v G) vs []) = vs /\ forall a b, weight (fold_left (fun G v => add_node v G) vs []) a b = None.
Proof.
  intro ND. assert (G : forall vs G, NoDup vs -> (forall v, In v vs -> ~ In v (nodes G)) ->
    nodes (fold_left (fun G v => add_node v G) vs G) = nodes G ++ vs /\ forall a b, weight (fold_left (fun G v => add_node v G) vs G) a b = weight G a b).
  { clear. induction vs as [|v vs IH]; intros G ND D; [now rewrite app_nil_r|]. cbn [fold_left]. inversion ND as [|? ? N ND']; subst.
    assert (E : nodes (add_node v G) = nodes G ++ [v]).
    { rewrite nodes_node. destruct (dict_get v G) eqn:E; [|reflexivity]. exfalso. assert (X : ~ In v (nodes G)) by (apply D; now left).
      apply get_none in X. congruence. }
    destruct (IH (add_node v G) ND') as [A B].
    - intros x X. rewrite E. intro Y. apply in_app_or in Y as [Y|[->|[]]]; [|contradiction]. exact (D x (or_intror X) Y).
    - rewrite A, E, <- app_assoc. split; [reflexivity|]. intros a b. rewrite B. apply weight_node. }
  destruct (G vs [] ND) as [A B]; [intros v _ []|]. split; [exact A|]. intros a b. rewrite B. reflexivity.
Qed.

Lemma inner_nodup u v w G : Forall (fun p => NoDup (map fst (snd p))) G -> Forall (fun p => NoDup (map fst (snd p))) (add_edge u v w G).
Proof.
  intro F. unfold add_edge. assert (X : forall x H, Forall (fun p : string * list (string * Z) => NoDup (map fst (snd p))) H -> Forall (fun p => NoDup (map fst (snd p))) (add_node x H)).
  { intros x H FH. unfold add_node. destruct (dict_get x H); [exact FH|]. apply Forall_app. split; [exact FH|]. repeat constructor. }
  set (G1 := add_node v (add_node u G)). assert (F1 : Forall (fun p => NoDup (map fst (snd p))) G1) by (unfold G1; now apply X, X). clearbody G1.
  destruct (dict_get u G1) as [adj|] eqn:E; [|exact F1]. apply dict_in_get in E. assert (A : NoDup (map fst adj)) by (rewrite Forall_forall in F1; exact (F1 _ E)).
  clear E F. apply (dict_set_nodup v w) in A. induction F1 as [|[q x] G1 P F1 IH]; cbn [dict_set]; [constructor; [exact A|constructor]|].
  destruct (String.eqb u q); constructor; auto.
Qed.

Lemma inner_all es : forall G, Forall (fun p => NoDup (map fst (snd p))) G -> Forall (fun p => NoDup (map fst (snd p))) (add_all es G).
Proof. unfold add_all. induction es as [|e es IH]; intros G F; [exact F|]. cbn [fold_left]. apply IH. now apply inner_nodup. Qed.

Lemma graph_nx_ok vs es : NoDup vs -> (forall a b d, In (a, b, d) es -> In a vs /\ In b vs) ->
  nodes (graph_nx vs es) = vs /\ (forall a b, weight (graph_nx vs es) a b = last_w es a b None) /\
  Forall (fun p => NoDup (map fst (snd p))) (graph_nx vs es).
Proof.
  intros ND H. unfold graph_nx. destruct (nodes_start vs ND) as [S1 S2]. set (G0 := fold_left (fun G v => add_node v G) vs []) in *.
  assert (F0 : Forall (fun p => NoDup (map fst (snd p))) G0).
  { unfold G0. clear. assert (X : forall G : digraph, Forall (fun p : string * list (string * Z) => NoDup (map fst (snd p))) G ->
      Forall (fun p => NoDup (map fst (snd p))) (fold_left (fun G v => add_node v G) vs G)); [|apply X; constructor].
    induction vs as [|v vs IH]; intros G F; [exact F|]. cbn [fold_left]. apply IH. unfold add_node. destruct (dict_get v G); [exact F|].
    apply Forall_app. split; [exact F|repeat constructor]. }
  assert (K : forall us G, nodes G = vs -> (forall a b, weight G a b = None \/ weight G a b = last_w es a b None) -> Forall (fun p => NoDup (map fst (snd p))) G ->
    let G' := fold_left (fun G (_ : string) => add_all es G) us G in
    nodes G' = vs /\ (forall a b, weight G' a b = last_w es a b None \/ us = [] /\ weight G' a b = weight G a b) /\ Forall (fun p => NoDup (map fst (snd p))) G').
  { induction us as [|u us IH]; intros G N W F; cbn [fold_left]; cbv zeta; [auto|].
    assert (W' : forall a b, weight (add_all es G) a b = last_w es a b None).
    { intros a b. rewrite weight_all, last_any. destruct (last_w es a b None) as [w|] eqn:L; [reflexivity|]. destruct (W a b) as [-> | ->]; congruence. }
    destruct (IH (add_all es G)) as (A & B & C).
    - rewrite nodes_all; [exact N|]. now rewrite N.
    - intros a b. right. apply W'.
    - now apply inner_all.
    - split; [exact A|]. split; [|exact C]. intros a b. left. destruct (B a b) as [-> |[_ ->]]; [reflexivity|]. apply W'. }
  destruct (K vs G0 S1 (fun a b => or_introl (S2 a b)) F0) as (A & B & C). split; [exact A|]. split; [|exact C].
  intros a b. destruct (B a b) as [X|[E X]]; [exact X|]. etransitivity; [exact X|]. rewrite S2. rewrite E in H. clear - H. destruct es as [|[[x y] d] es']; [reflexivity|]. destruct (H x y d (or_introl eq_refl)) as [[] _].
Qed.

Lemma weight_has G a b w : NoDup (nodes G) -> Forall (fun p => NoDup (map fst (snd p))) G -> (weight G a b = Some w <-> has_weight G a b w).
Proof.
  intros ND F. unfold weight, has_weight. split.
  - destruct (dict_get a G) as [adj|] eqn:E; [|discriminate]. intro H. exists adj. split; now apply dict_in_get.
  - intros (adj & A & B). rewrite (dict_get_in a G adj ND A). apply dict_get_in; [|exact B]. rewrite Forall_forall in F. exact (F _ A).
Qed.
Lemma edges_has G a b : In (a, b) (edges G) <-> exists w, has_weight G a b w.
Proof.
  unfold edges, has_weight. rewrite in_flat_map. split.
  - intros ([q adj] & I & X). cbn [fst snd] in X. apply in_map_iff in X as ([c w] & E & X). cbn [fst] in E. injection E as -> ->. eauto.
  - intros (w & adj & A & B). exists (a, adj). split; [exact A|]. cbn [fst snd]. apply in_map_iff. exists (b, w). auto.
Qed.
Lemma edges_nodup G : NoDup (nodes G) -> Forall (fun p => NoDup (map fst (snd p))) G -> NoDup (edges G).
Proof.
  intros ND F. induction F as [|[q adj] G P F IH]; [constructor|]. unfold edges. cbn [flat_map fst snd]. cbn [nodes map fst] in ND. inversion ND as [|? ? N ND']; subst.
  fold (edges G). assert (X : forall l l' : list (string * string), NoDup l -> NoDup l' -> (forall x, In x l -> ~ In x l') -> NoDup (l ++ l')).
  { clear. induction l as [|x l IH]; intros l' A B D; [exact B|]. inversion A; subst. cbn [app]. constructor.
    - intro Y. apply in_app_or in Y as [Y|Y]; [contradiction|]. exact (D x (or_introl eq_refl) Y).
    - apply IH; try assumption. intros y Y. apply D. now right. }
  apply X.
  - clear - P. cbn [snd] in P. induction adj as [|[b w] adj IH]; [constructor|]. cbn [map fst] in *. inversion P; subst. constructor; [|now apply IH].
    intro Y. apply in_map_iff in Y as ([c w'] & E & Y). cbn [fst] in E. injection E as ->. apply H1. apply in_map_iff. exists (b, w'). auto.
  - now apply IH.
  - intros [a b] A B. apply in_map_iff in A as ([c w] & E & _). injection E as <- <-. unfold edges in B. apply in_flat_map in B as ([q' adj'] & I & Y).
    apply in_map_iff in Y as (z & E & _). cbn [fst] in E. injection E as -> _. apply N. change q with (fst (q, adj')). now apply in_map.
Qed.

Lemma nx_shown vs es : NoDup vs -> (forall a b d, In (a, b, d) es -> In a vs /\ In b vs) ->
  nodes (graph_nx vs es) = vs /\ NoDup (edges (graph_nx vs es)) /\
  (forall a b, In (a, b) (edges (graph_nx vs es)) <-> exists d, In (a, b, d) es) /\
  (forall a b w, has_weight (graph_nx vs es) a b w <-> exists d, last_edge es a b d /\ w = Qtrunc d).
Proof.
  intros ND H. destruct (graph_nx_ok vs es ND H) as (A & B & C). assert (ND' : NoDup (nodes (graph_nx vs es))) by now rewrite A.
  assert (W : forall a b w, has_weight (graph_nx vs es) a b w <-> exists d, last_edge es a b d /\ w = Qtrunc d).
  { intros a b w. rewrite <- weight_has by assumption. rewrite B. apply last_edge_iff. }
  split; [exact A|]. split; [now apply edges_nodup|]. split; [|exact W]. intros a b. rewrite edges_has. split.
  - intros (w & X). apply W in X as (d & (es1 & es2 & -> & _) & _). exists d. apply in_or_app. right. now left.
  - intros (d & X). assert (Y : exists d', last_edge es a b d').
    { clear - X. induction es as [|e es IH]; [destruct X|].
      destruct (in_dec (fun x y : string * string => ltac:(decide equality; apply string_dec)) (a, b) (map fst es)) as [I|I].
      - apply in_map_iff in I as ([[a' b'] c] & E & I). cbn [fst] in E. injection E as -> ->.
        assert (Z : exists d', last_edge es a b d').
        { clear IH X. revert c I. induction es as [|x es IH]; intros c I; [destruct I|].
          destruct (in_dec (fun x y : string * string => ltac:(decide equality; apply string_dec)) (a, b) (map fst es)) as [J|J].
          - apply in_map_iff in J as ([[a' b'] c'] & E & J). cbn [fst] in E. injection E as -> ->. destruct (IH _ J) as (d' & e1 & e2 & -> & N).
            exists d', (x :: e1), e2. auto.
          - destruct I as [->|I]; [|exfalso; apply J; change (a, b) with (fst (a, b, c)); now apply in_map].
            exists c, [], es. split; [reflexivity|]. intros d' D. apply J. change (a, b) with (fst (a, b, d')). now apply in_map. }
        destruct Z as (d' & e1 & e2 & -> & N). exists d', (e :: e1), e2. auto.
      - destruct X as [->|X]; [|exfalso; apply I; change (a, b) with (fst (a, b, d)); now apply in_map].
        exists d, [], es. split; [reflexivity|]. intros d' D. apply I. change (a, b) with (fst (a, b, d')). now apply in_map. }
    destruct Y as (d' & Y). exists (Qtrunc d'). apply W. eauto.
Qed.

Lemma nx_reachable o e g vs es : reachable o e g -> distinct_names e -> export_graph e = Ok (vs, es) ->
  NoDup vs /\ forall a b d, In (a, b, d) es -> In a vs /\ In b vs.
Proof.
  intros R D X. split.
  - pose proof X as X'. apply graph_ok in X' as [-> _]. apply NoDup_nth_error. intros i j I E. rewrite map_length in I.
    rewrite !nth_error_map in E. destruct (nth_error (e_locations e) i) as [a|] eqn:Ei; [|apply nth_error_None in Ei; lia].
    destruct (nth_error (e_locations e) j) as [b|] eqn:Ej; [|discriminate]. cbn in E. injection E as E. eapply D; eauto.
  - intros a b d. apply (graph_edge o e g vs es a b d R X).
Qed.

Lemma parallel_false : ~ (forall vs es a b d, NoDup vs -> (forall a b d, In (a, b, d) es -> In a vs /\ In b vs) ->
  In (a, b, d) es -> has_weight (graph_nx vs es) a b (Qtrunc d)).
Proof.
  intro H. destruct (H ["A"; "B"] [("A", "B", 10%Q); ("A", "B", 20%Q)] "A" "B" 10%Q) as (adj & A & B).
  - repeat constructor; cbn; intuition discriminate.
  - intros a b d [E|[E|[]]]; injection E as <- <- _; cbn; auto.
  - now left.
  - change (graph_nx ["A"; "B"] [("A", "B", 10%Q); ("A", "B", 20%Q)]) with [("A", [("B", 20%Z)]); ("B", [])] in A.
    change (Qtrunc 10) with 10%Z in B. clear H. destruct A as [A|[A|[]]]; [|discriminate A]. injection A as <-. destruct B as [B|[]]. discriminate B.
Qed.
