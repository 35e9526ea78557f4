(** * ParProofs: invariants of parallel programs *)

From Coq Require Import Lia.
From Verif Require Import Base State Moving Crawling Scoring Diagnostics Flee DataTable
  Spawning InputGeography Api Pflee ParApi SpecAgents Lemmas Inv InvMoves InvStruct Frames
  ScoreFrames Travel Profile ReportProofs Skeleton.
Local Open Scope list_scope.

(** ** Summing the counters of all processes *)

(** A place with a head count: a location or a road *)
Inductive place : Type := AtLoc (i : nat) | AtRoad (k : nat).

Definition keys_of (closed : bool) (l : location) : list place :=
  map AtRoad (l_links l ++ (if closed then l_closed_links l else [])).
Fixpoint keys_from (closed : bool) (i : nat) (ls : list location) : list place :=
  match ls with
  | [] => []
  | l :: ls' => AtLoc i :: keys_of closed l ++ keys_from closed (S i) ls'
  end.
(** The places that [updateNumAgents] visits, in order *)
Definition keys (closed : bool) (e : eco) : list place := keys_from closed 0 (e_locations e).

(** The head count of one process *)
Definition on_rank (e : eco) (p : place) : Z :=
  match p with
  | AtLoc i => match nth_error (e_locations e) i with Some l => l_numAgentsOnRank l | None => 0 end
  | AtRoad k => match nth_error (e_links e) k with Some l => k_numAgentsOnRank l | None => 0 end
  end%Z.

Lemma counters_keys closed e : counters closed e = map (on_rank e) (keys closed e).
Proof.
  unfold counters, keys.
  assert (W : forall ls pre, e_locations e = pre ++ ls ->
    flat_map (loc_counters (e_links e) closed) ls = map (on_rank e) (keys_from closed (List.length pre) ls)).
  { induction ls as [|l ls IH]; intros pre E; [reflexivity|].
    cbn [flat_map keys_from map]. rewrite map_app. unfold loc_counters at 1. cbn [app]. f_equal.
    - cbn [on_rank]. rewrite E, nth_error_app2, Nat.sub_diag by lia. reflexivity.
    - f_equal.
      + unfold keys_of. rewrite map_map, map_app. f_equal. destruct closed; reflexivity.
      + rewrite (IH (pre ++ [l])); [|now rewrite <- app_assoc]. rewrite app_length. cbn [List.length].
        now replace (List.length pre + 1)%nat with (S (List.length pre)) by lia. }
  exact (W _ [] eq_refl).
Qed.

Lemma twin_keys closed a b : Twin a b -> keys closed a = keys closed b.
Proof.
  intro H. unfold keys. pose proof (twin_locs _ _ H) as E. revert E. generalize 0%nat.
  generalize (e_locations b) as ms. induction (e_locations a) as [|l ls IH]; intros [|m ms] n E; try discriminate; [reflexivity|].
  cbn [map keys_from] in *. injection E as E1 E2 E3 E4 E5. f_equal. f_equal; [|now apply IH].
  unfold keys_of. now rewrite E2, E3.
Qed.

Definition total_at (es : list eco) (p : place) : Z := sumZ (map (fun e => on_rank e p) es).

Lemma vadd_map (f g : place -> Z) ks : vadd (map f ks) (map g ks) = map (fun p => f p + g p)%Z ks.
Proof. unfold vadd. induction ks; cbn; [reflexivity|]. now f_equal. Qed.
Lemma fold_vadd ks es : forall f : place -> Z,
  fold_left vadd (map (fun e => map (on_rank e) ks) es) (map f ks) =
  map (fun p => f p + total_at es p)%Z ks.
Proof.
  induction es as [|e es IH]; intro f; cbn [map fold_left].
  - apply map_ext. intro p. unfold total_at. cbn. lia.
  - rewrite vadd_map, IH. apply map_ext. intro p. unfold total_at. cbn [map sumZ]. lia.
Qed.
Lemma allreduce_keys ks es : es <> [] ->
  allreduce (map (fun e => map (on_rank e) ks) es) = Ok (map (total_at es) ks).
Proof.
  destruct es as [|e es]; [easy|]. intros _. cbn [map allreduce].
  assert (F : forallb (fun c => Nat.eqb (List.length c) (List.length (map (on_rank e) ks)))
                (map (fun e => map (on_rank e) ks) es) = true).
  { apply forallb_forall. intros c Hc. apply in_map_iff in Hc as (e1 & <- & _). rewrite !map_length. apply Nat.eqb_refl. }
  rewrite F, fold_vadd. f_equal. 
Qed.
Lemma mapM_pure {A B} (f : A -> res B) (g : A -> B) l : (forall a, In a l -> f a = Ok (g a)) -> mapM f l = Ok (map g l).
Proof.
  induction l as [|a l IH]; intro H; [reflexivity|]. cbn [mapM map]. rewrite H by now left. cbn [bind].
  rewrite IH by (intros; apply H; now right). reflexivity.
Qed.
Lemma map_nth_seq {A B} (f : A -> B) l d : map (fun j => f (nth j l d)) (seq 0 (List.length l)) = map f l.
Proof.
  induction l as [|a l IH]; [reflexivity|]. cbn [List.length seq map nth]. f_equal.
  rewrite <- seq_shift, map_map. exact IH.
Qed.
Lemma single_keys ks es : es <> [] ->
  single_totals (map (fun e => map (on_rank e) ks) es) = Ok (map (total_at es) ks).
Proof.
  intro N. unfold single_totals. destruct es as [|e es]; [easy|]. cbn [map].
  assert (F : forallb (fun c => Nat.eqb (List.length c) (List.length (map (on_rank e) ks)))
                (map (fun e => map (on_rank e) ks) es) = true).
  { apply forallb_forall. intros c Hc. apply in_map_iff in Hc as (e1 & <- & _). rewrite !map_length. apply Nat.eqb_refl. }
  rewrite F, map_length.
  change (map (on_rank e) ks :: map (fun e0 => map (on_rank e0) ks) es) with (map (fun e0 => map (on_rank e0) ks) (e :: es)).
  rewrite (mapM_pure _ (fun j => total_at (e :: es) (nth j ks (AtLoc 0)))).
  - f_equal. apply map_nth_seq.
  - intros j Hj. apply in_seq in Hj.
    rewrite (mapM_pure _ (fun c => nth j c 0%Z)).
    + cbn [bind]. f_equal. unfold total_at. f_equal. rewrite map_map. apply map_ext. intro e1.
      rewrite (nth_indep _ 0%Z (on_rank e1 (AtLoc 0))) by (rewrite map_length; lia). apply map_nth.
    + intros c Hc. apply in_map_iff in Hc as (e1 & <- & _).
      rewrite (nth_error_nth' _ 0%Z) by (rewrite map_length; lia). reflexivity.
Qed.

(** Writing totals back *)
Definition set_roads (T : place -> Z) (ks : list place) (h : list link) : list link :=
  fold_left (fun h p => match p with AtRoad k => upd k (up_k_numAgents (fun _ => T p)) h | AtLoc _ => h end) ks h.
Fixpoint set_heads (T : place -> Z) (i : nat) (ls : list location) : list location :=
  match ls with
  | [] => []
  | l :: ls' => up_l_numAgents (fun _ => T (AtLoc i)) l :: set_heads T (S i) ls'
  end.

Lemma write_links_keys T ks : forall h buf,
  fold_left write_link_total ks (h, map T (map AtRoad ks) ++ buf) = (set_roads T (map AtRoad ks) h, buf).
Proof.
  induction ks as [|k ks IH]; intros h buf; [reflexivity|]. cbn [map app fold_left write_link_total set_roads].
  rewrite IH. reflexivity.
Qed.
Lemma set_roads_app T a b h : set_roads T (a ++ b) h = set_roads T b (set_roads T a h).
Proof. apply fold_left_app. Qed.
Lemma write_locs_keys closed T ls : forall i pre h buf,
  fold_left (write_loc_total closed) ls (pre, h, map T (keys_from closed i ls) ++ buf) =
  (pre ++ set_heads T i ls, set_roads T (keys_from closed i ls) h, buf).
Proof.
  induction ls as [|l ls IH]; intros i pre h buf; cbn [fold_left keys_from set_heads map app].
  - now rewrite app_nil_r.
  - unfold write_loc_total at 2. rewrite map_app, <- app_assoc. unfold keys_of at 1.
    rewrite write_links_keys. rewrite IH. rewrite <- app_assoc. cbn [app]. f_equal. f_equal.
    change (AtLoc i :: keys_of closed l ++ keys_from closed (S i) ls) with ((AtLoc i :: keys_of closed l) ++ keys_from closed (S i) ls).
    rewrite set_roads_app. reflexivity.
Qed.
Lemma write_totals_keys closed T e :
  write_totals closed (map T (keys closed e)) e =
  up_e_total_agents (fun _ => sumZ (map T (keys closed e)))
    (up_e_locations (set_heads T 0) (up_e_links (set_roads T (keys closed e)) e)).
Proof.
  unfold write_totals, keys at 1. rewrite <- (app_nil_r (map T (keys_from closed 0 (e_locations e)))).
  rewrite write_locs_keys. reflexivity.
Qed.

Lemma nth_set_heads T ls : forall i j, nth_error (set_heads T i ls) j =
  option_map (up_l_numAgents (fun _ => T (AtLoc (i + j)))) (nth_error ls j).
Proof.
  induction ls as [|l ls IH]; intros i [|j]; cbn [set_heads nth_error option_map]; try reflexivity.
  - now rewrite Nat.add_0_r.
  - rewrite IH. now replace (S i + j)%nat with (i + S j)%nat by lia.
Qed.
Lemma nth_set_roads T ks : forall h k, nth_error (set_roads T ks h) k =
  option_map (fun x => if existsb (fun p => match p with AtRoad j => Nat.eqb j k | _ => false end) ks
                       then up_k_numAgents (fun _ => T (AtRoad k)) x else x) (nth_error h k).
Proof.
  induction ks as [|p ks IH]; intros h k.
  - cbn. now destruct (nth_error h k).
  - cbn [existsb]. unfold set_roads. cbn [fold_left]. fold (set_roads T ks).
    change (fold_left _ ks ?x) with (set_roads T ks x). rewrite IH. destruct p as [i|j]; [reflexivity|].
    rewrite nth_upd. destruct (Nat.eqb j k) eqn:E.
    + apply Nat.eqb_eq in E as ->. destruct (nth_error h k); [|reflexivity]. cbn [option_map orb].
      f_equal. destruct (existsb _ ks); reflexivity.
    + reflexivity.
Qed.

(** ** updateNumAgents *)

Definition nonempty (ks : list place) : bool := match ks with [] => false | _ => true end.

Lemma update_spec lat closed es e0 : In e0 es -> (forall a, In a es -> Twin a e0) ->
  update_num_agents lat closed es =
  if match lat with HighLatency => nonempty (keys closed e0) | LowLatency => true end
  then Ok (map (fun e => up_e_total_agents (fun _ => sumZ (map (total_at es) (keys closed e0)))
             (up_e_locations (set_heads (total_at es) 0)
               (up_e_links (set_roads (total_at es) (keys closed e0)) e))) es)
  else Err AssertionError.
Proof.
  intros I0 T.
  assert (B : map (counters closed) es = map (fun e => map (on_rank e) (keys closed e0)) es).
  { apply map_ext_in. intros e He. rewrite counters_keys. now rewrite (twin_keys closed _ _ (T e He)). }
  assert (N : es <> []) by (intros ->; destruct I0).
  assert (W : map (write_totals closed (map (total_at es) (keys closed e0))) es =
    map (fun e => up_e_total_agents (fun _ => sumZ (map (total_at es) (keys closed e0)))
             (up_e_locations (set_heads (total_at es) 0)
               (up_e_links (set_roads (total_at es) (keys closed e0)) e))) es).
  { apply map_ext_in. intros e He. rewrite <- (twin_keys closed _ _ (T e He)). apply write_totals_keys. }
  unfold update_num_agents. rewrite B. destruct lat.
  - unfold comm_total. destruct (keys closed e0) as [|p ks] eqn:K; cbn [nonempty].
    + destruct es as [|e es]; [easy|]. reflexivity.
    + rewrite (proj2 (forallb_forall _ _)).
      * rewrite allreduce_keys by assumption. cbn [bind]. now rewrite W.
      * intros c Hc. apply in_map_iff in Hc as (e1 & <- & _). reflexivity.
  - rewrite single_keys by assumption. cbn [bind]. now rewrite W.
Qed.
