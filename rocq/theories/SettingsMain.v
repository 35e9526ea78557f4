(** * SettingsMain: the theorems about settings files (C44) *)

From Coq Require Import Qround Lia Lqa.
From Verif Require Import Base State Settings SpecSettings Lemmas CouplingText SettingsProofs SettingsFacts.
Local Open Scope string_scope.
Local Open Scope list_scope.

Definition either {A : Type} (a b : option A) : option A := match a with Some x => Some x | None => b end.

Lemma all_lastw k p : lastw k (all_parts p) =
  either (lastw k (p_v1 p)) (either (lastw k (p_opt p)) (either (lastw k (p_rules p)) (either (lastw k (p_move p))
  (either (lastw k (p_spawn3 p)) (either (lastw k (p_flood p)) (either (lastw k resets2) (either (lastw k (p_conflict p))
  (either (lastw k resets1) (either (lastw k (p_spawn2 p)) (either (lastw k (p_spawn1 p)) (either (lastw k (p_log p))
  (lastw k (p_file p))))))))))))).
Proof.
  unfold all_parts. rewrite !lastw_app. unfold either.
  repeat match goal with |- context [match lastw k ?w with _ => _ end] => destruct (lastw k w) eqn:?; cbv iota end; auto.
Qed.

Lemma sub_none k W keys : (forall x, In x (map fst W) -> In x keys) -> mem_str k keys = false -> lastw k W = None.
Proof. intros S M. apply lastw_none. intro I. apply S, mem_str_in in I. congruence. Qed.

Lemma conflict_sub d b W : conflict_writes d b = Ok W -> forall x, In x (map fst W) -> In x conflict_keys.
Proof.
  intros H x I. destruct (conflict_writes_inv _ _ _ H) as [[-> _]|(_ & dpsc & mode & w & _ & _ & _ & _ & ->)]; [easy|exact I].
Qed.
Lemma flood_sub d b t W : flood_writes d b t = Ok W -> forall x, In x (map fst W) -> In x flood_keys.
Proof.
  intros H x I. destruct (flood_writes_inv _ _ _ _ H) as [[-> _]|(_ & _ & dpsc & mode & w & _ & _ & _ & _ & ->)]; [easy|exact I].
Qed.
Lemma rules_sub d W : flood_rules_writes d = Ok W -> forall x, In x (map fst W) -> In x rules_keys.
Proof.
  intros H x I. destruct (flood_rules_writes_inv _ _ H) as [[-> _]|(dpf & W1 & _ & _ & M & ->)]; [easy|].
  unfold rules_keys. cbn [map fst] in I. now rewrite (writes_keys _ _ _ M) in I.
Qed.

Definition row (p : list string) (x : line) : setting := Setting (ln_dest x) (p ++ [ln_name x]) (ln_conv x) (ln_default x).

Lemma row_value f p data xs W x :
  section f p data -> mapM (write_of data) xs = Ok W -> nodupb (map ln_dest xs) = true -> In x (map (row p) xs) ->
  In (st_key x) (map ln_dest xs) /\ exists w, lastw (st_key x) W = Some w /\ configured f x w.
Proof.
  intros S H N I. apply in_map_iff in I as ([k c n d] & <- & I). split.
  - apply in_map_iff. exists (Line k c n d). auto.
  - destruct (block_value f p data xs W k c n d S H N I) as (w & L & C). exists w. split; [exact L|apply C].
Qed.

Definition all_rows : list setting :=
  map (row []) file_lines ++ map (row ["log_levels"]) log_lines ++ map (row ["spawn_rules"]) spawn_lines1 ++
  map (row ["spawn_rules"]) spawn_lines2 ++ map (row ["spawn_rules"]) spawn_lines3 ++ map (row ["move_rules"]) move_lines ++
  map (row ["optimisations"]) optimisation_lines.

(** Each setting of [documented], at its place in [all_rows] *)
Definition places : list nat :=
  ([0; 1; 2; 3; 4; 6; 5; 7; 8; 9; 10; 11; 12; 13; 15; 16; 17; 18] ++ seq 19 33 ++ [52])%nat.

Lemma documented_places : map (fun i => nth_error all_rows i) places = map Some documented.
Proof. reflexivity. Qed.

Lemma incl_all x : In x documented -> In x all_rows.
Proof.
  intro I. assert (J : In (Some x) (map Some documented)) by (now apply in_map).
  rewrite <- documented_places in J. apply in_map_iff in J as (i & E & _). eapply nth_error_In. exact E.
Qed.

Lemma documented_rows :
  Forall (fun x => In x (map (row []) file_lines) \/ In x (map (row ["log_levels"]) log_lines) \/
    In x (map (row ["spawn_rules"]) spawn_lines1) \/ In x (map (row ["spawn_rules"]) spawn_lines2) \/
    In x (map (row ["spawn_rules"]) spawn_lines3) \/ In x (map (row ["move_rules"]) move_lines) \/
    In x (map (row ["optimisations"]) optimisation_lines)) documented.
Proof.
  assert (A : forall A (x : A) l1 l2, In x (l1 ++ l2) -> In x l1 \/ In x l2) by (intros; now apply in_app_or).
  apply Forall_forall. intros x I.
  apply (incl_all x) in I. repeat (apply A in I; destruct I as [I|I]; [auto 10|]). auto 10.
Qed.

(** Where a key can be written *)
Lemma keys_file dp n p k : inverted dp n p -> mem_str k (map ln_dest file_lines) = false -> lastw k (p_file p) = None.
Proof. intros I M. exact (lastw_keys_none _ _ _ (writes_keys _ _ _ (i_file _ _ _ I)) M). Qed.
Lemma keys_log dp n p k : inverted dp n p -> mem_str k (map ln_dest log_lines) = false -> lastw k (p_log p) = None.
Proof. intros I M. destruct (i_log _ _ _ I) as (d & _ & H). exact (lastw_keys_none _ _ _ (writes_keys _ _ _ H) M). Qed.
Lemma keys_spawn1 dp n p k : inverted dp n p -> mem_str k (map ln_dest spawn_lines1) = false -> lastw k (p_spawn1 p) = None.
Proof. intros I M. destruct (i_spawn _ _ _ I) as (d & _ & H & _). exact (lastw_keys_none _ _ _ (writes_keys _ _ _ H) M). Qed.
Lemma keys_spawn2 dp n p k : inverted dp n p -> mem_str k (map ln_dest spawn_lines2) = false -> lastw k (p_spawn2 p) = None.
Proof. intros I M. destruct (i_spawn _ _ _ I) as (d & _ & _ & H & _). exact (lastw_keys_none _ _ _ (writes_keys _ _ _ H) M). Qed.
Lemma keys_spawn3 dp n p k : inverted dp n p -> mem_str k (map ln_dest spawn_lines3) = false -> lastw k (p_spawn3 p) = None.
Proof. intros I M. destruct (i_spawn _ _ _ I) as (d & _ & _ & _ & H & _). exact (lastw_keys_none _ _ _ (writes_keys _ _ _ H) M). Qed.
Lemma keys_conflict dp n p k : inverted dp n p -> mem_str k conflict_keys = false -> lastw k (p_conflict p) = None.
Proof. intros I M. destruct (i_spawn _ _ _ I) as (d & _ & _ & _ & _ & H & _). exact (sub_none _ _ _ (conflict_sub _ _ _ H) M). Qed.
Lemma keys_flood dp n p k : inverted dp n p -> mem_str k flood_keys = false -> lastw k (p_flood p) = None.
Proof. intros I M. destruct (i_spawn _ _ _ I) as (d & _ & _ & _ & _ & _ & H). exact (sub_none _ _ _ (flood_sub _ _ _ _ H) M). Qed.
Lemma keys_move dp n p k : inverted dp n p -> mem_str k (map ln_dest move_lines) = false -> lastw k (p_move p) = None.
Proof. intros I M. destruct (i_move _ _ _ I) as (d & _ & H & _). exact (lastw_keys_none _ _ _ (writes_keys _ _ _ H) M). Qed.
Lemma keys_rules dp n p k : inverted dp n p -> mem_str k rules_keys = false -> lastw k (p_rules p) = None.
Proof. intros I M. destruct (i_move _ _ _ I) as (d & _ & _ & H). exact (sub_none _ _ _ (rules_sub _ _ H) M). Qed.
Lemma keys_opt dp n p k : inverted dp n p -> mem_str k (map ln_dest optimisation_lines) = false -> lastw k (p_opt p) = None.
Proof. intros I M. destruct (i_opt _ _ _ I) as (d & _ & H). exact (lastw_keys_none _ _ _ (writes_keys _ _ _ H) M). Qed.
Lemma keys_v1 dp n p k : inverted dp n p -> mem_str k (map fst v1_values) = false -> lastw k (p_v1 p) = None.
Proof.
  intros I M. rewrite (i_v1 _ _ _ I). unfold v1_writes. destruct (flag _ _); [|reflexivity].
  exact (lastw_keys_none _ _ _ eq_refl M).
Qed.
Lemma keys_resets k : mem_str k (map fst resets1 ++ map fst resets2) = false -> lastw k resets1 = None /\ lastw k resets2 = None.
Proof.
  intro M. split; apply lastw_none; intro I; assert (X : In k (map fst resets1 ++ map fst resets2)) by (apply in_or_app; auto);
  apply mem_str_in in X; congruence.
Qed.

Definition later_keys : list (list string) :=
  [map ln_dest log_lines; map ln_dest spawn_lines1; map ln_dest spawn_lines2; map fst resets1 ++ map fst resets2; conflict_keys;
   flood_keys; map ln_dest spawn_lines3; map ln_dest move_lines; rules_keys; map ln_dest optimisation_lines].

Definition disjoint_keys (ks : list string) (ls : list (list string)) : bool :=
  forallb (fun k => forallb (fun l => negb (mem_str k l)) ls) ks.
Lemma disjoint_ok ks ls k l : disjoint_keys ks ls = true -> In k ks -> In l ls -> mem_str k l = false.
Proof.
  unfold disjoint_keys. rewrite forallb_forall. intros H I J. specialize (H k I). rewrite forallb_forall in H.
  specialize (H l J). now apply negb_true_iff in H.
Qed.

Lemma v1_stored dp n p st : inverted dp n p ->
  dict_get "UseV1Rules" (apply (all_parts p) st) = Some (YBool (flag "UseV1Rules" (p_move p))).
Proof.
  intro I. rewrite get_apply, all_lastw. rewrite (keys_v1 _ _ _ _ I), (keys_opt _ _ _ _ I), (keys_rules _ _ _ _ I) by reflexivity.
  cbn [either]. destruct (i_move _ _ _ I) as (d & _ & M & _).
  now rewrite (bool_line _ _ _ "UseV1Rules" "use_v1_rules" (YBool false) M eq_refl ltac:(cbn; intuition)).
Qed.

Lemma read_inv dp st n st' : ReadFromYML dp st = Ok (n, st') ->
  exists p, parts_of dp = Ok (n, p) /\ inverted dp n p /\ st' = apply (all_parts p) st.
Proof.
  rewrite read_parts. destruct (parts_of dp) as [[m p]|] eqn:E; cbn [rmap fst snd]; [|discriminate].
  intro H. injection H as <- <-. exists p. split; [reflexivity|]. split; [now apply parts_inv|reflexivity].
Qed.

Theorem read_values f st n st' x :
  ReadFromYML f st = Ok (n, st') -> In x documented ->
  (dict_get "UseV1Rules" st' = Some (YBool true) -> ~ In (st_key x) (map fst v1_values)) ->
  exists w, dict_get (st_key x) st' = Some w /\ configured f x w.
Proof.
  intros H I V. destruct (read_inv _ _ _ _ H) as (p & _ & P & ->).
  assert (NV : lastw (st_key x) (p_v1 p) = None).
  { rewrite (v1_stored _ _ _ st P) in V. rewrite (i_v1 _ _ _ P). unfold v1_writes. destruct (flag "UseV1Rules" (p_move p)); [|reflexivity].
    apply lastw_none. now apply V. }
  rewrite get_apply, all_lastw, NV. cbn [either].
  pose proof (proj1 (Forall_forall _ _) documented_rows _ I) as R. cbv beta in R.
  destruct R as [R|[R|[R|[R|[R|[R|R]]]]]].
  - destruct (row_value f [] f _ _ x (section_top f) (i_file _ _ _ P) eq_refl R) as [K (w & L & C)].
    assert (D : disjoint_keys (map ln_dest file_lines) later_keys = true) by (vm_compute; reflexivity).
    pose proof (fun l => disjoint_ok _ _ _ l D K) as Dj. unfold later_keys in Dj. cbn [In] in Dj.
    rewrite (keys_opt _ _ _ _ P), (keys_rules _ _ _ _ P), (keys_move _ _ _ _ P), (keys_spawn3 _ _ _ _ P), (keys_flood _ _ _ _ P),
      (keys_conflict _ _ _ _ P), (keys_spawn2 _ _ _ _ P), (keys_spawn1 _ _ _ _ P), (keys_log _ _ _ _ P) by (apply Dj; auto 12).
    destruct (keys_resets (st_key x)) as [-> ->]; [apply Dj; auto 12|]. cbn [either]. rewrite L. exists w. auto.
  - destruct (i_log _ _ _ P) as (d & S & M).
    destruct (row_value f _ d _ _ x S M eq_refl R) as [K (w & L & C)].
    assert (D : disjoint_keys (map ln_dest log_lines) (skipn 1 later_keys) = true) by (vm_compute; reflexivity).
    pose proof (fun l => disjoint_ok _ _ _ l D K) as Dj. unfold later_keys in Dj. cbn [skipn In] in Dj.
    rewrite (keys_opt _ _ _ _ P), (keys_rules _ _ _ _ P), (keys_move _ _ _ _ P), (keys_spawn3 _ _ _ _ P), (keys_flood _ _ _ _ P),
      (keys_conflict _ _ _ _ P), (keys_spawn2 _ _ _ _ P), (keys_spawn1 _ _ _ _ P) by (apply Dj; auto 12).
    destruct (keys_resets (st_key x)) as [-> ->]; [apply Dj; auto 12|]. cbn [either]. rewrite L. exists w. auto.
  - destruct (i_spawn _ _ _ P) as (d & S & M & _).
    destruct (row_value f _ d _ _ x S M eq_refl R) as [K (w & L & C)].
    assert (D : disjoint_keys (map ln_dest spawn_lines1) (skipn 2 later_keys) = true) by (vm_compute; reflexivity).
    pose proof (fun l => disjoint_ok _ _ _ l D K) as Dj. unfold later_keys in Dj. cbn [skipn In] in Dj.
    rewrite (keys_opt _ _ _ _ P), (keys_rules _ _ _ _ P), (keys_move _ _ _ _ P), (keys_spawn3 _ _ _ _ P), (keys_flood _ _ _ _ P),
      (keys_conflict _ _ _ _ P), (keys_spawn2 _ _ _ _ P) by (apply Dj; auto 12).
    destruct (keys_resets (st_key x)) as [-> ->]; [apply Dj; auto 12|]. cbn [either]. rewrite L. exists w. auto.
  - destruct (i_spawn _ _ _ P) as (d & S & _ & M & _).
    destruct (row_value f _ d _ _ x S M eq_refl R) as [K (w & L & C)].
    assert (D : disjoint_keys (map ln_dest spawn_lines2) (skipn 3 later_keys) = true) by (vm_compute; reflexivity).
    pose proof (fun l => disjoint_ok _ _ _ l D K) as Dj. unfold later_keys in Dj. cbn [skipn In] in Dj.
    rewrite (keys_opt _ _ _ _ P), (keys_rules _ _ _ _ P), (keys_move _ _ _ _ P), (keys_spawn3 _ _ _ _ P), (keys_flood _ _ _ _ P),
      (keys_conflict _ _ _ _ P) by (apply Dj; auto 12).
    destruct (keys_resets (st_key x)) as [-> ->]; [apply Dj; auto 12|]. cbn [either]. rewrite L. exists w. auto.
  - destruct (i_spawn _ _ _ P) as (d & S & _ & _ & M & _).
    destruct (row_value f _ d _ _ x S M eq_refl R) as [K (w & L & C)].
    assert (D : disjoint_keys (map ln_dest spawn_lines3) (skipn 7 later_keys) = true) by (vm_compute; reflexivity).
    pose proof (fun l => disjoint_ok _ _ _ l D K) as Dj. unfold later_keys in Dj. cbn [skipn In] in Dj.
    rewrite (keys_opt _ _ _ _ P), (keys_rules _ _ _ _ P), (keys_move _ _ _ _ P) by (apply Dj; auto 12).
    cbn [either]. rewrite L. exists w. auto.
  - destruct (i_move _ _ _ P) as (d & S & M & _).
    destruct (row_value f _ d _ _ x S M eq_refl R) as [K (w & L & C)].
    assert (D : disjoint_keys (map ln_dest move_lines) (skipn 8 later_keys) = true) by (vm_compute; reflexivity).
    pose proof (fun l => disjoint_ok _ _ _ l D K) as Dj. unfold later_keys in Dj. cbn [skipn In] in Dj.
    rewrite (keys_opt _ _ _ _ P), (keys_rules _ _ _ _ P) by (apply Dj; auto 12).
    cbn [either]. rewrite L. exists w. auto.
  - destruct (i_opt _ _ _ P) as (d & S & M).
    destruct (row_value f _ d _ _ x S M eq_refl R) as [K (w & L & C)]. rewrite L. exists w. auto.
Qed.

Theorem read_steps f st n st' :
  ReadFromYML f st = Ok (n, st') -> configured f (Setting "" ["number_of_steps"] KFloat (YInt (-1))) (YFloat n).
Proof.
  intro H. destruct (read_inv _ _ _ _ H) as (p & _ & P & _). destruct (i_steps _ _ _ P) as (v & F & C).
  exists v. split; [|now apply convert_reads]. exact (fetch_section f [] f _ _ _ (section_top f) F).
Qed.

Theorem read_v1 f st n st' :
  ReadFromYML f st = Ok (n, st') -> dict_get "UseV1Rules" st' = Some (YBool true) ->
  forall k v, In (k, v) v1_values -> dict_get k st' = Some v.
Proof.
  intros H V k v I. destruct (read_inv _ _ _ _ H) as (p & _ & P & ->). rewrite (v1_stored _ _ _ st P) in V. injection V as V.
  rewrite get_apply, all_lastw, (i_v1 _ _ _ P). unfold v1_writes. rewrite V. cbn in I.
  repeat destruct I as [I|I]; try (injection I as <- <-; reflexivity). easy.
Qed.

Lemma section_has f p d : section f p d -> (has_section f p <-> d <> YNull).
Proof.
  intros [G|[M ->]].
  - split; [intros (v & A & B); rewrite (gives_fun _ _ _ G _ A); exact B|intro N; exists d; auto].
  - split; [intros (v & A & _); exfalso; eapply M; eassumption|easy].
Qed.

Theorem read_flood_rules f st n st' :
  ReadFromYML f st = Ok (n, st') -> has_section f ["move_rules"; "flood_rules"] ->
  dict_get "move_rules.FloodRulesEnabled" st' = Some (YBool true) /\
  forall x, In x flood_documented -> exists w, dict_get (st_key x) st' = Some w /\ configured f x w.
Proof.
  intros H HS. destruct (read_inv _ _ _ _ H) as (p & _ & P & ->).
  destruct (i_move _ _ _ P) as (d & S & M & R).
  destruct (flood_rules_writes_inv _ _ R) as [[E F]|(dpf & W1 & F & N & M1 & E)].
  { exfalso. apply (section_has _ _ _ (fetch_sub _ _ _ _ _ S F)) in HS. now apply HS. }
  assert (KW : forall k, In k (map ln_dest flood_lines) -> lastw k (p_v1 p) = None /\ lastw k (p_opt p) = None).
  { intros k I. assert (D : disjoint_keys (map ln_dest flood_lines) [map fst v1_values; map ln_dest optimisation_lines] = true) by (vm_compute; reflexivity).
    split; [apply (keys_v1 _ _ _ _ P)|apply (keys_opt _ _ _ _ P)]; eapply disjoint_ok; try eassumption; cbn; auto. }
  split.
  - rewrite get_apply, all_lastw, (keys_v1 _ _ _ _ P), (keys_opt _ _ _ _ P) by reflexivity. cbn [either]. rewrite E. cbn [lastw].
    now rewrite (lastw_keys_none "move_rules.FloodRulesEnabled" _ _ (writes_keys _ _ _ M1) eq_refl).
  - intros x I.
    assert (I' : In x (map (row ["move_rules"; "flood_rules"]) flood_lines)).
    { cbn in I |- *. repeat destruct I as [<-|I]; try easy; repeat (first [left; reflexivity|right]). }
    destruct (row_value f ["move_rules"; "flood_rules"] dpf _ _ x (fetch_sub _ _ _ _ _ S F) M1 eq_refl I') as [K (w & L & C)].
    destruct (KW _ K) as [K1 K2]. rewrite get_apply, all_lastw, K1, K2. cbn [either]. rewrite E. cbn [lastw]. rewrite L.
    exists w. auto.
Qed.

(** The switches of spawn_rules *)
Lemma switch_flag f n p key name d b :
  inverted f n p -> In (Line key KBool name (YBool d)) spawn_lines1 -> switched f name d b -> flag key (p_spawn1 p) = b.
Proof.
  intros P I S. destruct (i_spawn _ _ _ P) as (s & Sec & M & _).
  destruct (block_value f _ s _ _ key KBool name (YBool d) Sec M eq_refl I) as (w & L & C).
  specialize (C name). cbn [app] in C. unfold switched in S. pose proof (configured_fun _ _ _ _ C S) as E. subst w.
  unfold flag. rewrite L. now destruct b.
Qed.

Lemma flag_switch f n p key name d :
  inverted f n p -> In (Line key KBool name (YBool d)) spawn_lines1 -> switched f name d (flag key (p_spawn1 p)).
Proof.
  intros P I. destruct (i_spawn _ _ _ P) as (s & Sec & M & _).
  destruct (block_value f _ s _ _ key KBool name (YBool d) Sec M eq_refl I) as (w & L & C).
  rewrite (bool_line _ _ _ _ _ _ M eq_refl I) in L. injection L as <-. apply C.
Qed.

Theorem read_conflict_driven f st n st' :
  ReadFromYML f st = Ok (n, st') ->
  switched f "flood_zone_spawning_only" false false -> has_section f ["spawn_rules"; "conflict_driven_spawning"] ->
  dict_get "spawn_rules.conflict_driven_spawning" st' = Some (YBool true) /\
  exists mode w, dict_get "spawn_rules.conflict_spawn_mode" st' = Some mode /\
    configured f (Setting "" ["spawn_rules"; "conflict_driven_spawning"; "spawn_mode"] KRaw (YStr "constant")) mode /\
    dict_get "spawn_rules.displaced_per_conflict_day" st' = Some w /\
    (mode = YStr "pop_ratio" ->
      configured f (Setting "" ["spawn_rules"; "conflict_driven_spawning"; "displaced_per_conflict_day"] KFloat (YFloat (1 # 100))) w) /\
    (mode <> YStr "pop_ratio" ->
      configured f (Setting "" ["spawn_rules"; "conflict_driven_spawning"; "displaced_per_conflict_day"] KInt (YInt 500)) w).
Proof.
  intros H SW HS. destruct (read_inv _ _ _ _ H) as (p & _ & P & ->).
  pose proof (switch_flag _ _ _ "spawn_rules.flood_zone_spawning_only" _ _ _ P ltac:(cbn; intuition) SW) as FL.
  destruct (i_spawn _ _ _ P) as (d & S & _ & _ & _ & C & _). rewrite FL in C.
  destruct (conflict_writes_inv _ _ _ C) as [[_ [X|F]]|(_ & dpsc & mode & w & F & N & G & D & E)]; [discriminate X| |].
  { exfalso. apply (section_has _ _ _ (fetch_sub _ _ _ _ _ S F)) in HS. now apply HS. }
  pose proof (fetch_sub _ _ _ _ _ S F) as S2. cbn [app] in S2.
  assert (K : forall k, In k conflict_keys -> forall v, lastw k (p_conflict p) = Some v -> dict_get k (apply (all_parts p) st) = Some v).
  { intros k I v L. rewrite get_apply, all_lastw.
    assert (Dj : disjoint_keys conflict_keys [map fst v1_values; map ln_dest optimisation_lines; rules_keys; map ln_dest move_lines; map ln_dest spawn_lines3; flood_keys; map fst resets2] = true) by (vm_compute; reflexivity).
    pose proof (fun l => disjoint_ok _ _ _ l Dj I) as Q. cbn [In] in Q.
    rewrite (keys_v1 _ _ _ _ P), (keys_opt _ _ _ _ P), (keys_rules _ _ _ _ P), (keys_move _ _ _ _ P), (keys_spawn3 _ _ _ _ P), (keys_flood _ _ _ _ P) by (apply Q; auto 10).
    rewrite (lastw_keys_none k resets2 _ eq_refl) by (apply Q; auto 10). cbn [either]. now rewrite L. }
  split; [apply K; [cbn; auto|rewrite E; reflexivity]|].
  exists mode, w. split; [apply K; [cbn; auto|rewrite E; reflexivity]|].
  split; [exists mode; split; [exact (fetch_section _ _ _ _ _ _ S2 G)|constructor]|].
  split; [apply K; [cbn; auto|rewrite E; reflexivity]|].
  destruct D as [[Mo (v & Fv & Cv)]|[Mo (v & Fv & Cv)]]; (split; intro X; [|]); try contradiction;
  exists v; (split; [exact (fetch_section _ _ _ _ _ _ S2 Fv)|now apply convert_reads]).
Qed.

Theorem read_flood_driven f st n st' :
  ReadFromYML f st = Ok (n, st') ->
  switched f "flood_zone_spawning_only" false true -> has_section f ["spawn_rules"; "flood_driven_spawning"] ->
  dict_get "spawn_rules.flood_driven_spawning" st' = Some (YBool true) /\
  dict_get "move_rules.FloodRulesEnabled" st' = Some (YBool true) /\
  exists mode w, dict_get "spawn_rules.flood_spawn_mode" st' = Some mode /\
    configured f (Setting "" ["spawn_rules"; "flood_driven_spawning"; "spawn_mode"] KRaw (YStr "pop_ratio")) mode /\
    dict_get "spawn_rules.displaced_per_flood_day" st' = Some w /\
    (mode = YStr "pop_ratio" ->
      configured f (Setting "" ["spawn_rules"; "flood_driven_spawning"; "displaced_per_flood_day"] KRaw
        (YList [YFloat 0; YFloat (1 # 10); YFloat (2 # 10); YFloat (5 # 10); YFloat (9 # 10)])) w) /\
    (mode <> YStr "pop_ratio" ->
      configured f (Setting "" ["spawn_rules"; "flood_driven_spawning"; "displaced_per_flood_day"] KRaw
        (YList [YInt 0; YInt 100; YInt 200; YInt 300; YInt 500])) w).
Proof.
  intros H SW HS. destruct (read_inv _ _ _ _ H) as (p & _ & P & ->).
  pose proof (switch_flag _ _ _ "spawn_rules.flood_zone_spawning_only" _ _ _ P ltac:(cbn; intuition) SW) as FL.
  destruct (i_spawn _ _ _ P) as (d & S & _ & _ & _ & _ & C). rewrite FL in C.
  destruct (flood_writes_inv _ _ _ _ C) as [[_ [X|F]]|(_ & _ & dpsc & mode & w & F & N & G & D & E)]; [discriminate X| |].
  { exfalso. apply (section_has _ _ _ (fetch_sub _ _ _ _ _ S F)) in HS. now apply HS. }
  pose proof (fetch_sub _ _ _ _ _ S F) as S2. cbn [app] in S2.
  assert (K : forall k, In k (tl flood_keys) -> forall v, lastw k (p_flood p) = Some v -> dict_get k (apply (all_parts p) st) = Some v).
  { intros k I v L. rewrite get_apply, all_lastw.
    assert (Dj : disjoint_keys (tl flood_keys) [map fst v1_values; map ln_dest optimisation_lines; rules_keys; map ln_dest move_lines; map ln_dest spawn_lines3] = true) by (vm_compute; reflexivity).
    pose proof (fun l => disjoint_ok _ _ _ l Dj I) as Q. cbn [In] in Q.
    rewrite (keys_v1 _ _ _ _ P), (keys_opt _ _ _ _ P), (keys_rules _ _ _ _ P), (keys_move _ _ _ _ P), (keys_spawn3 _ _ _ _ P) by (apply Q; auto 10).
    cbn [either]. now rewrite L. }
  split; [apply K; [cbn; auto|rewrite E; reflexivity]|].
  split.
  { rewrite get_apply, all_lastw, (keys_v1 _ _ _ _ P), (keys_opt _ _ _ _ P) by reflexivity. cbn [either].
    destruct (i_move _ _ _ P) as (dm & _ & _ & R).
    destruct (flood_rules_writes_inv _ _ R) as [[E2 _]|(dpf & W1 & _ & _ & M1 & E2)]; rewrite E2; cbn [lastw either].
    - rewrite (keys_move _ _ _ _ P), (keys_spawn3 _ _ _ _ P) by reflexivity. cbn [either]. rewrite E. reflexivity.
    - now rewrite (lastw_keys_none "move_rules.FloodRulesEnabled" _ _ (writes_keys _ _ _ M1) eq_refl). }
  exists mode, w. split; [apply K; [cbn; auto|rewrite E; reflexivity]|].
  split; [exists mode; split; [exact (fetch_section _ _ _ _ _ _ S2 G)|constructor]|].
  split; [apply K; [cbn; auto|rewrite E; reflexivity]|].
  unfold flood_default in D. split; intro X.
  - subst mode. exists w. split; [exact (fetch_section _ _ _ _ _ _ S2 D)|constructor].
  - assert (Y : yml_is_str "pop_ratio" mode = false).
    { destruct mode as [| | | |s| | ]; try reflexivity. cbn [yml_is_str]. apply String.eqb_neq. intros <-. now apply X. }
    rewrite Y in D. exists w. split; [exact (fetch_section _ _ _ _ _ _ S2 D)|constructor].
Qed.
