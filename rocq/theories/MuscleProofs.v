(** * MuscleProofs: a manager passes on what files would say *)

From Coq Require Import Lia.
From Verif Require Import Base State Moving Flee Api Pflee ParApi SpecParallel Coupling SpecCoupling Lemmas Schedule CouplingText CouplingMean CouplingRun
  SpecExchange ExchangeProofs Muscle.
Local Open Scope string_scope.
Local Open Scope list_scope.

(** ** Reading the message of a manager *)

Lemma joined_split rows : Forall plain (map fst rows) -> rows <> [] -> split newline (joined rows) = map row_text rows.
Proof.
  induction rows as [|r rows IH]; intros P N; [contradiction|]. inversion P as [|? ? P1 P2]; subst. destruct r as [n z]. cbn [fst] in P1.
  pose proof (line_free n z P1) as F. destruct rows as [|r' rows].
  - cbn [joined map]. unfold row_text. cbn [fst snd]. now rewrite (split_free _ _ F).
  - change (joined ((n, z) :: r' :: rows)) with (row_text (n, z) ++ String newline (joined (r' :: rows)))%string.
    rewrite split_app, IH by (assumption || discriminate). unfold row_text at 1. cbn [fst snd]. rewrite (split_free _ _ F). reflexivity.
Qed.
Lemma read_joined cp rows : Forall plain (map fst rows) -> exists d, extract_text cp (joined rows) = Ok d /\
  forall m, dict_get m d = if mem_str m (cp_names cp) then last_of m rows else None.
Proof.
  intro P. unfold extract_text, extract. destruct rows as [|r rows].
  - exists []. split; [reflexivity|]. intro m. cbn. now destruct (mem_str m (cp_names cp)).
  - rewrite joined_split by (assumption || discriminate). destruct (read_rows cp (r :: rows) P []) as (d & E & G). exists d.
    split; [exact E|]. intro m. rewrite G. cbn [dict_get]. destruct (last_of m (r :: rows)), (mem_str m (cp_names cp)); reflexivity.
Qed.
Lemma last_get n (d : list (string * Z)) : NoDup (map fst d) -> last_of n d = dict_get n d.
Proof.
  induction d as [|[m z] d IH]; intro N; [reflexivity|]. inversion N as [|? ? N1 N2]; subst. cbn [last_of dict_get]. rewrite (IH N2).
  destruct (String.eqb_spec n m) as [->|X]; [|now destruct (dict_get n d)].
  destruct (dict_get m d) as [y|] eqn:E; [|reflexivity]. exfalso. apply N1. destruct (in_dec string_dec m (map fst d)) as [I|I]; [exact I|].
  apply get_none in I. congruence.
Qed.

(** ** What a text says about a name does not depend on who reads it *)

Lemma row_same cp cm n row d d' e e' : In n (cp_names cp) -> In n (cp_names cm) ->
  dict_get n d = dict_get n e -> read_row cp d row = Ok d' -> read_row cm e row = Ok e' -> dict_get n d' = dict_get n e'.
Proof.
  intros IP IM S HP HM. destruct row as [|w rest].
  - cbn in HP, HM. congruence.
  - destruct (String.eqb_spec w n) as [->|N].
    + unfold read_row in HP, HM. destruct n as [|c w]; [congruence|]. destruct (Ascii.eqb c "#"); [congruence|].
      assert (V : exists v z, nth_error rest 0 = Some v /\ parse_Z v = Some z).
      { clear - IP HP. revert d HP. generalize dependent (cp_names cp). induction l as [|m names IH]; intros I d HP; [destruct I|].
        cbn [foldM] in HP. destruct (String.eqb_spec (String c w) m) as [E|NE].
        - clear IH. destruct (nth_error rest 0) as [v|]; [|discriminate HP]. exists v. cbn [of_option bind] in HP.
          destruct (parse_Z v) as [z|] eqn:EZ; [|discriminate HP]. exists z. split; reflexivity.
        - cbn [bind] in HP. destruct I as [X|X]; [congruence|]. exact (IH X d HP). }
      destruct V as (v & z & V & Z1).
      destruct (proj2 (names_loop (String c w) rest (cp_names cp) d) v z V Z1) as (d1 & D1 & G1). rewrite HP in D1. injection D1 as <-.
      destruct (proj2 (names_loop (String c w) rest (cp_names cm) e) v z V Z1) as (e1 & D2 & G2). rewrite HM in D2. injection D2 as <-.
      rewrite G1, G2, String.eqb_refl. apply mem_str_in in IP, IM. now rewrite IP, IM.
    + rewrite (row_frame _ _ _ _ HP n), (row_frame _ _ _ _ HM n); [exact S|..]; right; cbn; congruence.
Qed.
Lemma extract_same cp cm n text d e : In n (cp_names cp) -> In n (cp_names cm) ->
  extract_text cp text = Ok d -> extract_text cm text = Ok e -> dict_get n d = dict_get n e.
Proof.
  intros IP IM. unfold extract_text, extract. assert (W : forall lines a b, dict_get n a = dict_get n b ->
    foldM (fun d line => read_row cp d (split comma line)) lines a = Ok d -> foldM (fun d line => read_row cm d (split comma line)) lines b = Ok e ->
    dict_get n d = dict_get n e); [|now apply W].
  induction lines as [|l lines IH]; intros a b S HP HM; cbn [foldM] in HP, HM; [congruence|].
  destruct (read_row cp a (split comma l)) as [a1|] eqn:EP; [|discriminate]. destruct (read_row cm b (split comma l)) as [b1|] eqn:EM; [|discriminate].
  cbn [bind] in HP, HM. exact (IH a1 b1 (row_same _ _ _ _ _ _ _ _ IP IM S EP EM) HP HM).
Qed.
Lemma given_same cp cm n texts ds es : In n (cp_names cp) -> In n (cp_names cm) ->
  Forall2 (fun t x => extract_text cp t = Ok x) texts ds -> Forall2 (fun t x => extract_text cm t = Ok x) texts es -> given n ds = given n es.
Proof.
  intros IP IM F. revert es. induction F as [|t d texts ds E F IH]; intros es G; inversion G as [|? e ? es' E' G']; subst; [reflexivity|].
  unfold given in *. cbn [flat_map]. rewrite (extract_same cp cm n t d e IP IM E E'), (IH es' G'). reflexivity.
Qed.
Lemma extract_names cp text d n : extract_text cp text = Ok d -> ~ In n (cp_names cp) -> dict_get n d = None.
Proof.
  unfold extract_text, extract. assert (W : forall lines a, dict_get n a = None -> foldM (fun d line => read_row cp d (split comma line)) lines a = Ok d ->
    ~ In n (cp_names cp) -> dict_get n d = None); [|now apply W].
  induction lines as [|l lines IH]; intros a A H N; cbn [foldM] in H; [congruence|].
  destruct (read_row cp a (split comma l)) as [a1|] eqn:E; [|discriminate]. cbn [bind] in H. apply (IH a1); [|exact H|exact N].
  destruct (split comma l) as [|w rest]; [cbn in E; congruence|]. destruct (String.eqb_spec w n) as [->|X].
  - rewrite (row_ignored cp a n rest) in E by auto. congruence.
  - rewrite (row_frame _ _ _ _ E n); [exact A|]. right. cbn. congruence.
Qed.

Lemma input_nodup cp texts d : read_input cp texts = Ok d -> NoDup (map fst d).
Proof.
  unfold read_input. intro H. destruct (foldM _ texts []) as [agg|] eqn:E; [|discriminate]. cbn [bind] in H. injection H as <-.
  rewrite map_map. cbn [fst]. change (map (fun x : string * list Z => fst x) agg) with (map fst agg).
  refine (foldM_inv (fun a => NoDup (map fst a)) _ texts _ _ _ _ E); [|constructor].
  intros a t a' I N S. destruct (extract_text cp t) as [one|] eqn:X; [|discriminate]. cbn [bind] in S. unfold combine_one in S.
  apply extract_nodup in X. destruct a as [|p a].
  - injection S as <-. rewrite map_map. exact X.
  - refine (foldM_inv (fun a => NoDup (map fst a)) _ one _ _ _ _ S); [|exact N].
    intros b q b' _ NB T. destruct (dict_get (fst q) b); [|discriminate]. cbn in T. injection T as <-. now apply dict_set_nodup.
Qed.
Lemma input_names cp texts d n z : read_input cp texts = Ok d -> dict_get n d = Some z -> In n (cp_names cp).
Proof.
  intros H G. destruct (read_input_means _ _ _ H) as (ds & F & M). rewrite M in G. destruct (in_dec string_dec n (cp_names cp)) as [I|I]; [exact I|].
  exfalso. replace (given n ds) with (@nil Z) in G; [discriminate|]. clear - F I. unfold given. induction F as [|t d texts ds E F IH]; [reflexivity|].
  cbn [flat_map]. now rewrite (extract_names cp t d n E I).
Qed.

Lemma f_relay cm cp texts message d : Forall plain (cp_names cm) -> manage cm texts = Ok message -> read_input cp texts = Ok d ->
  exists d', extract_text cp message = Ok d' /\
    (forall n, In n (cp_names cm) -> dict_get n d' = dict_get n d) /\ (forall n, ~ In n (cp_names cm) -> dict_get n d' = None).
Proof.
  intros P H R. unfold manage in H. destruct (read_input cm texts) as [dm|] eqn:M; [|discriminate]. cbn [bind] in H. injection H as <-.
  pose proof (input_nodup _ _ _ M) as ND.
  assert (PR : Forall plain (map fst dm)).
  { apply Forall_forall. intros n I. rewrite Forall_forall in P. apply P. apply in_map_iff in I as ([n' z] & <- & I).
    apply (input_names cm texts dm n' z M). now apply get_in. }
  destruct (read_joined cp dm PR) as (d' & E & G). exists d'. split; [exact E|]. split.
  - intros n IM. rewrite G, (last_get n dm ND). destruct (mem_str n (cp_names cp)) eqn:IP.
    + apply mem_str_in in IP. destruct (read_input_means _ _ _ R) as (ds & F1 & M1). destruct (read_input_means _ _ _ M) as (es & F2 & M2).
      rewrite M1, M2. now rewrite (given_same cp cm n texts ds es IP IM F1 F2).
    + destruct (dict_get n d) as [z|] eqn:D; [|reflexivity]. apply (input_names cp texts d n z R) in D. apply mem_str_in in D. congruence.
  - intros n IM. rewrite G, (last_get n dm ND). destruct (dict_get n dm) as [z|] eqn:D; [|now destruct (mem_str n (cp_names cp))].
    apply (input_names cm texts dm n z M) in D. contradiction.
Qed.

Lemma calls_same n lat d d' cp : (forall i name dir, coupled cp i name dir -> says "in" dir -> dict_get name d' = dict_get name d) ->
  couple_calls n lat d' cp = couple_calls n lat d cp.
Proof.
  intro H. unfold couple_calls. f_equal.
  assert (W : forall rows, (forall i name dir, In (i, (name, dir)) rows -> says "in" dir -> dict_get name d' = dict_get name d) ->
    mapM (fun row : nat * (string * string) => let '(i, (name, direction)) := row in
           if str_in "in" direction then z <- of_option KeyError (dict_get name d') ;; Ok [PInsertAgents (repeat i n) z; PUpdateNumAgents lat false]
           else Ok [PUpdateNumAgents lat false]) rows =
    mapM (fun row : nat * (string * string) => let '(i, (name, direction)) := row in
           if str_in "in" direction then z <- of_option KeyError (dict_get name d) ;; Ok [PInsertAgents (repeat i n) z; PUpdateNumAgents lat false]
           else Ok [PUpdateNumAgents lat false]) rows).
  { induction rows as [|(i & name & dir) rows IH]; intro R; [reflexivity|]. cbn [mapM].
    rewrite IH by (intros; eapply R; [right; eassumption|assumption]).
    destruct (str_in "in" dir) eqn:E; [|reflexivity]. apply says_in in E; [|discriminate]. now rewrite (R i name dir (or_introl eq_refl) E). }
  apply W. intros i name dir I. apply (H i name dir). now apply coupled_rows.
Qed.

Lemma f_same o S lat time cm cp texts message d st : Forall plain (cp_names cm) ->
  (forall i name dir, coupled cp i name dir -> says "in" dir -> In name (cp_names cm)) ->
  manage cm texts = Ok message -> read_input cp texts = Ok d ->
  couple_muscle o S lat time message cp st = couple o S lat time texts cp st.
Proof.
  intros P K H R. destruct (f_relay cm cp texts message d P H R) as (d' & E & G & _). unfold couple_muscle, couple.
  destruct (couples_now time cp) as [[|]|]; [|reflexivity|reflexivity]. cbn [bind]. rewrite E, R. cbn [bind].
  rewrite (calls_same (List.length st) lat d d' cp); [reflexivity|]. intros i name dir C I. apply G. eauto.
Qed.

(** ** The same names on both sides *)

Lemma names_set w rest names names' : (forall n, In n names <-> In n names') -> forall d,
  foldM (fun d1 n => if String.eqb w n then v <- of_option IndexError (nth_error rest 0) ;; z <- of_option ValueError (parse_Z v) ;; Ok (dict_set n z d1) else Ok d1) names d =
  foldM (fun d1 n => if String.eqb w n then v <- of_option IndexError (nth_error rest 0) ;; z <- of_option ValueError (parse_Z v) ;; Ok (dict_set n z d1) else Ok d1) names' d.
Proof.
  assert (SS : forall A k (v : A) d, dict_set k v (dict_set k v d) = dict_set k v d).
  { intros A k v. induction d as [|[m y] d IH]; cbn; [now rewrite String.eqb_refl|]. destruct (String.eqb k m) eqn:E; cbn; rewrite ?String.eqb_refl, ?E; [reflexivity|].
    now rewrite IH. }
  assert (W : forall names d,
    foldM (fun d1 n => if String.eqb w n then v <- of_option IndexError (nth_error rest 0) ;; z <- of_option ValueError (parse_Z v) ;; Ok (dict_set n z d1) else Ok d1) names d =
    if mem_str w names then v <- of_option IndexError (nth_error rest 0) ;; z <- of_option ValueError (parse_Z v) ;; Ok (dict_set w z d) else Ok d).
  { clear names names'. unfold mem_str. destruct (nth_error rest 0) as [v|]; [destruct (parse_Z v) as [z|] eqn:EZ|]; cbn [of_option bind]; rewrite ?EZ; cbn [of_option bind].
    - induction names as [|n names IH]; intro d; [reflexivity|]. cbn [foldM existsb]. destruct (String.eqb_spec w n) as [<-|N]; cbn [orb bind]; [|apply IH].
      rewrite IH, SS. now destruct (existsb _ _).
    - induction names as [|n names IH]; intro d; [reflexivity|]. cbn [foldM existsb]. destruct (String.eqb_spec w n) as [<-|N]; cbn [orb bind]; [reflexivity|apply IH].
    - induction names as [|n names IH]; intro d; [reflexivity|]. cbn [foldM existsb]. destruct (String.eqb_spec w n) as [<-|N]; cbn [orb bind]; [reflexivity|apply IH]. }
  intros H d. rewrite !W. replace (mem_str w names') with (mem_str w names); [reflexivity|]. apply Bool.eq_true_iff_eq. rewrite !mem_str_in. apply H.
Qed.
Lemma f_names cm cp : (forall n, In n (cp_names cm) <-> In n (cp_names cp)) -> forall texts, read_input cm texts = read_input cp texts.
Proof.
  intros H texts. unfold read_input. f_equal.
  assert (X : forall t, extract_text cm t = extract_text cp t).
  { intro t. unfold extract_text, extract. generalize (@nil (string * Z)). induction (split newline t) as [|l ls IH]; intro d; [reflexivity|]. cbn [foldM].
    assert (R : read_row cm d (split comma l) = read_row cp d (split comma l)).
    { unfold read_row. destruct (split comma l) as [|[|c w] rest]; try reflexivity. destruct (Ascii.eqb c "#"); [reflexivity|]. now apply names_set. }
    rewrite R. destruct (read_row cp d (split comma l)); [apply IH|reflexivity]. }
  generalize (@nil (string * list Z)). induction texts as [|t ts IH]; intro a; [reflexivity|]. cbn [foldM]. rewrite X.
  destruct (extract_text cp t) as [one|]; [|reflexivity]. cbn [bind]. destruct (combine_one a one); [apply IH|reflexivity].
Qed.

Lemma text_read e cp cp2 text : (forall n z, sends e cp n z -> plain n) -> output_csv e cp = Ok text -> exists d, read_input cp2 [text] = Ok d.
Proof.
  intros P H. destruct (output_rows _ _ _ H) as (rs & -> & R).
  assert (Q : Forall plain (map fst rs)).
  { apply Forall_forall. intros n I. apply in_map_iff in I as ([m z] & <- & I). apply R in I. eauto. }
  destruct (read_text cp2 rs Q []) as (d1 & F & _). unfold read_input. cbn [foldM]. unfold extract_text, extract. rewrite F. cbn [bind combine_one]. eauto.
Qed.
Lemma sends_coupled e cp n z : sends e cp n z -> exists i dir, coupled cp i n dir /\ says "out" dir.
Proof. intros (i & dir & l & C & S & _). eauto. Qed.
Lemma side o S lat time cm oA nA cpA stA eA textA cp st message : takes_part oA nA cpA stA -> leads_to cpA cp -> Forall plain (cp_names cm) ->
  (forall i name dir, coupled cpA i name dir -> says "out" dir -> In name (cp_names cm)) ->
  output_csv eA cpA = Ok textA -> manage cm [textA] = Ok message ->
  couple_muscle o S lat time message cp st = couple o S lat time [textA] cp st.
Proof.
  intros T L P K O M. destruct (text_read eA cpA cp textA) as [d R]; [|exact O|].
  { intros n z X. apply sends_coupled in X as (i & dir & C & _). exact (tp_names _ _ _ _ T i n dir C). }
  apply (f_same o S lat time cm cp [textA] message d st P); [|exact M|exact R].
  intros i name dir C I. destruct (proj2 (L name)) as (j & dir' & C' & I'); eauto.
Qed.
Lemma f_conserved oA nA cpA cmA stA eA textA messageA stA' SA latA oB nB cpB cmB stB eB textB messageB stB' SB latB time :
  takes_part oA nA cpA stA -> takes_part oB nB cpB stB -> leads_to cpA cpB -> leads_to cpB cpA ->
  at_interval time cpA -> at_interval time cpB ->
  Forall plain (cp_names cmA) -> (forall i name dir, coupled cpA i name dir -> says "out" dir -> In name (cp_names cmA)) ->
  Forall plain (cp_names cmB) -> (forall i name dir, coupled cpB i name dir -> says "out" dir -> In name (cp_names cmB)) ->
  In eA (map fst stA) -> output_csv eA cpA = Ok textA -> In eB (map fst stB) -> output_csv eB cpB = Ok textB ->
  manage cmA [textA] = Ok messageA -> manage cmB [textB] = Ok messageB ->
  couple_muscle oA SA latA time messageB cpA stA = Ok stA' -> couple_muscle oB SB latB time messageA cpB stB = Ok stB' ->
  (people stA' + people stB' + stranded stA cpA + stranded stB cpB = people stA + people stB)%Z.
Proof.
  intros TA TB LA LB AA AB PA NA PB NB IA OA IB OB MA MB HA HB.
  rewrite (side _ _ _ _ cmB _ _ _ _ _ _ _ _ _ TB LB PB NB OB MB) in HA. rewrite (side _ _ _ _ cmA _ _ _ _ _ _ _ _ _ TA LA PA NA OA MA) in HB.
  exact (exchange_total _ _ _ _ _ _ _ _ _ _ _ _ _ _ _ _ _ _ _ TA TB LA LB AA AB IA OA IB OB HA HB).
Qed.

Lemma f_mean cm cp texts message ds : Forall plain (cp_names cm) -> manage cm texts = Ok message ->
  Forall2 (fun t x => extract_text cp t = Ok x) texts ds ->
  exists d', extract_text cp message = Ok d' /\ forall n, dict_get n d' =
    if mem_str n (cp_names cm) then match given n ds with [] => None | zs => Some (round_even (mean zs)) end else None.
Proof.
  intros P H F. unfold manage in H. destruct (read_input cm texts) as [dm|] eqn:M; [|discriminate]. cbn [bind] in H. injection H as <-.
  pose proof (input_nodup _ _ _ M) as ND.
  assert (PR : Forall plain (map fst dm)).
  { apply Forall_forall. intros n I. rewrite Forall_forall in P. apply P. apply in_map_iff in I as ([n' z] & <- & I).
    apply (input_names cm texts dm n' z M). now apply get_in. }
  destruct (read_joined cp dm PR) as (d' & E & G). exists d'. split; [exact E|]. intro n. rewrite G, (last_get n dm ND).
  destruct (mem_str n (cp_names cm)) eqn:IM.
  - apply mem_str_in in IM. destruct (mem_str n (cp_names cp)) eqn:IP.
    + apply mem_str_in in IP. destruct (read_input_means _ _ _ M) as (es & F2 & M2). rewrite M2. now rewrite (given_same cp cm n texts ds es IP IM F F2).
    + replace (given n ds) with (@nil Z); [reflexivity|]. assert (I : ~ In n (cp_names cp)) by (rewrite <- mem_str_in; congruence). clear - F I.
      unfold given. induction F as [|t d texts ds E F IH]; [reflexivity|]. cbn [flat_map]. now rewrite (extract_names cp t d n E I).
  - destruct (dict_get n dm) as [z|] eqn:D; [|now destruct (mem_str n (cp_names cp))].
    apply (input_names cm texts dm n z M), mem_str_in in D. congruence.
Qed.

Lemma f_unknown o S lat time cm cp texts message d st i name dir : Forall plain (cp_names cm) -> manage cm texts = Ok message ->
  read_input cp texts = Ok d -> at_interval time cp -> coupled cp i name dir -> says "in" dir -> ~ In name (cp_names cm) ->
  couple_muscle o S lat time message cp st = Err KeyError.
Proof.
  intros P H R A C I N. destruct (f_relay cm cp texts message d P H R) as (d' & E & _ & G). unfold couple_muscle.
  apply now_at in A. rewrite A. cbn [bind]. rewrite E. cbn [bind]. specialize (G name N).
  assert (X : couple_calls (List.length st) lat d' cp = Err KeyError); [|now rewrite X].
  unfold couple_calls. match goal with |- bind ?m _ = _ => assert (X : m = Err KeyError) end; [|now rewrite X].
  apply coupled_rows in C. apply says_in in I; [|discriminate]. revert C. induction (cp_rows cp) as [|(j & m & dir') rows IH]; intro C; [destruct C|].
  cbn [mapM]. destruct C as [C|C].
  - injection C as -> -> ->. rewrite I, G. reflexivity.
  - rewrite (IH C). destruct (str_in "in" dir'); [|reflexivity]. destruct (dict_get m d'); reflexivity.
Qed.

Lemma f_between cm cp texts message ds : Forall plain (cp_names cm) -> manage cm texts = Ok message ->
  Forall2 (fun t x => extract_text cp t = Ok x) texts ds ->
  exists d', extract_text cp message = Ok d' /\
    (forall n z, dict_get n d' = Some z -> In n (cp_names cm) /\ given n ds <> [] /\ (Qabs.Qabs (inject_Z z - average (given n ds)) <= 1 # 2)%Q /\
       forall a b, (forall y, In y (given n ds) -> (a <= y <= b)%Z) -> (a <= z <= b)%Z) /\
    (forall n, dict_get n d' = None -> ~ In n (cp_names cm) \/ given n ds = []).
Proof.
  intros P H F. destruct (f_mean cm cp texts message ds P H F) as (d' & E & G). exists d'. split; [exact E|]. split.
  - intros n z Z1. rewrite G in Z1. destruct (mem_str n (cp_names cm)) eqn:M; [|discriminate Z1]. apply mem_str_in in M. split; [exact M|].
    destruct (given n ds) as [|y ys] eqn:Eg; [discriminate Z1|]. injection Z1 as <-.
    split; [discriminate|]. split; [rewrite mean_average; apply round_even_spec|]. intros a b B. apply round_mono_bounds, mean_bounds; [discriminate|exact B].
  - intros n Z1. rewrite G in Z1. destruct (mem_str n (cp_names cm)) eqn:M; [|left; rewrite <- mem_str_in; congruence]. right.
    destruct (given n ds); [reflexivity|discriminate Z1].
Qed.
