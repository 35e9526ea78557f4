(** * CouplingMean: combining the tables of several instances *)

From Coq Require Import Lia Qround Lqa Qabs.
From Verif Require Import Base State Moving Crawling Scoring Diagnostics Flee DataTable
  Spawning InputGeography Api Pflee ParApi SpecParallel Coupling SpecCoupling Lemmas Schedule CouplingText.
Local Open Scope string_scope.
Local Open Scope list_scope.

(** ** Tables have one entry per name *)

Lemma names_nodup w rest names : forall d d1,
  foldM (fun d1 n => if String.eqb w n then
             v <- of_option IndexError (nth_error rest 0) ;;
             z <- of_option ValueError (parse_Z v) ;; Ok (dict_set n z d1)
           else Ok d1) names d = Ok d1 -> NoDup (map fst d) -> NoDup (map fst d1).
Proof.
  induction names as [|n names IH]; intros d d1 H N; cbn [foldM] in H; [now injection H as <-|].
  rstep H. apply (IH _ _ H). destruct (String.eqb w n); [|now injection E as <-].
  rstep E. rstep E. injection E as <-. now apply dict_set_nodup.
Qed.
Lemma extract_nodup cp text d : extract cp text = Ok d -> NoDup (map fst d).
Proof.
  unfold extract. assert (W : forall d0, NoDup (map fst d0) ->
    foldM (fun d line => read_row cp d (split comma line)) text d0 = Ok d -> NoDup (map fst d)); [|apply W; constructor].
  induction text as [|line text IH]; intros d0 N H; cbn [foldM] in H; [now injection H as <-|].
  rstep H. apply (IH v); [|exact H]. unfold read_row in E. destruct (split comma line) as [|[|c w] rest]; try (now injection E as <-).
  destruct (Ascii.eqb c "#"%char); [now injection E as <-|]. eapply names_nodup; eauto.
Qed.

Lemma get_in {A} n (d : list (string * A)) : NoDup (map fst d) -> forall z, In (n, z) d <-> dict_get n d = Some z.
Proof.
  induction d as [|[m y] d IH]; cbn [map dict_get fst In]; intros N z; [split; [intros []|discriminate]|].
  inversion N as [|? ? N1 N2]; subst. destruct (String.eqb_spec n m) as [->|X].
  - split; [intros [H|H]; [now injection H as ->|]|intro H; injection H as ->; now left].
    exfalso. apply N1. apply in_map_iff. exists (m, z). auto.
  - rewrite <- (IH N2). split; [intros [H|H]; [injection H as -> ->; contradiction|exact H]|auto].
Qed.
Lemma get_none {A} n (d : list (string * A)) : dict_get n d = None <-> ~ In n (map fst d).
Proof.
  induction d as [|[m y] d IH]; cbn [map dict_get fst In]; [tauto|]. destruct (String.eqb_spec n m) as [->|X]; [split; [discriminate|tauto]|].
  rewrite IH. split; [intros H [E|I]; [congruence|tauto]|tauto].
Qed.
Lemma get_map {A B} (f : A -> B) n d : dict_get n (map (fun p => (fst p, f (snd p))) d) = option_map f (dict_get n d).
Proof. induction d as [|[m y] d IH]; cbn; [reflexivity|]. destruct (String.eqb n m); [reflexivity|exact IH]. Qed.

(** ** Combining *)

(** What has been collected for each name *)
Definition collects (agg : list (string * list Z)) (ds : list (list (string * Z))) : Prop :=
  forall n, dict_get n agg = match given n ds with [] => None | zs => Some zs end.

Lemma combine_fold (one : list (string * Z)) : NoDup (map fst one) -> forall agg agg' : list (string * list Z),
  foldM (fun a p => old <- of_option KeyError (dict_get (fst p) a) ;; Ok (dict_set (fst p) (old ++ [snd p]) a)) one agg = Ok agg' ->
  forall n, dict_get n agg' = match dict_get n one with
    | Some z => match dict_get n agg with Some zs => Some (zs ++ [z]) | None => None end
    | None => dict_get n agg
    end.
Proof.
  induction one as [|[m z] one IH]; cbn [map fst foldM dict_get]; intros N agg agg' H n; [now injection H as <-|].
  inversion N as [|? ? N1 N2]; subst. rstep H. rstep E. injection E as <-. cbn [snd] in H. rewrite (IH N2 _ _ H n), get_set.
  destruct (String.eqb_spec n m) as [->|X]; [|reflexivity].
  apply get_none in N1. apply of_option_ok in E0. cbn [fst] in E0. now rewrite N1, E0.
Qed.
Lemma given_app n ds d : given n (ds ++ [d]) = given n ds ++ match dict_get n d with Some z => [z] | None => [] end.
Proof. unfold given. rewrite flat_map_app. cbn. now rewrite app_nil_r. Qed.

Lemma combine_step agg ds d agg' : NoDup (map fst d) -> collects agg ds -> combine_one agg d = Ok agg' -> collects agg' (ds ++ [d]).
Proof.
  intros N C H n. specialize (C n). rewrite given_app. unfold combine_one in H. destruct agg as [|p agg].
  - injection H as <-. rewrite (get_map (fun z => [z])). cbn [dict_get] in C.
    destruct (given n ds); [|discriminate C]. destruct (dict_get n d); reflexivity.
  - rewrite (combine_fold d N _ _ H n), C.
    destruct (dict_get n d) as [z|] eqn:Gz; [|now rewrite app_nil_r].
    destruct (given n ds) as [|y ys] eqn:G; [|reflexivity]. exfalso.
    assert (F : forall one : list (string * Z), NoDup (map fst one) -> forall agg agg' : list (string * list Z), dict_get n agg = None -> dict_get n one = Some z ->
      foldM (fun a p => old <- of_option KeyError (dict_get (fst p) a) ;; Ok (dict_set (fst p) (old ++ [snd p]) a)) one agg = Ok agg' -> False).
    { clear. induction one as [|[m y] one IH]; cbn [map fst foldM dict_get]; intros N agg agg' A B H; [discriminate B|].
      inversion N as [|? ? N1 N2]; subst. rstep H. rstep E. injection E as <-. apply of_option_ok in E0. cbn [fst] in E0. destruct (String.eqb_spec n m) as [->|X]; [congruence|].
      apply (IH N2 _ _) in H; [exact H| |exact B]. rewrite get_set. destruct (String.eqb_spec n m); [contradiction|exact A]. }
    exact (F d N _ _ C Gz H).
Qed.

Lemma read_input_means cp texts d : read_input cp texts = Ok d ->
  exists ds, Forall2 (fun t x => extract_text cp t = Ok x) texts ds /\
    forall n, dict_get n d = match given n ds with [] => None | zs => Some (round_even (mean zs)) end.
Proof.
  unfold read_input. intro H. rstep H. injection H as <-. rename v into agg.
  assert (W : forall texts a ds0 agg, collects a ds0 ->
    foldM (fun a t => one <- extract_text cp t ;; combine_one a one) texts a = Ok agg ->
    exists ds, Forall2 (fun t x => extract_text cp t = Ok x) texts ds /\ collects agg (ds0 ++ ds)).
  { clear. induction texts as [|t texts IH]; intros a ds0 agg C H; cbn [foldM] in H.
    - injection H as <-. exists []. rewrite app_nil_r. split; [constructor|exact C].
    - rstep H. rstep E. apply (combine_step _ ds0) in E; [|eapply extract_nodup; exact E0|exact C].
      destruct (IH _ _ _ E H) as (ds & F & G). exists (v0 :: ds). split; [constructor; assumption|]. rewrite <- app_assoc in G. exact G. }
  destruct (W texts [] [] agg (fun n => eq_refl) E) as (ds & F & G). exists ds. split; [exact F|].
  intro n. rewrite (get_map (fun zs => round_even (mean zs))), (G n). cbn [app]. destruct (given n ds); reflexivity.
Qed.

(** When reading succeeds: the first table with an entry names everything that the later
    ones name. *)
Lemma combine_ok (agg : list (string * list Z)) (d : list (string * Z)) : (forall n z, dict_get n d = Some z -> dict_get n agg <> None) -> NoDup (map fst d) ->
  exists a, foldM (fun a p => old <- of_option KeyError (dict_get (fst p) a) ;; Ok (dict_set (fst p) (old ++ [snd p]) a)) d agg = Ok a.
Proof.
  revert agg. induction d as [|[m y] d IH]; intros agg H N; cbn [foldM]; [eauto|].
  inversion N as [|? ? N1 N2]; subst. cbn [fst snd]. destruct (dict_get m agg) as [zs|] eqn:E.
  - cbn [of_option bind]. apply IH; [|exact N2]. intros n z G. rewrite get_set. destruct (String.eqb_spec n m); [discriminate|].
    apply (H n z). cbn [dict_get]. destruct (String.eqb_spec n m); [contradiction|exact G].
  - exfalso. refine (H m y _ E). cbn. now rewrite String.eqb_refl.
Qed.
Lemma collects_none n agg ds : collects agg ds -> (dict_get n agg <> None <-> given n ds <> []).
Proof. intro C. rewrite (C n). destruct (given n ds); split; congruence. Qed.
Lemma given_in n ds : given n ds <> [] <-> exists d z, In d ds /\ dict_get n d = Some z.
Proof.
  unfold given. split.
  - intro H. destruct (flat_map _ ds) as [|z zs] eqn:E; [congruence|].
    assert (I : In z (flat_map (fun d => match dict_get n d with Some z => [z] | None => [] end) ds)) by (rewrite E; now left).
    apply in_flat_map in I as (d & I & J). destruct (dict_get n d) as [y|] eqn:G; [|destruct J]. eauto.
  - intros (d & z & I & G) E. assert (J : In z (flat_map (fun d => match dict_get n d with Some z => [z] | None => [] end) ds)).
    { apply in_flat_map. exists d. split; [exact I|]. rewrite G. now left. }
    rewrite E in J. exact J.
Qed.
Lemma read_input_ok cp texts ds : Forall2 (fun t x => extract_text cp t = Ok x) texts ds ->
  (forall k d, nth_error ds k = Some d -> forall n z, dict_get n d = Some z ->
     forall j c, (j < k)%nat -> nth_error ds j = Some c -> c <> [] -> exists i b y, (i < k)%nat /\ nth_error ds i = Some b /\ dict_get n b = Some y) ->
  exists d, read_input cp texts = Ok d.
Proof.
  intros F H. unfold read_input.
  assert (W : forall texts ds, Forall2 (fun t x => extract_text cp t = Ok x) texts ds -> forall a ds0, collects a ds0 ->
    (forall k d, nth_error (ds0 ++ ds) k = Some d -> forall n z, dict_get n d = Some z ->
     forall j c, (j < k)%nat -> nth_error (ds0 ++ ds) j = Some c -> c <> [] -> exists i b y, (i < k)%nat /\ nth_error (ds0 ++ ds) i = Some b /\ dict_get n b = Some y) ->
    exists agg, foldM (fun a t => one <- extract_text cp t ;; combine_one a one) texts a = Ok agg).
  { clear. induction 1 as [|t d texts ds E F IH]; intros a ds0 C H; cbn [foldM]; [eauto|]. rewrite E. cbn [bind].
    pose proof (extract_nodup _ _ _ E) as N.
    assert (X : exists a1, combine_one a d = Ok a1).
    { unfold combine_one. destruct a as [|p a]; [eauto|]. apply combine_ok; [|exact N]. intros n z G.
      apply (collects_none n (p :: a) ds0 C).
      assert (K : nth_error (ds0 ++ d :: ds) (List.length ds0) = Some d) by (rewrite nth_error_app2, Nat.sub_diag; [reflexivity|lia]).
      assert (Y : given (fst p) ds0 <> []).
      { apply (collects_none (fst p) (p :: a) ds0 C). destruct p as [m y]. cbn. rewrite String.eqb_refl. discriminate. }
      apply given_in in Y as (c & y & I & Gc). apply In_nth_error in I as [j J].
      assert (Lj : (j < List.length ds0)%nat) by (apply nth_error_Some; congruence).
      destruct (H _ d K n z G j c Lj) as (i & b & w & Li & B & Gb).
      - rewrite nth_error_app1 by exact Lj. exact J.
      - intros ->. discriminate Gc.
      - rewrite nth_error_app1 in B by exact Li. apply given_in. exists b, w. split; [eapply nth_error_In; eauto|exact Gb]. }
    destruct X as [a1 X]. rewrite X. cbn [bind]. apply (IH a1 (ds0 ++ [d])).
    - eapply combine_step; eauto.
    - rewrite <- app_assoc. exact H. }
  destruct (W texts ds F [] [] (fun n => eq_refl) H) as [agg E]. rewrite E. cbn [bind]. eauto.
Qed.

(** ** Rounding *)
Local Open Scope Q_scope.

Lemma round_even_spec x : Qabs (inject_Z (round_even x) - x) <= 1 # 2.
Proof.
  unfold round_even. pose proof (Qfloor_le x) as A. pose proof (Qlt_floor x) as B. rewrite inject_Z_plus in B.
  change (inject_Z 1) with 1 in B. apply Qabs_Qle_condition.
  destruct (Qcompare_spec (x - inject_Z (Qfloor x)) (1 # 2)) as [C|C|C]; [destruct (Z.even _)|..]; rewrite ?inject_Z_plus; change (inject_Z 1) with 1; split; lra.
Qed.
Lemma round_even_int z : round_even (inject_Z z) = z.
Proof.
  unfold round_even. rewrite Qfloor_Z. assert (E : inject_Z z - inject_Z z == 0) by ring.
  destruct (Qcompare_spec (inject_Z z - inject_Z z) (1 # 2)) as [C|C|C]; [exfalso; rewrite E in C; discriminate C|reflexivity|exfalso; rewrite E in C; discriminate C].
Qed.
Lemma round_even_comp x y : x == y -> round_even x = round_even y.
Proof.
  intro E. unfold round_even. assert (F : Qfloor x = Qfloor y) by (now apply Qfloor_comp). rewrite F.
  assert (C : Qcompare (x - inject_Z (Qfloor y)) (1 # 2) = Qcompare (y - inject_Z (Qfloor y)) (1 # 2)) by (apply Qcompare_comp; [rewrite E; reflexivity|reflexivity]).
  now rewrite C.
Qed.
Lemma round_even_nearest x z : Qabs (inject_Z z - x) < 1 # 2 -> round_even x = z.
Proof.
  intro H. pose proof (round_even_spec x) as R. apply Qabs_Qlt_condition in H as [H1 H2].
  apply Qabs_Qle_condition in R as [R1 R2].
  assert (A : inject_Z (round_even x) < inject_Z (z + 1)) by (rewrite inject_Z_plus; change (inject_Z 1) with 1; lra).
  assert (B : inject_Z z < inject_Z (round_even x + 1)) by (rewrite inject_Z_plus; change (inject_Z 1) with 1; lra).
  rewrite <- Zlt_Qlt in A, B. lia.
Qed.

Lemma mean_bounds a b zs : zs <> [] -> (forall z, In z zs -> (a <= z <= b)%Z) -> inject_Z a <= mean zs <= inject_Z b.
Proof.
  intros N H. unfold mean.
  assert (S : (a * Z.of_nat (List.length zs) <= sumZ zs <= b * Z.of_nat (List.length zs))%Z).
  { clear N. induction zs as [|z zs IH]; [cbn; lia|]. cbn [List.length]. rewrite Nat2Z.inj_succ.
    assert (X : sumZ (z :: zs) = (z + sumZ zs)%Z) by reflexivity. rewrite X. specialize (H z (or_introl eq_refl)) as Hz.
    assert (Y := IH (fun y I => H y (or_intror I))). nia. }
  assert (P : 0 < inject_Z (Z.of_nat (List.length zs))).
  { change 0 with (inject_Z 0). rewrite <- Zlt_Qlt. destruct zs; [congruence|]. cbn [List.length]. lia. }
  split.
  - apply Qle_shift_div_l; [exact P|]. rewrite <- inject_Z_mult, <- Zle_Qle. lia.
  - apply Qle_shift_div_r; [exact P|]. rewrite <- inject_Z_mult, <- Zle_Qle. lia.
Qed.
Lemma round_mono_bounds a b x : inject_Z a <= x <= inject_Z b -> (a <= round_even x <= b)%Z.
Proof.
  intros [A B]. pose proof (round_even_spec x) as R. apply Qabs_Qle_condition in R as [R1 R2].
  assert (C : inject_Z a < inject_Z (round_even x + 1)) by (rewrite inject_Z_plus; change (inject_Z 1) with 1; lra).
  assert (D : inject_Z (round_even x) < inject_Z (b + 1)) by (rewrite inject_Z_plus; change (inject_Z 1) with 1; lra).
  rewrite <- Zlt_Qlt in C, D. lia.
Qed.
Lemma mean_const zs z : zs <> [] -> (forall y, In y zs -> y = z) -> round_even (mean zs) = z.
Proof.
  intros N H. assert (B : inject_Z z <= mean zs <= inject_Z z) by (apply mean_bounds; [exact N|]; intros y Y; rewrite (H y Y); lia).
  apply round_mono_bounds in B. lia.
Qed.

Lemma one_instance cp text d : extract_text cp text = Ok d -> exists d', read_input cp [text] = Ok d' /\ forall n, dict_get n d' = dict_get n d.
Proof.
  intro H. destruct (read_input_ok cp [text] [d]) as [d' R]; [constructor; [exact H|constructor]|intros [|[|k]] x X n z _ j c J; [lia|discriminate X|discriminate X]|].
  exists d'. split; [exact R|]. intro n. destruct (read_input_means _ _ _ R) as (ds & F & G). rewrite G.
  inversion F as [|? x ? ? E F']; subst. inversion F'; subst. rewrite H in E. injection E as <-. cbn.
  destruct (dict_get n d) as [z|]; [|reflexivity]. cbn. f_equal. apply mean_const; [discriminate|]. intros y [<-|[]]. reflexivity.
Qed.
