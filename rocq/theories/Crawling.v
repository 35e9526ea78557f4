(** * Crawling: flee/crawling.py (routes generated per location) *)

From Verif Require Import Base State Moving.
Local Open Scope Q_scope.

(** Update location [i] of the ecosystem. *)
Definition up_loc (i : nat) (f : location -> location) (e : eco) : eco :=
  up_e_locations (upd i f) e.

(** ** getLocationCrawlEndPointScore (flee/crawling.py 18-49) *)
Definition crawlScore (S : settings) (e : eco) (ep : location) : res Q :=
  let base := l_score1 ep in
  if s_FloodRulesEnabled S then
    d <- loc_attrs e ep ;;
    let fl := dict_get_default "flood_level" d (VInt 0) in
    n <- py_num fl ;;
    if Qltb 0 n then
      i <- py_as_index fl ;;
      w <- flood_table (s_FloodLocWeights S) i ;;
      Ok (base * w)
    else Ok base
  else Ok base.

(** Lines 64-72 of [_addLocationRoute] *)
Definition crawlWeight (S : settings) (o : oracle) (e : eco) (k : link) (ep : location)
    (prior : Q) (major : bool) : res Q :=
  let dist := s_DistanceSoftening S + k_distance k + prior in
  let dist := if major then dist / 4 else dist in
  sc <- crawlScore S e ep ;;
  d <- fpow o dist (s_DistancePower S) ;;
  w <- fdiv (s_WeightSoftening S + sc) d ;;
  fpow o w (s_WeightPower S).

(** ** _addLocationRoute (flee/crawling.py 54-76)

    [src] and [cur] are the indices of [source_loc] and [loc]. *)
Definition addLocationRoute (S : settings) (o : oracle) (e : eco) (src cur ki : nat)
    (prior : Q) (origin : list string) (major : bool) : res eco :=
  k <- link_of e ki ;;
  ep <- endpoint_of e k ;;
  w <- crawlWeight S o e k ep prior major ;;
  c <- loc_of e cur ;;
  let old := match dict_get (lname ep) (l_routes c) with
             | Some (w0, _, _) => w0
             | None => 0
             end in
  if Qltb old w then
    Ok (up_loc src (up_l_routes
          (dict_set (lname ep) (w, tl origin ++ [lname ep], k_endpoint k))) e)
  else Ok e.

(** ** calculateLocCrawlLinkWeight (flee/crawling.py 116-170) *)
Fixpoint crawlLink (fuel : nat) (S : settings) (o : oracle) (src ki : nat)
    (prior : Q) (origin : list string) (step : Z) (e : eco) : res eco :=
  match fuel with
  | O => Err OutOfFuel
  | Datatypes.S fuel' =>
      k <- link_of e ki ;;
      ep <- endpoint_of e k ;;
      e1 <- (if l_marker ep then Ok e
             else addLocationRoute S o e src src ki prior origin false) ;;
      if (step <? s_AwarenessLevel S)%Z then
        foldM (fun e2 li =>
                 lel <- link_of e2 li ;;
                 lep <- endpoint_of e2 lel ;;
                 if mem_str (lname lep) origin then Ok e2
                 else crawlLink fuel' S o src li (prior + k_distance k)
                        (origin ++ [lname ep]) (step + 1)%Z e2)
              (l_links ep) e1
      else Ok e1
  end.

(** First link of [links] whose end point has name [n]. *)
Fixpoint find_link_to (e : eco) (links : list nat) (n : string) : res (option nat) :=
  match links with
  | [] => Ok None
  | ki :: rest =>
      k <- link_of e ki ;;
      ep <- endpoint_of e k ;;
      if String.eqb (lname ep) n then Ok (Some ki) else find_link_to e rest n
  end.

(** ** _addMajorRouteToLocation (flee/crawling.py 80-111)

    [cur] is [current_loc], [rest] the part of [route] from [routing_step] on.  The
    branch [[]] is only reached for an empty route, where the error message of line
    110 uses the unassigned variable [link]. *)
Fixpoint addMajorRoute (S : settings) (o : oracle) (e : eco) (src cur : nat)
    (prior : Q) (route rest : list string) : res eco :=
  match rest with
  | [] => Err UnboundLocalError
  | n :: rest' =>
      c <- loc_of e cur ;;
      f <- find_link_to e (l_links c) n ;;
      match f with
      | None => Err SystemExit
      | Some ki =>
          match rest' with
          | [] => addLocationRoute S o e src cur ki prior (removelast route) true
          | _ => k <- link_of e ki ;;
                 addMajorRoute S o e src (k_endpoint k) (prior + k_distance k) route rest'
          end
      end
  end.

(** ** insertMajorRoutesForLocation (flee/crawling.py 174-195)

    [dest_names] is the list built in lines 184-186; [hub] is [l]. *)
Definition insertMajorRoutesForLocation (S : settings) (o : oracle) (src hub : nat)
    (route_to_l : list string) (dest_names : list string) (e : eco) : res eco :=
  l <- loc_of e hub ;;
  foldM (fun e1 mr =>
           match mr with
           | [] => Err IndexError
           | _ => if mem_str (List.last mr EmptyString) dest_names then Ok e1
                  else let route := route_to_l ++ mr in
                       addMajorRoute S o e1 src src 0 route route
           end)
        (l_major_routes l) e.

(** ** compileDestList (flee/crawling.py 200-211)

    The test of line 208 compares a string with location objects and is always true
    (it raises [IndexError] for an empty stop list, which is never stored). *)
Definition compileDestList (l : location) : list nat :=
  map (fun entry => let '(_, (_, _, epi)) := entry in epi) (l_routes l).

(** ** insertAllMajorRoutesAtLocation (flee/crawling.py 215-241) *)
Definition insertAllMajorRoutes (S : settings) (o : oracle) (src : nat) (e : eco)
  : res eco :=
  l <- loc_of e src ;;
  dests <- mapM (fun i => d <- loc_of e i ;; Ok (lname d)) (compileDestList l) ;;
  let dest_names := lname l :: dests in
  let route_names := map fst (l_routes l) in
  e1 <- (match l_major_routes l with
         | [] => Ok e
         | _ => insertMajorRoutesForLocation S o src src [] dest_names e
         end) ;;
  foldM (fun e2 rn =>
           l2 <- loc_of e2 src ;;
           '(_, stops, hub) <- of_option KeyError (dict_get rn (l_routes l2)) ;;
           h <- loc_of e2 hub ;;
           match l_major_routes h with
           | [] => Ok e2
           | _ => insertMajorRoutesForLocation S o src hub stops dest_names e2
           end)
        route_names e1.

(** ** generateLocationRoutes (flee/crawling.py 246-282) *)
Definition generateLocationRoutes (S : settings) (o : oracle) (src : nat) (e : eco)
    (g : rng) : res (eco * rng) :=
  l <- loc_of e src ;;
  if l_marker l then Ok (e, g)
  else
    let e0 := up_loc src (up_l_routes (fun _ => [])) e in
    if (s_AwarenessLevel S =? 0)%Z then
      '(_, g') <- np_randint 0 (Z.of_nat (List.length (l_links l))) g ;; Ok (e0, g')
    else
      e1 <- foldM (fun e' ki => crawlLink (route_fuel e') S o src ki 0 [lname l] 1%Z e')
                  (l_links l) e0 ;;
      e2 <- insertAllMajorRoutes S o src e1 ;;
      Ok (e2, g).
