(** * SpecNetwork: locations and roads as the input describes them, specified without the code *)

From Verif Require Import Base State SpecAgents.
Local Open Scope string_scope.
Local Open Scope list_scope.
Local Open Scope Q_scope.

(** ** Types of locations *)

Inductive kind : Type := KCamp | KConflict | KForward | KMarker | KFloodZone | KTown.

(** The words that are looked for in the description of a type, in this order *)
Definition kind_words : list (string * kind) :=
  [("camp", KCamp); ("conflict", KConflict); ("forward", KForward); ("marker", KMarker);
   ("flood_zone", KFloodZone); ("default", KTown); ("town", KTown)].

(** The description contains the word, in capitals or not. *)
Definition says (word : string) (descr : option string) : bool :=
  match descr with Some t => str_in word (lower t) | None => false end.
Definition kind_of (descr : option string) : option kind :=
  option_map snd (find (fun w => says (fst w) descr) kind_words).

(** The move chance of a new location; [given] is the one passed by the caller. *)
Definition chance (S : settings) (descr : option string) (given : Q) : Q :=
  match kind_of descr with
  | None => given
  | Some KCamp => if says "idp" descr then s_IDPCampMoveChance S else s_CampMoveChance S
  | Some KConflict => s_ConflictMoveChance S
  | Some KForward | Some KMarker => 1
  | Some KFloodZone | Some KTown => s_DefaultMoveChance S
  end.
(** So small that the location is taken for a camp *)
Definition sticky (S : settings) (descr : option string) (given : Q) : Prop :=
  chance S descr given < 5 # 1000.

(** Type, move chance and conflict level of location [l] are those that [descr] asks for. *)
Record typed (S : settings) (descr : option string) (given : Q) (attrs : dict) (l : location) : Prop := {
  ty_chance : l_movechance l = chance S descr given;
  ty_camp : l_camp l = true <->
    kind_of descr = Some KCamp \/ (sticky S descr given /\ kind_of descr <> Some KFloodZone);
  ty_idp : l_idpcamp l = true <-> kind_of descr = Some KCamp /\ says "idp" descr = true;
  ty_town : l_town l = true <-> kind_of descr = Some KTown /\ ~ sticky S descr given;
  ty_forward : l_forward l = true <-> kind_of descr = Some KForward;
  ty_marker : l_marker l = true <-> kind_of descr = Some KMarker;
  ty_flood : l_flood_zone l = true <-> kind_of descr = Some KFloodZone;
  ty_level : kind_of descr = Some KConflict ->
    match dict_get "conflict_intensity" attrs with
    | None => l_conflict l = 1
    | Some v => py_float v = Ok (l_conflict l)
    end;
  ty_peace : kind_of descr <> Some KConflict -> l_conflict l = (-1) }.

(** Nobody is or was there, and no road leads away. *)
Definition untouched (l : location) : Prop :=
  l_links l = [] /\ l_closed_links l = [] /\ l_major_routes l = [] /\ l_numAgents l = 0%Z /\
  l_numAgentsOnRank l = 0%Z /\ l_numAgentsSpawned l = 0%Z /\ l_numAgentsSpawnedOnRank l = 0%Z /\
  l_incoming_journey_lengths l = [] /\ l_time_of_conflict l = (-1)%Z.

(** ** A network from tables *)

(** A cell that must hold a number; an empty one means 0. *)
Definition number (c : string) (x : Q) : Prop := (c = "" /\ x = 0) \/ (c <> "" /\ parse_Q c = Some x).
(** A cell with a population, scaled down *)
Definition people (factor : Z) (c : string) (n : Z) : Prop :=
  (c = "" /\ n = 0%Z) \/ (c <> "" /\ factor <> 0%Z /\ exists m, parse_Z c = Some m /\ n = (m / factor)%Z).
Definition or_unknown (c : string) : string := if String.eqb c "" then "unknown" else c.

(** The attributes from the columns after the fixed ones *)
Definition further (names : list string) (cells : list pystr) : dict :=
  fold_left (fun d nc => dict_set (fst nc) (VStr (sval (snd nc))) d) (combine names cells) [].

(** The type a row of locations.csv asks for: a conflict zone with a later date starts as a town. *)
Definition type_asked (c5 c6 : string) (t : string) : Prop :=
  if says "conflict" (Some c5)
  then exists day, parse_Z c6 = Some day /\ t = (if (0 <? day)%Z then "town" else c5)
  else t = c5.

(** The major routes of a place: each route that starts there, without its start, and each
    that ends there, reversed, without its end *)
Definition names_of (r : list pystr) : list string :=
  filter (fun s => negb (String.eqb s "")) (map sval r).
Definition major_of (name : string) (routes : list (list pystr)) : list (list string) :=
  flat_map (fun r =>
    (if String.eqb (sval (hd (PS "" 0) r)) name then [names_of (tl r)] else []) ++
    (if String.eqb (sval (hd (PS "" 0) (rev r))) name then [names_of (tl (rev r))] else [])) routes.

(** Location [l], with attributes [attrs], is the one that row [r] of locations.csv describes.
    [home] is the home country, [columns] are the names of all columns. *)
Definition from_row (S : settings) (factor : Z) (home : string) (columns : option (list string))
    (majors : list (list pystr)) (r : list pystr) (l : location) (attrs : dict) : Prop :=
  exists c0 c1 c2 c3 c4 c5 c6 c7 more t p,
    r = c0 :: c1 :: c2 :: c3 :: c4 :: c5 :: c6 :: c7 :: more /\
    l_name l = c0 /\ l_region l = or_unknown (sval c1) /\ l_country l = or_unknown (sval c2) /\
    l_foreign l = negb (String.eqb (or_unknown (sval c2)) home) /\
    number (sval c3) (l_x l) /\ number (sval c4) (l_y l) /\
    type_asked (sval c5) (sval c6) t /\ typed S (Some t) 1 attrs l /\
    people factor (sval c7) p /\
    (if says "camp" (Some t) then l_capacity l = p /\ l_pop l = 0%Z else l_capacity l = (-1)%Z /\ l_pop l = p) /\
    (more = [] /\ attrs = [] \/ exists cs, columns = Some cs /\ (8 + List.length more <= List.length cs)%nat /\
       attrs = further (skipn 8 cs) more) /\
    l_major_routes l = major_of (sval c0) majors.

(** A road: from, to, length, redirection mark *)
Record road : Type := Road { rd_from : string; rd_to : string; rd_length : Q; rd_forced : bool }.

(** The roads that row [r] of routes.csv describes, with attributes [attrs] *)
Definition roads_from_row (columns : option (list string)) (r : list pystr) (rs : list road) (attrs : dict) : Prop :=
  exists c0 c1 c2 rest d, r = c0 :: c1 :: c2 :: rest /\ parse_Q (sval c2) = Some d /\
    let there f := Road (sval c0) (sval c1) d f in
    match rest with
    | [] => rs = [there false] /\ attrs = []
    | c3 :: more =>
        (exists ty, (sval c3 = "" /\ ty = 0%Z \/ sval c3 <> "" /\ parse_Z (sval c3) = Some ty) /\
           rs = (if (ty =? 2)%Z then [Road (sval c1) (sval c0) d true]
                 else if (ty =? 1)%Z then [there true; there false] else [there false])) /\
        (more = [] /\ attrs = [] \/ exists cs, columns = Some cs /\ (4 + List.length more <= List.length cs)%nat /\
           attrs = further (skipn 4 cs) more)
    end.

(** The last location called [name] has number [i]. *)
Definition called (e : eco) (name : string) (i : nat) : Prop :=
  (exists l, nth_error (e_locations e) i = Some l /\ sval (l_name l) = name) /\
  forall j l, (i < j)%nat -> nth_error (e_locations e) j = Some l -> sval (l_name l) <> name.

(** The two links of a road: empty, open, of the given length, one in each direction; only
    the first one carries the redirection mark. *)
Definition built (e : eco) (r : road) (attrs : dict) (k1 k2 : link) : Prop :=
  exists i j a, called e (rd_from r) i /\ called e (rd_to r) j /\ nth_error (e_dicts e) a = Some attrs /\
    k1 = Link i j false (rd_length r) 0 0 0 (rd_forced r) a [] /\
    k2 = Link j i false (rd_length r) 0 0 0 false a [].

(** The links of several roads, road by road *)
Inductive all_built (e : eco) : list (road * dict) -> list link -> Prop :=
| no_roads : all_built e [] []
| next_road r attrs rs k1 k2 ks :
    built e r attrs k1 k2 -> all_built e rs ks -> all_built e ((r, attrs) :: rs) (k1 :: k2 :: ks).

(** The numbers of those of the links [ks], counted from [n], that start in location [i] *)
Fixpoint leaving (i n : nat) (ks : list link) : list nat :=
  match ks with
  | [] => []
  | k :: ks' => (if Nat.eqb (k_startpoint k) i then [n] else []) ++ leaving i (S n) ks'
  end.

(** A row of closures.csv: type, two names, first and last day *)
Definition closure_row (r : list pystr) (c : closure) : Prop :=
  exists c0 c1 c2 c3 c4 more a b, r = c0 :: c1 :: c2 :: c3 :: c4 :: more /\
    parse_Z (sval c3) = Some a /\ parse_Z (sval c4) = Some b /\ c = Closure (sval c0) c1 c2 a b.

(** ** Agents from a table *)

(** A row that is skipped: an empty one or a comment *)
Definition skipped (r : list pystr) : bool :=
  match r with
  | [] => true
  | c :: _ => String.prefix "#" (sval c)
  end.
(** The agents that one row describes: one in each location of that name, with the cells
    after the first as attributes *)
Definition settlers (e : eco) (heads : list string) (r : list pystr) (new : list agent) : Prop :=
  exists c cells, r = c :: cells /\ (List.length cells <= List.length heads)%nat /\
    new = map (fun i => newcomer i (further heads cells))
            (filter (fun i => match nth_error (e_locations e) i with
                              | Some l => String.eqb (sval (l_name l)) (sval c)
                              | None => false end) (seq 0 (List.length (e_locations e)))).
