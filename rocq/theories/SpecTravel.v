(** * SpecTravel: what one day can do to a traveller, specified without the code *)

From Verif Require Import Base State Flee Api SpecRoutes SpecHistory.
Local Open Scope Q_scope.

(** The speed [s] is possible today on link [k] for an agent on its trip number [trip]:
    the walking speed if the link has a positive walk probability, or the link's own
    maximum speed (the general one if it has none; the walking speed on the first trip
    with StartOnFoot) if the walk probability is below one. *)
Definition speed_today (S : settings) (e : eco) (trip : Z) (k : link) (s : Q) : Prop :=
  exists d v wp, nth_error (e_dicts e) (k_attributes k) = Some d /\
    py_float (dict_get_default "max_move_speed" d (VFloat (s_MaxMoveSpeed S))) = Ok v /\
    py_float (dict_get_default "walk_probability" d (VStr "0.0")) = Ok wp /\
    ((0 < wp /\ s = s_MaxWalkSpeed S) \/
     (wp < 1 /\ s = if ((trip =? 1)%Z && s_StartOnFoot S)%bool then s_MaxWalkSpeed S else v)).

(** [day S e m trip p x m' trip' p' x']: an agent that has covered [m] kilometres today
    and is at [p], [x] kilometres along its link, may end the day at [p'], [x'] kilometres
    along its link, having covered [m'] kilometres.  [trip] numbers its trips.  The day
    ends by staying in a location, by not passing the end of a link, by being sent back
    to the start of a closed link, or by reaching the end of a link with at least a full
    day's travel at that link's speed done. *)
Inductive day (S : settings) (e : eco) : Q -> Z -> pos -> Q -> Q -> Z -> pos -> Q -> Prop :=
| day_stay m n i x : day S e m n (PLoc i) x m n (PLoc i) x
| day_along m n ki k x s : nth_error (e_links e) ki = Some k -> speed_today S e n k s ->
    x + s <= k_distance k ->
    day S e m n (PLink ki) x (m + s) n (PLink ki) (x + s)
| day_sent_back m n ki k x s m1 : nth_error (e_links e) ki = Some k -> speed_today S e n k s ->
    k_distance k < x + s -> k_closed k = true -> m1 == m + (k_distance k - x) ->
    day S e m n (PLink ki) x m1 (n + 1)%Z (PLoc (k_startpoint k)) 0
| day_arrive m n ki k x s m1 : nth_error (e_links e) ki = Some k -> speed_today S e n k s ->
    k_distance k < x + s -> k_closed k = false -> m1 == m + (k_distance k - x) ->
    s <= m1 ->
    day S e m n (PLink ki) x m1 (n + 1)%Z (PLoc (k_endpoint k)) 0
| day_go_on m n ki k x s m1 m' n' p' x' : nth_error (e_links e) ki = Some k ->
    speed_today S e n k s ->
    k_distance k < x + s -> k_closed k = false -> m1 == m + (k_distance k - x) ->
    m1 < s ->
    day S e m1 (n + 1)%Z (PLoc (k_endpoint k)) 0 m' n' p' x' ->
    day S e m n (PLink ki) x m' n' p' x'
| day_depart m n i ki k x m' n' p' x' : open_link e i ki k ->
    day S e m n (PLink ki) 0 m' n' p' x' -> day S e m n (PLoc i) x m' n' p' x'.

(** Location [j] can be reached from location [i] by walking along open links. *)
Inductive walk (e : eco) : nat -> nat -> Prop :=
| walk_here i : walk e i i
| walk_on i ki k j : open_link e i ki k -> walk e (k_endpoint k) j -> walk e i j.

(** [p] is a place an agent that sets out from location [i] can be in by following open
    links: a location reached by them (where it may have been deactivated), or an open
    link of such a location. *)
Definition ends_near (e : eco) (i : nat) (p : pos) : Prop :=
  match p with
  | PLoc j | PGone j => walk e i j
  | PLink ki => exists j k, walk e i j /\ open_link e j ki k
  end.

(** On trip number [n], link [ki] is travelled at [s] kilometres a day, at every time step. *)
Definition steady (n : Z) (ki : nat) (s : Q) (S : settings) (c : op) (e : eco) : Prop :=
  is_evolve c = true -> forall k s', nth_error (e_links e) ki = Some k -> speed_today S e n k s' -> s' == s.

(** Every possible speed is between 0 and [v], and no link has a negative length. *)
Definition speeds_up_to (v : Q) (S : settings) (e : eco) : Prop :=
  forall ki k, nth_error (e_links e) ki = Some k ->
    0 <= k_distance k /\ forall n s, speed_today S e n k s -> 0 <= s /\ s <= v.

(** At every time step MaxMoveSpeed is positive and the largest possible speed. *)
Definition usual_speeds (S : settings) (c : op) (e : eco) : Prop :=
  is_evolve c = true -> 0 < s_MaxMoveSpeed S /\ speeds_up_to (s_MaxMoveSpeed S) S e.
