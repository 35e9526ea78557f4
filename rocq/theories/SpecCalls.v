(** * SpecCalls: scheduled closures as API calls, and forced redirections, specified without the code *)

From Verif Require Import Base State Flee Api SpecRoutes.
Local Open Scope string_scope.
Local Open Scope list_scope.

(** The calls that start and end a closure of each kind; other kinds mean nothing. *)
Definition closure_kinds (fuel : nat) (twoway : bool) (c : closure) : list (string * (op * op)) :=
  let s := c_source c in
  let d := c_dest c in
  [ ("country", (OCloseBorder fuel (sval s) (sval d) twoway, OReopenBorder fuel (sval s) (sval d) twoway));
    ("location", (OCloseLocation fuel (sval s) twoway, OReopenLocation fuel (sval s) twoway));
    ("link", (ORemoveLink s d twoway true, OReopenLink s d twoway));
    ("camp", (OCloseCamp s false, OOpenCamp s false));
    ("idpcamp", (OCloseCamp s true, OOpenCamp s true));
    ("remove_forced_redirection", (OSetForcedRedirection s d false, OSetForcedRedirection s d true)) ].

(** The calls due for closure [c] on day [t] *)
Definition closure_calls (fuel : nat) (t : Z) (twoway : bool) (c : closure) : list op :=
  match find (fun p => String.eqb (fst p) (c_kind c)) (closure_kinds fuel twoway c) with
  | Some (_, (first, last)) => (if (t =? c_start c)%Z then [first] else []) ++ (if (t =? c_end c)%Z then [last] else [])
  | None => []
  end.

(** The ecosystem without any forced redirection *)
Definition unforced (e : eco) : eco := up_e_links (map (up_k_forced_redirection (fun _ => false))) e.
