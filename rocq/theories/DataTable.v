(** * DataTable: flee/datamanager/DataTable.py, handle_refugee_data.py

    A data series is the list of its (day, value) rows in file order.  Only the default
    columns (day 0, count 1) are modelled.  Values are exact rationals: the rounding of
    the float arithmetic in the interpolation is not modelled. *)

From Verif Require Import Base.
Local Open Scope Q_scope.

Definition series : Type := list (Q * Q).

(** DataTable.__init__ (lines 219-280): header, tables, [start_empty] (0 or 1) and the
    dictionary [day0pops]. *)
Record dtable : Type := DTable {
  d_header : list string;
  d_tables : list series;
  d_start_empty : Z;
  d_day0 : list (string * Z) }.

Definition set_day0 (f : list (string * Z) -> list (string * Z)) (d : dtable) : dtable :=
  DTable (d_header d) (d_tables d) (d_start_empty d) (f (d_day0 d)).

Definition day0_get (name : string) (d : dtable) : Z :=
  match dict_get name (d_day0 d) with Some z => z | None => 0%Z end.

(** get_interpolated_data, the loop of lines 426-442; [prev] is row [i-1]. *)
Fixpoint interp_loop (day : Z) (prev : Q * Q) (rest : series) : res Z :=
  match rest with
  | [] => Ok (Qtrunc (snd prev))
  | row :: rest' =>
      if Qltb (inject_Z day) (fst row) then
        fraction <- fdiv (inject_Z day - fst prev) (fst row - fst prev) ;;
        if Qltb 1 fraction then Ok (-1)%Z
        else Ok (Qtrunc (snd prev + fraction * (snd row - snd prev)))
      else interp_loop day row rest'
  end.

(** get_interpolated_data (lines 406-448) on one series *)
Definition interpolate (t : series) (day : Z) : res Z :=
  match t with
  | [] => Err IndexError
  | r0 :: rest =>
      if Qleb (inject_Z day) (fst r0) then Ok (Qtrunc (snd r0))
      else interp_loop day r0 rest
  end.

(** get_raw_data (lines 450-474) on one series *)
Fixpoint raw_loop (day : Z) (old : Q) (t : series) : Q :=
  match t with
  | [] => old
  | row :: t' => if Qleb (fst row) (inject_Z day) then raw_loop day (snd row) t' else old
  end.
Definition raw_data (t : series) (day : Z) : res Z :=
  match t with
  | [] => Err IndexError
  | r0 :: _ => Ok (Qtrunc (raw_loop day (snd r0) t))
  end.

(** _find_headerindex (lines 476-492): first match, else exit *)
Fixpoint find_header (name : string) (h : list string) (i : nat) : res nat :=
  match h with
  | [] => Err SystemExit
  | n :: h' => if String.eqb n name then Ok i else find_header name h' (S i)
  end.

(** get_field (lines 494-513) *)
Definition get_field (d : dtable) (name : string) (day : Z) (full : bool) : res Z :=
  i <- find_header name (d_header d) 0 ;;
  t <- of_option IndexError (nth_error (d_tables d) i) ;;
  v <- (if full then interpolate t day else raw_data t day) ;;
  Ok (v - day0_get name d * d_start_empty d)%Z.

(** get_daily_difference (lines 305-391); returns the updated table as well, since
    day 0 fills [day0pops]. *)
Definition day0_step (full sumcamps : bool) (st : dtable * Z) (name : string)
  : res (dtable * Z) :=
  let '(d, acc) := st in
  pop <- get_field d name 0 full ;;
  let d1 := if (day0_get name d =? 0)%Z then set_day0 (dict_set name pop) d else d in
  if sumcamps : bool then
    Ok (set_day0 (dict_set "total" (day0_get "total" d1 + pop)%Z) d1, (acc + pop)%Z)
  else Ok (d1, acc).

Definition get_daily_difference (d : dtable) (day : Z) (full sumcamps : bool)
  : res (Z * dtable) :=
  if (day =? 0)%Z then
    '(d1, n) <- foldM (day0_step full sumcamps) (d_header d)
                      (set_day0 (dict_set "total" 0%Z) d, 0%Z) ;;
    if sumcamps : bool then Ok ((n * (1 - d_start_empty d))%Z, d1)
    else
      n1 <- get_field d1 "total" 0 full ;;
      Ok ((n1 * (1 - d_start_empty d))%Z, set_day0 (dict_set "total" n1) d1)
  else if sumcamps : bool then
    n <- foldM (fun acc name =>
                  v1 <- get_field d name day full ;;
                  v0 <- get_field d name (day - 1)%Z full ;;
                  Ok (acc + (v1 - v0))%Z)
               (tl (d_header d)) 0%Z ;;
    Ok (n, d)
  else
    v1 <- get_field d "total" day full ;;
    v0 <- get_field d "total" (day - 1)%Z full ;;
    Ok ((v1 - v0)%Z, d).

(** is_interpolated (lines 527-548) *)
Fixpoint series_interpolated (t : series) (day : Z) : option bool :=
  match t with
  | [] => None
  | row :: t' =>
      if (day =? Qtrunc (fst row))%Z then Some false
      else if (day <? Qtrunc (fst row))%Z then Some true
      else series_interpolated t' day
  end.
Fixpoint is_interpolated_loop (h : list string) (ts : list series) (name : string) (day : Z)
  : res bool :=
  match h with
  | [] => Ok true
  | n :: h' =>
      if String.eqb n name then
        match ts with
        | [] => Err IndexError
        | t :: ts' => match series_interpolated t day with
                      | Some b => Ok b
                      | None => is_interpolated_loop h' ts' name day
                      end
        end
      else is_interpolated_loop h' (tl ts) name day
  end.
Definition is_interpolated (d : dtable) (name : string) (day : Z) : res bool :=
  is_interpolated_loop (d_header d) (d_tables d) name day.

(** AddCSVTables (lines 117-160).  [last_c2] starts as an array of shape (1,2), so
    reading [last_c2[1]] before the first match raises [IndexError]: [None] here.
    The state is (result, offset, last_c2). *)
Definition table_row (t : series) (i : nat) : res (Q * Q) :=
  of_option IndexError (nth_error t i).

Fixpoint add_while (fuel : nat) (t1 : series) (c2 : Q * Q) (out : series) (offset : nat)
    (last : option (Q * Q)) : res (series * nat) :=
  match fuel with
  | O => Err OutOfFuel
  | S fuel' =>
      r <- table_row t1 offset ;;
      if Qltb (fst r) (fst c2) then
        l <- of_option IndexError last ;;
        let out' := out ++ [(fst r, snd l + snd r)] in
        if (S offset <? List.length t1)%nat then add_while fuel' t1 c2 out' (S offset) last
        else Ok (out', offset)
      else Ok (out, offset)
  end.

Definition add_step (t1 : series) (st : series * nat * option (Q * Q)) (c2 : Q * Q)
  : res (series * nat * option (Q * Q)) :=
  let '(out, offset, last) := st in
  '(out1, off1) <- add_while (S (List.length t1)) t1 c2 out offset last ;;
  r <- table_row t1 off1 ;;
  if Qeqb (fst c2) (fst r) then
    Ok (out1 ++ [(fst c2, snd c2 + snd r)],
        if (S off1 <? List.length t1)%nat then S off1 else off1, Some c2)
  else if Qltb (fst c2) (fst r) then
    Ok (out1 ++ [(fst c2, snd c2 + snd r)], off1, Some c2)
  else Ok (out1, off1, last).

Definition add_csv_tables (t1 t2 : series) : res series :=
  '(out, _, _) <- foldM (add_step t1) t2 ([], 0%nat, None) ;; Ok out.

(** handle_refugee_data.correctLevel1Registrations (lines 61-90): scales the rows
    before each row whose day is [days]; the final [return] reads variables that are
    set only if such a row exists at a position > 0. *)
Definition scale_before (i : nat) (f : Q) (t : series) : series :=
  map (fun r => (fst r, snd r * f)) (firstn i t) ++ skipn i t.

Fixpoint level1_loop (days : Z) (pop0 : Q) (is_ : list nat) (t : series) (ratio : option Q)
  : res (series * Q) :=
  match is_ with
  | [] => q <- of_option UnboundLocalError ratio ;; Ok (t, q)
  | i :: is' =>
      r <- table_row t i ;;
      if (Qtrunc (fst r) =? days)%Z then
        match i with
        | O => level1_loop days pop0 is' t ratio
        | S j =>
            p <- table_row t j ;;
            let first2 := snd r + pop0 in
            let last1 := snd p + pop0 in
            if Qltb last1 1 then Err SystemExit
            else level1_loop days pop0 is' (scale_before i (first2 / last1) t)
                   (Some (first2 / last1))
        end
      else level1_loop days pop0 is' t ratio
  end.

Definition correct_level1 (d : dtable) (name : string) (days : Z) : res (dtable * Q) :=
  i <- find_header name (d_header d) 0 ;;
  t <- of_option IndexError (nth_error (d_tables d) i) ;;
  if (days <? 0)%Z then Ok (d, 1)
  else
    '(t', q) <- level1_loop days (inject_Z (day0_get name d)) (seq 0 (List.length t)) t None ;;
    Ok (DTable (d_header d) (upd i (fun _ => t') (d_tables d)) (d_start_empty d) (d_day0 d), q).

(** handle_refugee_data.getMaxFromData (lines 92-119) *)
Fixpoint max_loop (days : Z) (m : Z) (t : series) : Z :=
  match t with
  | [] => m
  | r :: t' =>
      let m' := if (m <? Qtrunc (snd r))%Z then Qtrunc (snd r) else m in
      if (days <=? Qtrunc (fst r))%Z then m' else max_loop days m' t'
  end.
Definition get_max_from_data (d : dtable) (name : string) (days : Z) : res Z :=
  i <- find_header name (d_header d) 0 ;;
  t <- of_option IndexError (nth_error (d_tables d) i) ;;
  Ok (max_loop days 0 t).
