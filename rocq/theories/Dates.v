(** * Dates: flee/datamanager/DataTable.py (subtract_dates, steps_to_date), read_period.py

    The dates of the Python module datetime: text in the format %Y-%m-%d is read as by
    [datetime.strptime] (ASCII digits only), and day numbers are those of
    [date.toordinal] and [date.fromordinal] (proleptic Gregorian calendar, years 1 to
    9999). *)

From Verif Require Import Base.
Local Open Scope Z_scope.

Record date : Type := Date { dt_year : Z; dt_month : Z; dt_day : Z }.

(** calendar.isleap, and the tables _DAYS_IN_MONTH and _DAYS_BEFORE_MONTH of datetime *)
Definition leap (y : Z) : bool := ((y mod 4 =? 0) && (negb (y mod 100 =? 0) || (y mod 400 =? 0)))%bool.
Definition days_in_month (y m : Z) : Z :=
  if m =? 2 then if leap y then 29 else 28
  else if (m =? 4) || (m =? 6) || (m =? 9) || (m =? 11) then 30 else 31.
Definition before_month (lp : bool) (m : Z) : Z :=
  nth (Z.to_nat m) [0; 0; 31; 59; 90; 120; 151; 181; 212; 243; 273; 304; 334] 0 +
  if lp && (2 <? m) then 1 else 0.

(** datetime.date(y, m, d): raises ValueError unless it is a date of the calendar *)
Definition make_date (y m d : Z) : res date :=
  if ((1 <=? y) && (y <=? 9999) && (1 <=? m) && (m <=? 12) && (1 <=? d) && (d <=? days_in_month y m))%bool
  then Ok (Date y m d) else Err ValueError.

(** date.toordinal *)
Definition before_year (y : Z) : Z := (y - 1) * 365 + (y - 1) / 4 - (y - 1) / 100 + (y - 1) / 400.
Definition ordinal (d : date) : Z := before_year (dt_year d) + before_month (leap (dt_year d)) (dt_month d) + dt_day d.

(** date.fromordinal, with [n >= 1] *)
Definition day_of_year (lp : bool) (n : Z) : Z * Z :=
  let m := (n + 50) / 32 in
  let m' := if n <? before_month lp m then m - 1 else m in
  (m', n - before_month lp m' + 1).
Definition from_ordinal (n : Z) : date :=
  let n0 := n - 1 in
  let n400 := n0 / 146097 in let r400 := n0 mod 146097 in
  let n100 := r400 / 36524 in let r100 := r400 mod 36524 in
  let n4 := r100 / 1461 in let r4 := r100 mod 1461 in
  let n1 := r4 / 365 in let r := r4 mod 365 in
  let y := n400 * 400 + n100 * 100 + n4 * 4 + n1 + 1 in
  if (n1 =? 4) || (n100 =? 4) then Date (y - 1) 12 31
  else let '(m, d) := day_of_year (leap y) r in Date y m d.

(** datetime.strptime(s, "%Y-%m-%d"): four digits, a month 1-12 and a day 1-31 with one
    or two digits (the day may have a space in front), nothing left over *)
Definition in_range (lo hi : Z) (c : ascii) : option Z :=
  match digit_of c with Some d => if (lo <=? d) && (d <=? hi) then Some d else None | None => None end.
Definition read_month (s : string) : option (Z * string) :=
  match s with
  | EmptyString => None
  | String a r =>
      let one := match in_range 1 9 a with Some x => Some (x, r) | None => None end in
      match r with
      | EmptyString => one
      | String b r' =>
          match in_range 1 1 a, in_range 0 2 b with
          | Some _, Some y => Some (10 + y, r')
          | _, _ => match in_range 0 0 a, in_range 1 9 b with
                    | Some _, Some y => Some (y, r')
                    | _, _ => one
                    end
          end
      end
  end.
Definition read_day (s : string) : option (Z * string) :=
  match s with
  | EmptyString => None
  | String a r =>
      let one := match in_range 1 9 a with Some x => Some (x, r) | None => None end in
      match r with
      | EmptyString => one
      | String b r' =>
          match in_range 3 3 a, in_range 0 1 b with
          | Some _, Some y => Some (30 + y, r')
          | _, _ =>
              match in_range 1 2 a, in_range 0 9 b with
              | Some x, Some y => Some (10 * x + y, r')
              | _, _ =>
                  match in_range 0 0 a, in_range 1 9 b with
                  | Some _, Some y => Some (y, r')
                  | _, _ =>
                      match one with
                      | Some p => Some p
                      | None => if Ascii.eqb a " " then match in_range 1 9 b with Some y => Some (y, r') | None => None end
                                else None
                      end
                  end
              end
          end
      end
  end.
Definition skip (c : ascii) (s : string) : option string :=
  match s with String a r => if Ascii.eqb a c then Some r else None | EmptyString => None end.
Definition read_year (s : string) : option (Z * string) :=
  match s with
  | String a (String b (String c (String d r))) =>
      match in_range 0 9 a, in_range 0 9 b, in_range 0 9 c, in_range 0 9 d with
      | Some w, Some x, Some y, Some z => Some (1000 * w + 100 * x + 10 * y + z, r)
      | _, _, _, _ => None
      end
  | _ => None
  end.
Definition read_fields (s : string) : option (Z * Z * Z) :=
  match read_year s with
  | Some (y, r) =>
      match skip "-" r with
      | Some r1 =>
          match read_month r1 with
          | Some (m, r2) =>
              match skip "-" r2 with
              | Some r3 => match read_day r3 with Some (d, EmptyString) => Some (y, m, d) | _ => None end
              | None => None
              end
          | None => None
          end
      | None => None
      end
  | None => None
  end.
Definition strptime (s : string) : res date :=
  match read_fields s with Some (y, m, d) => make_date y m d | None => Err ValueError end.

(** datetime + timedelta(days): OverflowError outside of the years 1 to 9999 *)
Definition max_ordinal : Z := 3652059.
Definition add_days (n : Z) (d : date) : res date :=
  let o := ordinal d + n in
  if (1 <=? o) && (o <=? max_ordinal) then Ok (from_ordinal o) else Err OverflowError.

(** subtract_dates (DataTable.py lines 21-38) *)
Definition subtract_dates (date1 date2 : string) : res Z :=
  a <- strptime date1 ;;
  b <- strptime date2 ;;
  Ok (ordinal a - ordinal b).

(** steps_to_date (DataTable.py lines 41-56) *)
Definition steps_to_date (steps : Z) (start_date : string) : res date :=
  d <- strptime start_date ;; add_days steps d.

(** strftime("%Y-%m-%d") (runscripts/run.py line 107).  Years before 1000 are written
    with four digits here; the C library of the platform decides in the code. *)
Definition digit_char (n : Z) : ascii := ascii_of_nat (48 + Z.to_nat n).
Definition show_date (d : date) : string :=
  let y := dt_year d in
  String (digit_char (y / 1000)) (String (digit_char (y / 100 mod 10)) (String (digit_char (y / 10 mod 10))
    (String (digit_char (y mod 10)) (String "-" (String (digit_char (dt_month d / 10)) (String (digit_char (dt_month d mod 10))
      (String "-" (String (digit_char (dt_day d / 10)) (String (digit_char (dt_day d mod 10)) EmptyString))))))))).

(** read_sim_period (read_period.py lines 18-40) on the rows of the file *)
Definition read_period_row (st : string * Z) (r : list string) : res (string * Z) :=
  k <- of_option IndexError (nth_error r 0) ;;
  s1 <- (if String.eqb (lower k) "startdate" then v <- of_option IndexError (nth_error r 1) ;; Ok (v, snd st)
         else Ok st) ;;
  if String.eqb (lower k) "length" then
    v <- of_option IndexError (nth_error r 1) ;; n <- of_option ValueError (parse_Z v) ;; Ok (fst s1, n)
  else Ok s1.
Definition read_sim_period (rows : list (list string)) : res (string * Z) :=
  foldM read_period_row rows (""%string, 0).
