(** * HTTP dates: request_parser/utils/http.py:31-40, 124-182, with the parts of
    Python 2.7's time, datetime, calendar and email.utils modules it calls *)
From Verif Require Import Py.

(** ** The calendar (datetime / calendar modules) *)
Definition is_leap (y : Z) : bool :=
  (Z.eqb (y mod 4) 0 && negb (Z.eqb (y mod 100) 0)) || Z.eqb (y mod 400) 0.
Definition days_in_month (y m : Z) : Z :=
  if Z.eqb m 2 then (if is_leap y then 29 else 28)
  else if Z.eqb m 4 || Z.eqb m 6 || Z.eqb m 9 || Z.eqb m 11 then 30 else 31.
(** [_days_before_year] *)
Definition days_before_year (y : Z) : Z :=
  let p := (y - 1)%Z in (p * 365 + p / 4 - p / 100 + p / 400)%Z.
(** [_days_before_month] *)
Fixpoint days_before_month_nat (y : Z) (k : nat) : Z :=     (* months 1..k *)
  match k with
  | 0 => 0%Z
  | S k' => (days_before_month_nat y k' + days_in_month y (Z.of_nat k))%Z
  end.
Definition days_before_month (y m : Z) : Z := days_before_month_nat y (Z.to_nat (m - 1)).
(** [date(y, m, d).toordinal()] *)
Definition toordinal (y m d : Z) : Z := (days_before_year y + days_before_month y m + d)%Z.
Definition epoch_ord : Z := 719163%Z.

Record datetime := mkDT { dt_y : Z; dt_mo : Z; dt_d : Z; dt_h : Z; dt_mi : Z; dt_s : Z }.

(** [datetime.datetime(y, mo, d, h, mi, s)]: ValueError ([None]) unless in range *)
Definition valid_dt (t : datetime) : bool :=
  (Z.leb 1 (dt_y t) && Z.leb (dt_y t) 9999) && (Z.leb 1 (dt_mo t) && Z.leb (dt_mo t) 12)
  && (Z.leb 1 (dt_d t) && Z.leb (dt_d t) (days_in_month (dt_y t) (dt_mo t)))
  && (Z.leb 0 (dt_h t) && Z.leb (dt_h t) 23) && (Z.leb 0 (dt_mi t) && Z.leb (dt_mi t) 59)
  && (Z.leb 0 (dt_s t) && Z.leb (dt_s t) 59).

(** [calendar.timegm] *)
Definition timegm (t : datetime) : Z :=
  let days := (toordinal (dt_y t) (dt_mo t) 1 - epoch_ord + dt_d t - 1)%Z in
  (((days * 24 + dt_h t) * 60 + dt_mi t) * 60 + dt_s t)%Z.

(** [time.gmtime]: the classical loops over years and months; before 1970 the calendar of
    400, 800, ... years later (146097 days each) is used *)
Fixpoint year_loop (fuel : nat) (y days : Z) : Z * Z :=
  match fuel with
  | 0 => (y, days)
  | S f => let len := if is_leap y then 366%Z else 365%Z in
           if Z.ltb days len then (y, days) else year_loop f (y + 1)%Z (days - len)%Z
  end.
Fixpoint month_loop (fuel : nat) (y m days : Z) : Z * Z :=
  match fuel with
  | 0 => (m, days)
  | S f => if Z.ltb days (days_in_month y m) then (m, days)
           else month_loop f y (m + 1)%Z (days - days_in_month y m)%Z
  end.
Definition gmtime (t : Z) : datetime :=
  let c := if Z.ltb (t / 86400) 0 then ((146096 - t / 86400) / 146097)%Z else 0%Z in
  let days := (t / 86400 + 146097 * c)%Z in
  let secs := (t mod 86400)%Z in
  let (y, d1) := year_loop (S (Z.to_nat (days / 365))) 1970 days in
  let (m, d2) := month_loop 12 y 1 d1 in
  mkDT (y - 400 * c) m (d2 + 1) (secs / 3600) ((secs mod 3600) / 60) (secs mod 60).
(** 1970-01-01 was a Thursday; [tm_wday] counts from Monday *)
Definition weekday (t : Z) : Z := ((t / 86400 + 3) mod 7)%Z.

(** ** Formatting *)
Definition digit (d : Z) : char := Z.to_N (48 + d).
Definition pad2 (n : Z) : str := [digit (n / 10 mod 10); digit (n mod 10)].            (* %02d, 0 <= n < 100 *)
Definition pad4 (n : Z) : str := [digit (n / 1000 mod 10); digit (n / 100 mod 10); digit (n / 10 mod 10); digit (n mod 10)].

Definition month_names : list str :=
  [!"Jan"; !"Feb"; !"Mar"; !"Apr"; !"May"; !"Jun"; !"Jul"; !"Aug"; !"Sep"; !"Oct"; !"Nov"; !"Dec"].
Definition day_names : list str := [!"Mon"; !"Tue"; !"Wed"; !"Thu"; !"Fri"; !"Sat"; !"Sun"].
Definition month_name (m : Z) : str := nth (Z.to_nat (m - 1)) month_names [].
Definition day_name (w : Z) : str := nth (Z.to_nat w) day_names [].

(** [http_date]  utils/http.py:124-135: email.utils.formatdate(t, usegmt=True),
    for an integral number of seconds, in the years 1 to 9999 *)
Definition http_date (t : Z) : str :=
  let d := gmtime t in
  day_name (weekday t) ++ !", " ++ pad2 (dt_d d) ++ !" " ++ month_name (dt_mo d) ++ !" " ++ pad4 (dt_y d)
  ++ !" " ++ pad2 (dt_h d) ++ !":" ++ pad2 (dt_mi d) ++ !":" ++ pad2 (dt_s d) ++ !" GMT".

(** ** Matching.  Patterns without alternatives: a step takes a fixed number of
    characters of a class; [None] is "no match". *)
Definition take (f : char -> bool) (n : nat) (s : str) : option (str * str) :=
  if Nat.leb n (length s) && forallb f (firstn n s) then Some (firstn n s, skipn n s) else None.
Definition take_lit (p s : str) : option str := if prefixb p s then Some (skipn (length p) s) else None.
(** [$]: the end, or just before a final newline *)
Definition at_end (s : str) : bool := match s with [] => true | [c] => N.eqb c LF | _ => false end.

Notation "'opt*' x ':=' r 'in' f" := (match r with Some x => f | None => None end)
  (at level 200, x pattern, right associativity).

(** the group texts of a match *)
Record dmatch := mkDM { m_year : str; m_mon : str; m_day : str; m_hour : str; m_min : str; m_sec : str }.

(** [__T]: (?P<hour>\d{2}):(?P<min>\d{2}):(?P<sec>\d{2})   line 37 *)
Definition take_time (s : str) : option (str * str * str * str) :=
  opt* (h, s1) := take is_digit 2 s in opt* s2 := take_lit !":" s1 in
  opt* (m, s3) := take is_digit 2 s2 in opt* s4 := take_lit !":" s3 in
  opt* (x, s5) := take is_digit 2 s4 in Some (h, m, x, s5).

(** RFC1123_DATE (line 38) *)
Definition match_rfc1123 (s : str) : option dmatch :=
  opt* (_, s0) := take is_word 3 s in opt* s1 := take_lit !", " s0 in
  opt* (d, s2) := take is_digit 2 s1 in opt* s3 := take_lit !" " s2 in
  opt* (mo, s4) := take is_word 3 s3 in opt* s5 := take_lit !" " s4 in
  opt* (y, s6) := take is_digit 4 s5 in opt* s7 := take_lit !" " s6 in
  opt* (h, mi, x, s8) := take_time s7 in opt* s9 := take_lit !" GMT" s8 in
  if at_end s9 then Some (mkDM y mo d h mi x) else None.

(** \w{6,9} followed by a comma: as many word characters as there are (a comma is none) *)
Fixpoint span_word (s : str) : str * str :=
  match s with
  | c :: t => if is_word c then let (a, b) := span_word t in (c :: a, b) else ([], s)
  | [] => ([], [])
  end.
(** RFC850_DATE (line 39) *)
Definition match_rfc850 (s : str) : option dmatch :=
  let (w, s0) := span_word s in
  if negb (Nat.leb 6 (length w) && Nat.leb (length w) 9) then None else
  opt* s1 := take_lit !", " s0 in
  opt* (d, s2) := take is_digit 2 s1 in opt* s3 := take_lit !"-" s2 in
  opt* (mo, s4) := take is_word 3 s3 in opt* s5 := take_lit !"-" s4 in
  opt* (y, s6) := take is_digit 2 s5 in opt* s7 := take_lit !" " s6 in
  opt* (h, mi, x, s8) := take_time s7 in opt* s9 := take_lit !" GMT" s8 in
  if at_end s9 then Some (mkDM y mo d h mi x) else None.

(** [__D2]: [ \d]\d *)
Definition take_day2 (s : str) : option (str * str) :=
  match s with
  | a :: b :: t => if (N.eqb a 32 || is_digit a) && is_digit b then Some ([a; b], t) else None
  | _ => None
  end.
(** ASCTIME_DATE (line 40) *)
Definition match_asctime (s : str) : option dmatch :=
  opt* (_, s0) := take is_word 3 s in opt* s1 := take_lit !" " s0 in
  opt* (mo, s2) := take is_word 3 s1 in opt* s3 := take_lit !" " s2 in
  opt* (d, s4) := take_day2 s3 in opt* s5 := take_lit !" " s4 in
  opt* (h, mi, x, s6) := take_time s5 in opt* s7 := take_lit !" " s6 in
  opt* (y, s8) := take is_digit 4 s7 in
  if at_end s8 then Some (mkDM y mo d h mi x) else None.

(** [MONTHS.index(...)] (line 31, 163); [None] is ValueError *)
Definition months_lower : list str := map lower month_names.
Fixpoint index_of (x : str) (l : list str) : option Z :=
  match l with
  | [] => None
  | y :: r => if seqb x y then Some 0%Z else option_map Z.succ (index_of x r)
  end.

(** lines 156-169; [None] stands for any exception in the [try] block *)
Definition date_of_match (m : dmatch) : option Z :=
  opt* y := py_int 10 (m_year m) in
  let year := if Z.ltb y 100 then (if Z.ltb y 70 then y + 2000 else y + 1900)%Z else y in
  opt* mo := index_of (lower (m_mon m)) months_lower in
  opt* d := py_int 10 (m_day m) in
  opt* h := py_int 10 (m_hour m) in
  opt* mi := py_int 10 (m_min m) in
  opt* x := py_int 10 (m_sec m) in
  let t := mkDT year (mo + 1) d h mi x in
  if valid_dt t then Some (timegm t) else None.

(** [parse_http_date]  utils/http.py:138-172.  In Python 2 [six.reraise(instance, exc)]
    raises TypeError ("instance exception may not have a separate value"). *)
Definition parse_http_date (s : str) : res Z :=
  match match match_rfc1123 s with Some m => Some m | None =>
        match match_rfc850 s with Some m => Some m | None => match_asctime s end end with
  | None => Err ValueError                                          (* 154-155 *)
  | Some m => match date_of_match m with
              | Some t => Ok t
              | None => Err TypeError                               (* 170-172 *)
              end
  end.

(** [parse_http_date_safe]  utils/http.py:175-182 *)
Definition parse_http_date_safe (s : str) : option Z :=
  match parse_http_date s with Ok t => Some t | Err _ => None end.
