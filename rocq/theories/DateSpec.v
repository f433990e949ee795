(** * Specification vocabulary for dates (C70, C71).  Nothing here refers to the model of the code. *)
From Verif Require Import Py.

(** ** The Gregorian calendar, one day after the other *)
Definition divides (k y : Z) : Prop := exists q, y = (k * q)%Z.
Definition leap_year (y : Z) : Prop := divides 4 y /\ ~ divides 100 y \/ divides 400 y.
(** name and length of the months *)
Inductive month : Z -> str -> Z -> Z -> Prop :=
| jan y : month 1 !"Jan" y 31
| feb y : ~ leap_year y -> month 2 !"Feb" y 28
| feb_leap y : leap_year y -> month 2 !"Feb" y 29
| mar y : month 3 !"Mar" y 31
| apr y : month 4 !"Apr" y 30
| may y : month 5 !"May" y 31
| jun y : month 6 !"Jun" y 30
| jul y : month 7 !"Jul" y 31
| aug y : month 8 !"Aug" y 31
| sep y : month 9 !"Sep" y 30
| oct y : month 10 !"Oct" y 31
| nov y : month 11 !"Nov" y 30
| dec y : month 12 !"Dec" y 31.
(** [day y m d n]: the date exists and is [n] days after the first day of the year 1 *)
Inductive day : Z -> Z -> Z -> Z -> Prop :=
| day_first : day 1 1 1 0
| day_same_month y m d n name len : day y m d n -> month m name y len -> (d < len)%Z -> day y m (d + 1) (n + 1)
| day_next_month y m d n name : day y m d n -> month m name y d -> (m < 12)%Z -> day y (m + 1) 1 (n + 1)
| day_next_year y n : day y 12 31 n -> day (y + 1) 1 1 (n + 1).
(** the weekdays in their order, the epoch being a Thursday *)
Definition weekdays : list (str * str) :=
  [(!"Thu", !"Thursday"); (!"Fri", !"Friday"); (!"Sat", !"Saturday"); (!"Sun", !"Sunday"); (!"Mon", !"Monday"); (!"Tue", !"Tuesday"); (!"Wed", !"Wednesday")].
(** [moment y m d h mi x t]: that date and time is [t] seconds after the epoch *)
Definition moment (y m d h mi x t : Z) : Prop :=
  exists n e, day y m d n /\ day 1970 1 1 e /\ (0 <= h <= 23 /\ 0 <= mi <= 59 /\ 0 <= x <= 59)%Z /\ t = (86400 * (n - e) + 3600 * h + 60 * mi + x)%Z.
Definition weekday_of (y m d : Z) (short long : str) : Prop :=
  exists n e k, day y m d n /\ day 1970 1 1 e /\ nth_error weekdays k = Some (short, long) /\ (exists q, n - e = 7 * q + Z.of_nat k)%Z.

(** ** Numbers *)
Definition decimal (s : str) : Prop := forall c, In c s -> (48 <= c <= 57)%N.
Definition value (s : str) : Z := fold_left (fun a c => 10 * a + (Z.of_N c - 48))%Z s 0%Z.
(** [s] is [z] in [w] digits *)
Definition digits (w : nat) (z : Z) (s : str) : Prop := length s = w /\ decimal s /\ value s = z.

(** ** The formats of RFC 7231, 7.1.1.1 *)
Inductive format := Preferred | Obsolete850 | Asctime.
Inductive written (y m d h mi x : Z) : format -> str -> Prop :=
| written_preferred dn dl mn len Y D H M S : weekday_of y m d dn dl -> month m mn y len ->
    digits 4 y Y -> digits 2 d D -> digits 2 h H -> digits 2 mi M -> digits 2 x S ->
    written y m d h mi x Preferred (dn ++ !", " ++ D ++ !" " ++ mn ++ !" " ++ Y ++ !" " ++ H ++ !":" ++ M ++ !":" ++ S ++ !" GMT")
| written_850 dn dl mn len c Y D H M S : weekday_of y m d dn dl -> month m mn y len ->
    (y = 1900 + c /\ 70 <= c \/ y = 2000 + c /\ c < 70)%Z ->
    digits 2 c Y -> digits 2 d D -> digits 2 h H -> digits 2 mi M -> digits 2 x S ->
    written y m d h mi x Obsolete850 (dl ++ !", " ++ D ++ !"-" ++ mn ++ !"-" ++ Y ++ !" " ++ H ++ !":" ++ M ++ !":" ++ S ++ !" GMT")
| written_asctime dn dl mn len Y D H M S : weekday_of y m d dn dl -> month m mn y len ->
    digits 4 y Y -> (digits 2 d D /\ (10 <= d)%Z \/ exists D1, D = !" " ++ D1 /\ digits 1 d D1) -> digits 2 h H -> digits 2 mi M -> digits 2 x S ->
    written y m d h mi x Asctime (dn ++ !" " ++ mn ++ !" " ++ D ++ !" " ++ H ++ !":" ++ M ++ !":" ++ S ++ !" " ++ Y).

(** ** What a date may look like to be read: any word as the weekday, any word as the month, and a newline at the end *)
Definition word_char (c : N) : Prop := (65 <= c <= 90 \/ 97 <= c <= 122 \/ 48 <= c <= 57)%N \/ c = 95%N.
Definition word (lo hi : nat) (s : str) : Prop := lo <= length s <= hi /\ forall c, In c s -> word_char c.
Definition field (w : nat) (s : str) : Prop := length s = w /\ decimal s.
Inductive shaped (Y Mo D H M S : str) : str -> Prop :=
| shaped_preferred w e : word 3 3 w -> field 2 D -> word 3 3 Mo -> field 4 Y -> field 2 H -> field 2 M -> field 2 S -> e = [] \/ e = [10%N] ->
    shaped Y Mo D H M S (w ++ !", " ++ D ++ !" " ++ Mo ++ !" " ++ Y ++ !" " ++ (H ++ !":" ++ M ++ !":" ++ S) ++ !" GMT" ++ e)
| shaped_850 w e : word 6 9 w -> field 2 D -> word 3 3 Mo -> field 2 Y -> field 2 H -> field 2 M -> field 2 S -> e = [] \/ e = [10%N] ->
    shaped Y Mo D H M S (w ++ !", " ++ D ++ !"-" ++ Mo ++ !"-" ++ Y ++ !" " ++ (H ++ !":" ++ M ++ !":" ++ S) ++ !" GMT" ++ e)
| shaped_asctime w e : word 3 3 w -> field 2 D \/ (exists D1, D = !" " ++ D1 /\ field 1 D1) -> word 3 3 Mo -> field 4 Y -> field 2 H -> field 2 M -> field 2 S ->
    e = [] \/ e = [10%N] ->
    shaped Y Mo D H M S (w ++ !" " ++ Mo ++ !" " ++ D ++ !" " ++ (H ++ !":" ++ M ++ !":" ++ S) ++ !" " ++ Y ++ e).
(** the number in a field that may begin with a blank *)
Definition number (s : str) (z : Z) : Prop := exists s1, (s = s1 \/ s = !" " ++ s1) /\ decimal s1 /\ s1 <> [] /\ value s1 = z.
(** years below 100 are those from 1970 to 2069 *)
Definition year_meant (c y : Z) : Prop := (100 <= c /\ y = c \/ 70 <= c < 100 /\ y = 1900 + c \/ 0 <= c < 70 /\ y = 2000 + c)%Z.
Definition names_month (s : str) (m y : Z) : Prop := exists nm len, month m nm y len /\ lower s = lower nm.
Definition fields_mean (Y Mo D H M S : str) (y m d h mi x : Z) : Prop :=
  (exists c, number Y c /\ year_meant c y) /\ names_month Mo m y /\ number D d /\ number H h /\ number M mi /\ number S x.
