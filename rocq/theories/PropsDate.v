(** * C70, C71: HTTP dates against the calendar *)
From Coq Require Import ZifyN ZifyNat.
From Verif Require Import Py Spec PyFacts DateModel DateSpec DateFacts PropsUtil PropsExact.
Ltac Zify.zify_post_hook ::= Z.div_mod_to_equations.

Lemma leap_iff y : is_leap y = true <-> leap_year y.
Proof.
  unfold is_leap, leap_year, divides. rewrite orb_true_iff, andb_true_iff, negb_true_iff, !Z.eqb_eq, Z.eqb_neq.
  assert (H : forall k, (0 < k)%Z -> (y mod k = 0 <-> exists q, y = k * q)%Z).
  { intros k Hk. split; [intros E; exists (y / k)%Z; rewrite (Z.div_mod y k) at 1 by lia; lia|intros [q ->]; rewrite Z.mul_comm; apply Z.mod_mul; lia]. }
  rewrite <- !H by lia. reflexivity.
Qed.
Lemma month_len m nm y len : month m nm y len -> (1 <= m <= 12)%Z /\ nm = month_name m /\ len = days_in_month y m.
Proof.
  intros []; (split; [lia|]); (split; [reflexivity|]); try reflexivity; unfold days_in_month; cbn [Z.eqb Pos.eqb].
  - destruct (is_leap y0) eqn:E; [|reflexivity]. apply leap_iff in E. easy.
  - apply leap_iff in H. now rewrite H.
Qed.
Lemma month_exists m y : (1 <= m <= 12)%Z -> month m (month_name m) y (days_in_month y m).
Proof.
  intros H. assert (C : (m = 1 \/ m = 2 \/ m = 3 \/ m = 4 \/ m = 5 \/ m = 6 \/ m = 7 \/ m = 8 \/ m = 9 \/ m = 10 \/ m = 11 \/ m = 12)%Z) by lia.
  assert (F : month 2 (month_name 2) y (days_in_month y 2)).
  { unfold days_in_month. cbn [Z.eqb Pos.eqb]. destruct (is_leap y) eqn:E; [apply feb_leap; now apply leap_iff|apply feb; rewrite <- leap_iff; congruence]. }
  repeat destruct C as [->|C]; try exact F; try (constructor; fail). subst. constructor.
Qed.
Lemma day_ord y m d n : day y m d n -> (1 <= y /\ 1 <= m <= 12 /\ 1 <= d <= days_in_month y m /\ n = toordinal y m d - 1)%Z.
Proof.
  unfold toordinal. induction 1 as [|y m d n nm len _ IH Hm Hd|y m d n nm _ IH Hm Hd|y n _ IH].
  - vm_compute. repeat split; congruence.
  - apply month_len in Hm as (M & _ & ->). lia.
  - apply month_len in Hm as (M & _ & ->). rewrite days_before_month_step by lia. pose proof (dim_pos y (m + 1)). lia.
  - rewrite days_before_year_step, <- days_before_month_13. pose proof (days_before_month_step y 12 ltac:(lia)) as E.
    change (12 + 1)%Z with 13%Z in E. change (days_in_month y 12) with 31%Z in *. change (days_before_month (y + 1) 1) with 0%Z.
    change (days_in_month (y + 1) 1) with 31%Z. lia.
Qed.
Lemma day_start y m d n : (1 <= d <= days_in_month y m)%Z -> (1 <= m <= 12)%Z -> day y m 1 n -> day y m d (n + d - 1).
Proof.
  intros Hd Hm H1. assert (K : forall k, (Z.of_nat k < days_in_month y m)%Z -> day y m (Z.of_nat k + 1) (n + Z.of_nat k)).
  { induction k as [|k IH]; intros Hk.
    - replace (Z.of_nat 0 + 1)%Z with 1%Z by lia. now replace (n + Z.of_nat 0)%Z with n by lia.
    - replace (n + Z.of_nat (S k))%Z with (n + Z.of_nat k + 1)%Z by lia. replace (Z.of_nat (S k) + 1)%Z with (Z.of_nat k + 1 + 1)%Z by lia.
      eapply day_same_month; [apply IH; lia|apply month_exists; lia|lia]. }
  specialize (K (Z.to_nat (d - 1)) ltac:(lia)). replace (Z.of_nat (Z.to_nat (d - 1)) + 1)%Z with d in K by lia.
  now replace (n + d - 1)%Z with (n + Z.of_nat (Z.to_nat (d - 1)))%Z by lia.
Qed.
Lemma day_month y m n : (1 <= m <= 12)%Z -> day y 1 1 n -> exists n', day y m 1 n'.
Proof.
  intros Hm H. assert (K : forall k, (Z.of_nat k <= 11)%Z -> exists n', day y (Z.of_nat k + 1) 1 n').
  { induction k as [|k IH]; intros Hk; [now exists n|]. destruct (IH ltac:(lia)) as [n1 H1].
    eexists. replace (Z.of_nat (S k) + 1)%Z with (Z.of_nat k + 1 + 1)%Z by lia. pose proof (dim_pos y (Z.of_nat k + 1)).
    eapply (day_next_month _ _ (days_in_month y (Z.of_nat k + 1))); [apply day_start; [lia|lia|exact H1]|apply month_exists; lia|lia]. }
  destruct (K (Z.to_nat (m - 1)) ltac:(lia)) as [n' H']. exists n'. now replace m with (Z.of_nat (Z.to_nat (m - 1)) + 1)%Z by lia.
Qed.
(** every date of the calendar has a number *)
Lemma day_exists y m d : (1 <= y)%Z -> (1 <= m <= 12)%Z -> (1 <= d <= days_in_month y m)%Z -> day y m d (toordinal y m d - 1).
Proof.
  intros Hy Hm Hd. assert (K : forall k, exists n, day (Z.of_nat k + 1) 1 1 n).
  { induction k as [|k [n IH]]; [exists 0%Z; constructor|]. destruct (day_month _ 12 n ltac:(lia) IH) as [n1 H1].
    eexists. replace (Z.of_nat (S k) + 1)%Z with (Z.of_nat k + 1 + 1)%Z by lia.
    eapply day_next_year, day_start; [change (days_in_month (Z.of_nat k + 1) 12) with 31%Z; lia|lia|exact H1]. }
  destruct (K (Z.to_nat (y - 1))) as [n Hn]. replace (Z.of_nat (Z.to_nat (y - 1)) + 1)%Z with y in Hn by lia.
  destruct (day_month y m n Hm Hn) as [n1 H1]. pose proof (day_start y m d n1 Hd Hm H1) as H2.
  destruct (day_ord _ _ _ _ H2) as (_ & _ & _ & E). now rewrite E in H2.
Qed.
Lemma epoch_day e : day 1970 1 1 e <-> e = 719162%Z.
Proof.
  split; [intros H; apply day_ord in H as (_ & _ & _ & ->); reflexivity|]. intros ->. apply (day_exists 1970 1 1); [lia|lia|vm_compute; split; congruence].
Qed.
Lemma moment_iff y m d h mi x t : moment y m d h mi x t <->
  (1 <= y /\ 1 <= m <= 12 /\ 1 <= d <= days_in_month y m /\ 0 <= h <= 23 /\ 0 <= mi <= 59 /\ 0 <= x <= 59 /\ t = timegm (mkDT y m d h mi x))%Z.
Proof.
  unfold timegm. cbn [dt_y dt_mo dt_d dt_h dt_mi dt_s]. unfold epoch_ord. split.
  - intros (n & e & Hd & ->%epoch_day & HR & ->). apply day_ord in Hd as (H1 & H2 & H3 & ->). unfold toordinal. lia.
  - intros (H1 & H2 & H3 & H4 & H5 & H6 & ->). exists (toordinal y m d - 1)%Z, 719162%Z. split; [now apply day_exists|].
    split; [now apply epoch_day|]. split; [lia|]. unfold toordinal. lia.
Qed.

(** ** Numbers *)
Lemma decimal_iff s : forallb is_digit s = true <-> decimal s.
Proof. rewrite forallb_forall. unfold decimal, is_digit. split; intros H c Hc; specialize (H c Hc); rewrite andb_true_iff, !N.leb_le in *; lia. Qed.
Lemma digit_of c : (48 <= c <= 57)%N -> digit (Z.of_N c - 48) = c.
Proof. intros H. unfold digit. lia. Qed.
Lemma digits_pad2 n s : digits 2 n s <-> s = pad2 n /\ (0 <= n < 100)%Z.
Proof.
  split.
  - intros (HL & HD & HV). destruct s as [|a [|b [|]]]; try discriminate HL. pose proof (HD a ltac:(cbn; auto)). pose proof (HD b ltac:(cbn; auto)).
    unfold value in HV. cbn [fold_left] in HV. split; [|lia]. unfold pad2.
    replace (n / 10 mod 10)%Z with (Z.of_N a - 48)%Z by lia. replace (n mod 10)%Z with (Z.of_N b - 48)%Z by lia. now rewrite !digit_of.
  - intros [-> H]. split; [reflexivity|]. split; [apply decimal_iff; now apply pad2_digits|]. unfold value, pad2, digit. cbn [fold_left]. lia.
Qed.
Lemma digits_pad4 n s : digits 4 n s <-> s = pad4 n /\ (0 <= n < 10000)%Z.
Proof.
  split.
  - intros (HL & HD & HV). destruct s as [|a [|b [|c [|d [|]]]]]; try discriminate HL.
    pose proof (HD a ltac:(cbn; auto)). pose proof (HD b ltac:(cbn; auto)). pose proof (HD c ltac:(cbn; auto)). pose proof (HD d ltac:(cbn; auto)).
    unfold value in HV. cbn [fold_left] in HV. split; [|lia]. unfold pad4.
    replace (n / 1000 mod 10)%Z with (Z.of_N a - 48)%Z by lia. replace (n / 100 mod 10)%Z with (Z.of_N b - 48)%Z by lia.
    replace (n / 10 mod 10)%Z with (Z.of_N c - 48)%Z by lia. replace (n mod 10)%Z with (Z.of_N d - 48)%Z by lia. now rewrite !digit_of.
  - intros [-> H]. split; [reflexivity|]. split; [apply decimal_iff; now apply pad4_digits|]. unfold value, pad4, digit. cbn [fold_left]. lia.
Qed.
Lemma digits_pad1 n s : digits 1 n s <-> s = [digit n] /\ (0 <= n < 10)%Z.
Proof.
  split.
  - intros (HL & HD & HV). destruct s as [|a [|]]; try discriminate HL. pose proof (HD a ltac:(cbn; auto)).
    unfold value in HV. cbn [fold_left] in HV. split; [|lia]. replace n with (Z.of_N a - 48)%Z by lia. now rewrite digit_of.
  - intros [-> H]. split; [reflexivity|]. split; [|unfold value, digit; cbn [fold_left]; lia].
    intros c [<-|[]]. unfold digit. lia.
Qed.

(** ** C70 *)
Lemma weekday_named y m d h mi x t short long : moment y m d h mi x t -> weekday_of y m d short long ->
  short = day_name (weekday t) /\ long = nth (Z.to_nat (weekday t)) full_day_names [].
Proof.
  intros (n & e & Hd & He & HR & ->) (n' & e' & k & Hd' & He' & Hk & q & Hq). apply epoch_day in He, He'. subst e e'.
  apply day_ord in Hd as (_ & _ & _ & ->), Hd' as (_ & _ & _ & ->). set (o := toordinal y m d) in *. clearbody o.
  assert (HK : k < 7) by (apply (proj1 (nth_error_Some weekdays k)); congruence).
  assert (HW : weekday (86400 * (o - 1 - 719162) + 3600 * h + 60 * mi + x) = ((Z.of_nat k + 3) mod 7)%Z).
  { unfold weekday. replace ((86400 * (o - 1 - 719162) + 3600 * h + 60 * mi + x) / 86400)%Z with (7 * q + Z.of_nat k)%Z by lia. lia. }
  rewrite HW. do 7 (destruct k as [|k]; [injection Hk as <- <-; split; reflexivity|]). lia.
Qed.
Lemma weekday_exists y m d h mi x t : moment y m d h mi x t -> exists short long, weekday_of y m d short long.
Proof.
  intros (n & e & Hd & He & _). set (k := Z.to_nat ((n - e) mod 7)%Z). assert (HK : k < 7) by (unfold k; lia).
  destruct (nth_error weekdays k) as [[a b]|] eqn:E; [|apply nth_error_None in E; cbn in E; lia].
  exists a, b, n, e, k. split; [exact Hd|]. split; [exact He|]. split; [exact E|]. exists ((n - e) / 7)%Z. unfold k. lia.
Qed.
Lemma moment_time y m d h mi x t : moment y m d h mi x t -> (1 <= y <= 9999)%Z ->
  gmtime t = mkDT y m d h mi x /\ ((min_time <= t < max_time)%Z /\ ((100 <= y)%Z -> (y100 <= t)%Z)) /\ (1 <= d <= 31)%Z.
Proof.
  intros (H1 & H2 & H3 & H4 & H5 & H6 & ->)%moment_iff Hy. pose proof (dim_le y m).
  destruct (gmtime_timegm (mkDT y m d h mi x)) as [E HR]; [apply valid_dt_iff; cbn; lia|]. split; [exact E|]. split; [exact HR|lia].
Qed.
(** What [http_date] writes for a moment of the years 1 to 9999 is that moment in the preferred format, with
    the weekday of the calendar, and nothing else *)
Theorem C70_http_date_written :
  forall y m d h mi x t, moment y m d h mi x t -> (1 <= y <= 9999)%Z ->
    forall s, http_date t = s <-> written y m d h mi x Preferred s.
Proof.
  intros y m d h mi x t HM Hy s. destruct (moment_time _ _ _ _ _ _ _ HM Hy) as (E & HR & Hd).
  pose proof HM as (H1 & H2 & H3 & H4 & H5 & H6 & _)%moment_iff. unfold http_date. rewrite E. cbn [dt_y dt_mo dt_d dt_h dt_mi dt_s].
  destruct (weekday_exists _ _ _ _ _ _ _ HM) as (a & b & HW). destruct (weekday_named _ _ _ _ _ _ _ _ _ HM HW) as [Ea Eb]. split.
  - intros <-. rewrite <- Ea. eapply (written_preferred _ _ _ _ _ _ a b (month_name m) _ (pad4 y) (pad2 d) (pad2 h) (pad2 mi) (pad2 x));
      [exact HW|now apply month_exists|apply digits_pad4|apply digits_pad2..]; (split; [reflexivity|lia]).
  - intros HX. inversion HX as [dn dl mn len Y D H M S Wd Mo DY DD DH DM DS| |]; subst.
    destruct (weekday_named _ _ _ _ _ _ _ _ _ HM Wd) as [-> _]. apply month_len in Mo as (_ & -> & _).
    apply digits_pad4 in DY as [-> _]. apply digits_pad2 in DD as [-> _], DH as [-> _], DM as [-> _], DS as [-> _]. reflexivity.
Qed.
Print Assumptions C70_http_date_written.
(** A moment of the years 100 to 9999 written in any of the three formats is read as that moment *)
Theorem C70_written_read :
  forall y m d h mi x t f s, moment y m d h mi x t -> (100 <= y <= 9999)%Z -> written y m d h mi x f s -> parse_http_date s = Ok t.
Proof.
  intros y m d h mi x t f s HM Hy HX. assert (Hy1 : (1 <= y <= 9999)%Z) by lia.
  destruct (moment_time _ _ _ _ _ _ _ HM Hy1) as (E & [HR HR2] & Hd). specialize (HR2 (proj1 Hy)). assert (HR' : (y100 <= t < max_time)%Z) by lia.
  pose proof HM as (H1 & H2 & H3 & H4 & H5 & H6 & _)%moment_iff. pose proof HX as HX0.
  destruct HX as [dn dl mn len Y D H M S Wd Mo DY DD DH DM DS|dn dl mn len c Y D H M S Wd Mo Hc DY DD DH DM DS|dn dl mn len Y D H M S Wd Mo DY DD DH DM DS].
  - apply (proj2 (C70_http_date_written _ _ _ _ _ _ _ HM Hy1 _)) in HX0. rewrite <- HX0. now apply C70_http_date_roundtrip.
  - destruct (weekday_named _ _ _ _ _ _ _ _ _ HM Wd) as [_ ->]. apply month_len in Mo as (_ & -> & _).
    apply digits_pad2 in DY as [-> Hcr]. apply digits_pad2 in DD as [-> _], DH as [-> _], DM as [-> _], DS as [-> _].
    transitivity (parse_http_date (rfc850_date t)).
    + f_equal. unfold rfc850_date, clock. rewrite E. cbn [dt_y dt_mo dt_d dt_h dt_mi dt_s]. replace (y mod 100)%Z with c by lia. now rewrite <- !app_assoc.
    + apply C70_rfc850_roundtrip. destruct HM as (n & e & Dn & ->%epoch_day & _ & ->). apply day_ord in Dn as (_ & _ & _ & ->).
      assert (HG : (days_before_year 1970 + 1 <= toordinal y m d)%Z).
      { unfold toordinal. pose proof (days_before_year_mono 1970 y ltac:(lia)). pose proof (days_before_month_mono y 1 m ltac:(lia)) as P.
        change (days_before_month y 1) with 0%Z in P. lia. }
      change (days_before_year 1970) with 719162%Z in HG.
      assert (HL : (toordinal y m d <= days_before_year 2070)%Z).
      { unfold toordinal. pose proof (days_before_year_mono (y + 1) 2070 ltac:(lia)) as P2. rewrite days_before_year_step, <- days_before_month_13 in P2.
        pose proof (days_before_month_step y m ltac:(lia)). pose proof (days_before_month_mono y (m + 1) 13 ltac:(lia)). lia. }
      change (days_before_year 2070) with 755687%Z in HL. lia.
  - destruct (weekday_named _ _ _ _ _ _ _ _ _ HM Wd) as [-> _]. apply month_len in Mo as (_ & -> & _).
    apply digits_pad4 in DY as [-> _]. apply digits_pad2 in DH as [-> _], DM as [-> _], DS as [-> _].
    transitivity (parse_http_date (asctime_date t)); [|now apply C70_asctime_roundtrip].
    f_equal. unfold asctime_date, clock. rewrite E. cbn [dt_y dt_mo dt_d dt_h dt_mi dt_s].
    replace D with (pad2_space d); [now rewrite <- !app_assoc|]. unfold pad2_space. destruct DD as [[DD Hd10]|(D1 & -> & DD)].
    + apply digits_pad2 in DD as [-> _]. destruct (Z.ltb_spec d 10); [lia|reflexivity].
    + apply digits_pad1 in DD as [-> Hd10]. destruct (Z.ltb_spec d 10); [reflexivity|lia].
Qed.
Print Assumptions C70_written_read.
Lemma day_of_time t : (min_time <= t < max_time)%Z -> exists y m d h mi x, moment y m d h mi x t /\ (1 <= y <= 9999)%Z.
Proof.
  intros Ht. destruct (gmtime_spec t Ht) as (HV & HT & HY & _). destruct (gmtime t) as [y m d h mi x]. apply valid_dt_iff in HV.
  cbn [dt_y dt_mo dt_d dt_h dt_mi dt_s] in *. exists y, m, d, h, mi, x. split; [|exact HY]. apply moment_iff. repeat (split; [lia|]). now symmetry.
Qed.
(** every time from the first of January of the year 1 to the end of 9999 is such a moment *)
Theorem C70_all_times : forall t, (-62135596800 <= t < 253402300800)%Z -> exists y m d h mi x, moment y m d h mi x t /\ (1 <= y <= 9999)%Z.
Proof. exact day_of_time. Qed.
Print Assumptions C70_all_times.
(** the range is exact: years below 100 are read as years of the 20th or 21st century, so that no moment of
    the first century is read back *)
Theorem C70_first_century_misread :
  forall y m d h mi x t, moment y m d h mi x t -> (1 <= y <= 99)%Z ->
    exists y', (y' = y + 2000 /\ y < 70 \/ y' = y + 1900 /\ 70 <= y)%Z /\
      (forall t', parse_http_date (http_date t) = Ok t' <-> moment y' m d h mi x t') /\ parse_http_date (http_date t) <> Ok t.
Proof.
  intros y m d h mi x t HM Hy. destruct (moment_time _ _ _ _ _ _ _ HM ltac:(lia)) as (E & _ & Hd).
  pose proof HM as (H1 & H2 & H3 & H4 & H5 & H6 & ET)%moment_iff. pose proof (dim_le y m) as HL.
  set (y' := if Z.ltb y 70 then (y + 2000)%Z else (y + 1900)%Z). exists y'. assert (HY : (y' = y + 2000 /\ y < 70 \/ y' = y + 1900 /\ 70 <= y)%Z).
  { unfold y'. destruct (Z.ltb_spec y 70); lia. }
  split; [exact HY|].
  assert (HP : parse_http_date (http_date t) = match (if valid_dt (mkDT y' m d h mi x) then Some (timegm (mkDT y' m d h mi x)) else None) with
                                               | Some t => Ok t | None => Err TypeError end).
  { unfold http_date. rewrite parse_http_date_eq, E. cbn [dt_y dt_mo dt_d dt_h dt_mi dt_s].
    assert (HA : match_any (day_name (weekday t) ++ !", " ++ pad2 d ++ !" " ++ month_name m ++ !" " ++ pad4 y
      ++ !" " ++ pad2 h ++ !":" ++ pad2 mi ++ !":" ++ pad2 x ++ !" GMT") = Some (mkDM (pad4 y) (month_name m) (pad2 d) (pad2 h) (pad2 mi) (pad2 x))).
    { apply match_any_iff.
      pose proof (dt_rfc1123 (day_name (weekday t)) (pad2 d) (month_name m) (pad4 y) (pad2 h) (pad2 mi) (pad2 x) []) as HC.
      unfold clock in HC. rewrite <- !app_assoc in HC. rewrite app_nil_r in HC.
      apply HC; try (apply two_pad2; lia); [apply day_cases, weekday_range|apply month_cases; lia|apply four_pad4; lia|now left]. }
    rewrite HA. unfold date_of_match. cbn [m_year m_mon m_day m_hour m_min m_sec].
    rewrite py_int_pad4 by lia. destruct (month_cases m) as [_ HMo]; [lia|]. rewrite HMo, !py_int_pad2 by lia.
    replace (m - 1 + 1)%Z with m by lia. unfold y'. destruct (Z.ltb_spec y 100); [reflexivity|lia]. }
  rewrite HP. split.
  - intros t'. rewrite moment_iff. destruct (valid_dt (mkDT y' m d h mi x)) eqn:EV.
    + apply valid_dt_iff in EV. cbn [dt_y dt_mo dt_d dt_h dt_mi dt_s] in EV. split; [intros [= <-]; repeat (split; [lia|]); reflexivity|].
      intros (_ & _ & _ & _ & _ & _ & ->). reflexivity.
    + split; [discriminate|]. intros (Q1 & Q2 & Q3 & Q4 & Q5 & Q6 & _). enough (valid_dt (mkDT y' m d h mi x) = true) by congruence.
      apply valid_dt_iff. cbn [dt_y dt_mo dt_d dt_h dt_mi dt_s]. lia.
  - destruct (valid_dt (mkDT y' m d h mi x)) eqn:EV; [|discriminate]. intros [= EQ]. rewrite ET in EQ. apply timegm_inj in EQ; [|exact EV|].
    + injection EQ as EQ. lia.
    + apply valid_dt_iff. cbn [dt_y dt_mo dt_d dt_h dt_mi dt_s]. lia.
Qed.
Print Assumptions C70_first_century_misread.
Example C70_first_century_case :
  moment 96 2 29 0 0 0 (-59132592000) /\ http_date (-59132592000) = !"Wed, 29 Feb 0096 00:00:00 GMT" /\
  parse_http_date !"Wed, 29 Feb 0096 00:00:00 GMT" = Ok 825552000%Z /\
  http_date (-1) = !"Wed, 31 Dec 1969 23:59:59 GMT" /\ parse_http_date !"Thu, 29 Feb 0004 00:00:00 GMT" = Ok 1078012800%Z.
Proof. split; [apply moment_iff; vm_compute; repeat split; congruence|]. repeat split; vm_compute; reflexivity. Qed.
Example C70_written_case :
  moment 2000 2 29 23 59 1 951868741 /\ written 2000 2 29 23 59 1 Preferred !"Tue, 29 Feb 2000 23:59:01 GMT" /\
  http_date 951868741 = !"Tue, 29 Feb 2000 23:59:01 GMT" /\
  written 2000 2 29 23 59 1 Obsolete850 !"Tuesday, 29-Feb-00 23:59:01 GMT".
Proof.
  assert (HM : moment 2000 2 29 23 59 1 951868741) by (apply moment_iff; vm_compute; repeat split; congruence).
  split; [exact HM|]. split; [apply (C70_http_date_written _ _ _ _ _ _ _ HM); [lia|]; vm_compute; reflexivity|]. split; [vm_compute; reflexivity|].
  assert (DT : forall n, (0 <= n < 100)%Z -> digits 2 n (pad2 n)) by (intros n Hn; now apply digits_pad2).
  apply (written_850 2000 2 29 23 59 1 !"Tue" !"Tuesday" !"Feb" 29 0 (pad2 0) (pad2 29) (pad2 23) (pad2 59) (pad2 1)); try (apply DT; lia); [| |lia].
  - exists 730178%Z, 719162%Z, 5. split; [apply (day_exists 2000 2 29); [lia|lia|vm_compute; split; congruence]|]. split; [now apply epoch_day|].
    split; [reflexivity|]. exists 1573%Z. reflexivity.
  - apply (month_exists 2 2000). lia.
Qed.

(** ** C71 *)
Lemma word_char_iff c : is_word c = true <-> word_char c.
Proof.
  unfold is_word, is_alnum, is_alpha, is_upper, is_lower, is_digit, word_char. rewrite !orb_true_iff, !andb_true_iff, !N.leb_le, N.eqb_eq. lia.
Qed.
Lemma word_iff lo hi s : word lo hi s <-> lo <= length s <= hi /\ forallb is_word s = true.
Proof.
  unfold word. rewrite forallb_forall. split; intros [H1 H2]; (split; [exact H1|]); intros c Hc; now apply word_char_iff, H2.
Qed.
Lemma word3_iff s : word 3 3 s <-> three_word s.
Proof. rewrite word_iff. unfold three_word. split; intros [H1 H2]; (split; [lia|exact H2]). Qed.
Lemma field_iff w s : field w s <-> length s = w /\ forallb is_digit s = true.
Proof. unfold field. now rewrite decimal_iff. Qed.
Lemma shaped_iff Y Mo D H M S s : shaped Y Mo D H M S s <-> date_text s (mkDM Y Mo D H M S).
Proof.
  split.
  - intros [w e H1 H2 H3 H4 H5 H6 H7 H8|w e H1 H2 H3 H4 H5 H6 H7 H8|w e H1 H2 H3 H4 H5 H6 H7 H8].
    + apply (dt_rfc1123 w D Mo Y H M S e); try (now apply word3_iff); try (now apply field_iff); exact H8.
    + apply word_iff in H1 as [L1 L2]. apply (dt_rfc850 w D Mo Y H M S e); try assumption; try (now apply word3_iff); try (now apply field_iff); exact H8.
    + apply (dt_asctime w D Mo Y H M S e); try (now apply word3_iff); try (now apply field_iff); try exact H8.
      destruct H2 as [H2|(D1 & -> & H2)]; [left; now apply field_iff|right]. apply field_iff in H2 as [L F].
      destruct D1 as [|c [|]]; try discriminate L. exists c. split; [reflexivity|]. cbn in F. now rewrite andb_true_r in F.
  - intros HX. inversion HX as [w d mo y h mi x e H1 H2 H3 H4 H5 H6 H7 H8|w d mo y h mi x e H1 H1' H2 H3 H4 H5 H6 H7 H8|w d mo y h mi x e H1 H2 H3 H4 H5 H6 H7 H8]; subst.
    + apply (shaped_preferred Y Mo D H M S w e); try (now apply word3_iff); try (now apply field_iff); exact H8.
    + apply (shaped_850 Y Mo D H M S w e); try (now apply word_iff); try (now apply word3_iff); try (now apply field_iff); exact H8.
    + apply (shaped_asctime Y Mo D H M S w e); try (now apply word3_iff); try (now apply field_iff); try exact H8.
      destruct H2 as [H2|(c & -> & H2)]; [left; now apply field_iff|right]. exists [c]. split; [reflexivity|]. apply field_iff. cbn. now rewrite H2.
Qed.
Lemma int_digits_value s : decimal s -> forall a, int_digits 10 a s = Some (Z.to_N (fold_left (fun a c => 10 * a + (Z.of_N c - 48))%Z s (Z.of_N a))).
Proof.
  induction s as [|c s IH]; intros H a; [cbn; now rewrite N2Z.id|]. cbn [int_digits fold_left].
  assert (Hc : (48 <= c <= 57)%N) by (apply H; now left). assert (Hd : is_digit c = true) by (unfold is_digit; rewrite andb_true_iff, !N.leb_le; lia).
  unfold digit_val. rewrite Hd. replace (N.ltb (c - 48) 10) with true by (symmetry; apply N.ltb_lt; lia).
  rewrite IH by (intros x Hx; apply H; now right). do 2 f_equal. f_equal. lia.
Qed.
Lemma value_nonneg s : decimal s -> forall a, (0 <= a)%Z -> (0 <= fold_left (fun a c => 10 * a + (Z.of_N c - 48))%Z s a)%Z.
Proof.
  induction s as [|c s IH]; intros H a Ha; [exact Ha|]. cbn [fold_left]. apply IH; [intros x Hx; apply H; now right|].
  assert (48 <= c <= 57)%N by (apply H; now left). lia.
Qed.
Lemma py_int_value s : decimal s -> s <> [] -> py_int 10 s = Some (value s).
Proof.
  intros H Hne. rewrite py_int_digits by (try easy; now apply decimal_iff). rewrite int_digits_value by exact H. cbn [option_map]. f_equal.
  pose proof (value_nonneg s H 0 ltac:(lia)). unfold value. change (Z.of_N 0) with 0%Z. lia.
Qed.
Lemma py_int_blank s : py_int 10 (!" " ++ s) = py_int 10 s.
Proof. unfold py_int. change (strip (!" " ++ s)) with (strip s). reflexivity. Qed.
Lemma number_py s z : number s z -> py_int 10 s = Some z.
Proof. intros (s1 & [->| ->] & H1 & H2 & <-); rewrite ?py_int_blank; now apply py_int_value. Qed.
Lemma py_number w s z : field (S w) s -> py_int 10 s = Some z <-> number s z.
Proof.
  intros [HL HD]. assert (s <> []) by (intros ->; discriminate HL). split; [|apply number_py]. rewrite py_int_value by assumption. intros [= <-].
  exists s. split; [now left|]. split; [exact HD|]. split; [assumption|reflexivity].
Qed.
Lemma shaped_fields Y Mo D H M S s : shaped Y Mo D H M S s ->
  (forall z, py_int 10 Y = Some z <-> number Y z) /\ (forall z, py_int 10 D = Some z <-> number D z) /\ (forall z, py_int 10 H = Some z <-> number H z) /\
  (forall z, py_int 10 M = Some z <-> number M z) /\ (forall z, py_int 10 S = Some z <-> number S z).
Proof.
  intros [w e H1 H2 H3 H4 H5 H6 H7 H8|w e H1 H2 H3 H4 H5 H6 H7 H8|w e H1 H2 H3 H4 H5 H6 H7 H8].
  1,2: repeat split; intros; try (apply (py_number 1); assumption); try (now apply number_py); try (eapply (py_number 1); eassumption); eapply (py_number 3); eassumption.
  assert (HD : forall z, py_int 10 D = Some z <-> number D z).
  { destruct H2 as [H2|(D1 & -> & H2)]; [intros z; now apply (py_number 1)|]. intros z. split; [|apply number_py]. rewrite py_int_blank. intros Hz.
    apply (py_number 0) in Hz; [|exact H2]. destruct H2 as [L F]. exists D1. split; [now right|]. split; [exact F|]. split; [intros ->; discriminate L|].
    apply number_py in Hz. rewrite py_int_value in Hz; [congruence|exact F|intros ->; discriminate L]. }
  split; [intros z; now apply (py_number 3)|]. split; [exact HD|]. repeat split; intros; try (now apply number_py); eapply (py_number 1); eassumption.
Qed.
Lemma number_nonneg s z : number s z -> (0 <= z)%Z.
Proof. intros (s1 & _ & H & _ & <-). apply value_nonneg; [exact H|lia]. Qed.
Lemma means_denotes Y Mo D H M S s y m d h mi x : shaped Y Mo D H M S s ->
  denotes (mkDM Y Mo D H M S) (mkDT y m d h mi x) <-> fields_mean Y Mo D H M S y m d h mi x /\ exists t, moment y m d h mi x t.
Proof.
  intros HS. pose proof HS as HT%shaped_iff. destruct (shaped_fields _ _ _ _ _ _ _ HS) as (FY & FD & FH & FM & FS).
  unfold denotes, fields_mean. cbn [m_year m_mon m_day m_hour m_min m_sec dt_y dt_mo dt_d dt_h dt_mi dt_s]. split.
  - intros (c & E1 & Hy & Hm & E2 & E3 & Hd & E4 & Hh & E5 & Hi & E6 & Hx). apply FY in E1. apply FD in E3. apply FH in E4. apply FM in E5. apply FS in E6.
    pose proof (number_nonneg _ _ E1). split.
    + split; [exists c; split; [exact E1|unfold year_meant; lia]|]. split; [|now repeat split].
      exists (month_name m), (days_in_month y m). split; [now apply month_exists|exact E2].
    + eexists. apply moment_iff. repeat (split; [lia|]). reflexivity.
  - intros [((c & E1 & Hy) & (nm & len & Mo' & E2) & E3 & E4 & E5 & E6) [t HM]]. apply month_len in Mo' as (Hm & -> & _).
    apply moment_iff in HM as (K1 & K2 & K3 & K4 & K5 & K6 & _). exists c. split; [now apply FY|]. split; [unfold year_meant in Hy; lia|]. split; [exact Hm|]. split; [exact E2|].
    split; [now apply FD|]. split; [exact K3|]. split; [now apply FH|]. split; [exact K4|]. split; [now apply FM|]. split; [exact K5|]. split; [now apply FS|exact K6].
Qed.
(** Exactly these texts are read, as these moments; a text of the right shape that is no moment raises TypeError, any other text ValueError *)
Theorem C71_read :
  forall s t, parse_http_date s = Ok t <->
    exists Y Mo D H M S y m d h mi x, shaped Y Mo D H M S s /\ fields_mean Y Mo D H M S y m d h mi x /\ moment y m d h mi x t.
Proof.
  intros s t. split.
  - intros E. destruct (C71_parsed_dates_exist s t E) as ([Y Mo D H M S] & [y m d h mi x] & c & HT & Ht & Hr & E1 & Hy & E2 & E3 & E4 & E5 & E6).
    cbn [m_year m_mon m_day m_hour m_min m_sec dt_y dt_mo dt_d dt_h dt_mi dt_s] in *. exists Y, Mo, D, H, M, S, y, m, d, h, mi, x.
    pose proof HT as HS%shaped_iff. split; [exact HS|].
    assert (HD : denotes (mkDM Y Mo D H M S) (mkDT y m d h mi x)) by (exists c; cbn; repeat (split; [tauto || lia|]); tauto).
    apply (means_denotes _ _ _ _ _ _ _ _ _ _ _ _ _ HS) in HD as [HF [t' HM]]. split; [exact HF|].
    pose proof HM as (_ & _ & _ & _ & _ & _ & E')%moment_iff. now rewrite <- Ht, <- E'.
  - intros (Y & Mo & D & H & M & S & y & m & d & h & mi & x & HS & HF & HM). pose proof HM as (_ & _ & _ & _ & _ & _ & ->)%moment_iff.
    apply (C71_exact s (mkDM Y Mo D H M S)); [now apply shaped_iff|]. apply (means_denotes _ _ _ _ _ _ _ _ _ _ _ _ _ HS). split; [exact HF|eauto].
Qed.
Print Assumptions C71_read.
Theorem C71_not_read :
  forall s e, parse_http_date s = Err e <->
    (forall Y Mo D H M S, ~ shaped Y Mo D H M S s) /\ e = ValueError \/
    (exists Y Mo D H M S, shaped Y Mo D H M S s /\ (forall y m d h mi x t, ~ (fields_mean Y Mo D H M S y m d h mi x /\ moment y m d h mi x t)) /\ e = TypeError).
Proof.
  intros s e. split.
  - intros E. destruct (C71_outcomes_partial s) as [(t & Ht & _)|[HV _]]; [congruence|]. destruct HV as [HV|HV]; rewrite HV in E; injection E as <-.
    + left. split; [|reflexivity]. intros Y Mo D H M S HS%shaped_iff. apply C71_bad_shape_valueerror in HV. apply HV. eauto.
    + right. destruct (match_any s) as [[Y Mo D H M S]|] eqn:EM; [|rewrite parse_http_date_eq, EM in HV; discriminate HV].
      apply match_any_iff, shaped_iff in EM. exists Y, Mo, D, H, M, S. split; [exact EM|]. split; [|reflexivity].
      intros y m d h mi x t [HF HM]. assert (K : parse_http_date s = Ok t) by (apply C71_read; now exists Y, Mo, D, H, M, S, y, m, d, h, mi, x). congruence.
  - intros [[HN ->]|(Y & Mo & D & H & M & S & HS & HN & ->)].
    + apply C71_bad_shape_valueerror. intros [[Y Mo D H M S] HT%shaped_iff]. exact (HN _ _ _ _ _ _ HT).
    + apply (C71_exact s (mkDM Y Mo D H M S)); [now apply shaped_iff|]. intros [y m d h mi x] HD.
      apply (means_denotes _ _ _ _ _ _ _ _ _ _ _ _ _ HS) in HD as [HF [t HM]]. exact (HN _ _ _ _ _ _ t (conj HF HM)).
Qed.
Print Assumptions C71_not_read.
Example C71_read_case :
  parse_http_date (!"xyz feb  9 00:00:00 0069" ++ [10%N]) = Ok 3127593600%Z /\
  parse_http_date !"Sun, 29 Feb 1900 00:00:00 GMT" = Err TypeError /\ parse_http_date !"Sun, 9 Feb 2000 00:00:00 GMT" = Err ValueError.
Proof. vm_compute. repeat split. Qed.
