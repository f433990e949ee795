(** * Proofs about HTTP dates *)
From Coq Require Import ZifyN ZifyNat.
From Verif Require Import Py Spec PyFacts DateModel.

Ltac Zify.zify_post_hook ::= Z.div_mod_to_equations.

(** ** The calendar *)
Definition year_len (y : Z) : Z := if is_leap y then 366%Z else 365%Z.
Lemma days_before_year_step y : (days_before_year (y + 1) = days_before_year y + year_len y)%Z.
Proof.
  unfold days_before_year, year_len, is_leap.
  destruct (Z.eqb_spec (y mod 4) 0), (Z.eqb_spec (y mod 100) 0), (Z.eqb_spec (y mod 400) 0); cbn [andb negb orb]; lia.
Qed.
Lemma year_len_ge y : (365 <= year_len y <= 366)%Z.
Proof. unfold year_len. destruct (is_leap y); lia. Qed.

Lemma year_loop_spec : forall fuel y days, (0 <= days < 365 * Z.of_nat fuel)%Z ->
  exists y' d, year_loop fuel y days = (y', d) /\ (y <= y')%Z /\ (0 <= d < year_len y')%Z /\
    (days_before_year y' + d = days_before_year y + days)%Z.
Proof.
  induction fuel as [|fuel IH]; intros y days H; [lia|]. cbn [year_loop]. fold (year_len y).
  pose proof (year_len_ge y) as HY. destruct (Z.ltb_spec days (year_len y)).
  - exists y, days. repeat split; lia.
  - destruct (IH (y + 1)%Z (days - year_len y)%Z) as (y' & d & H1 & H2 & H3 & H4); [lia|].
    exists y', d. rewrite H1. repeat split; try lia. rewrite days_before_year_step in H4. lia.
Qed.

Lemma days_before_month_step y m : (1 <= m)%Z ->
  (days_before_month y (m + 1) = days_before_month y m + days_in_month y m)%Z.
Proof.
  intros H. unfold days_before_month. replace (Z.to_nat (m + 1 - 1)) with (S (Z.to_nat (m - 1))) by lia.
  cbn [days_before_month_nat]. do 2 f_equal. lia.
Qed.
Lemma days_before_month_13 y : days_before_month y 13 = year_len y.
Proof.
  unfold days_before_month, year_len. change (Z.to_nat (13 - 1)) with 12. cbn [days_before_month_nat].
  unfold days_in_month. cbn [Z.of_nat Pos.of_succ_nat Pos.succ Z.eqb Pos.eqb orb]. now destruct (is_leap y).
Qed.
Lemma month_loop_inv y : forall fuel m d, (1 <= m)%Z -> (m + Z.of_nat fuel = 13)%Z -> (0 <= d)%Z ->
  (days_before_month y m + d < year_len y)%Z ->
  exists m' d', month_loop fuel y m d = (m', d') /\ (m <= m' <= 12)%Z /\ (0 <= d' < days_in_month y m')%Z /\
    (days_before_month y m' + d' = days_before_month y m + d)%Z.
Proof.
  induction fuel as [|fuel IH]; intros m d Hm Hf Hd H.
  - assert (m = 13)%Z as -> by lia. rewrite days_before_month_13 in H. lia.
  - cbn [month_loop]. destruct (Z.ltb_spec d (days_in_month y m)).
    + exists m, d. repeat split; lia.
    + pose proof (days_before_month_step y m Hm) as HS.
      destruct (IH (m + 1)%Z (d - days_in_month y m)%Z) as (m' & d' & H1 & H2 & H3 & H4); try lia.
      exists m', d'. rewrite H1. repeat split; lia.
Qed.
Lemma month_loop_spec y d : (0 <= d < year_len y)%Z ->
  exists m d', month_loop 12 y 1 d = (m, d') /\ (1 <= m <= 12)%Z /\ (0 <= d' < days_in_month y m)%Z /\
    (days_before_month y m + d' = d)%Z.
Proof.
  intros H. destruct (month_loop_inv y 12 1 d) as (m & d' & H1 & H2 & H3 & H4); try lia.
  - change (days_before_month y 1) with 0%Z. lia.
  - exists m, d'. change (days_before_month y 1) with 0%Z in H4. repeat split; try easy; lia.
Qed.

(** ** gmtime and timegm *)
Definition max_time : Z := 253402300800%Z.      (* 10000-01-01 00:00:00 *)

Definition min_time : Z := (-62135596800)%Z.    (* 0001-01-01 00:00:00 *)
Definition y100 : Z := (-59011459200)%Z.        (* 0100-01-01 00:00:00 *)

(** 400 years later *)
Lemma dby_cycle y c : (days_before_year (y - 400 * c) = days_before_year y - 146097 * c)%Z.
Proof. unfold days_before_year. lia. Qed.
Lemma leap_cycle y c : is_leap (y - 400 * c) = is_leap y.
Proof.
  unfold is_leap. replace ((y - 400 * c) mod 4)%Z with (y mod 4)%Z by lia. replace ((y - 400 * c) mod 100)%Z with (y mod 100)%Z by lia.
  now replace ((y - 400 * c) mod 400)%Z with (y mod 400)%Z by lia.
Qed.
Lemma dim_cycle y c m : days_in_month (y - 400 * c) m = days_in_month y m.
Proof. unfold days_in_month. now rewrite leap_cycle. Qed.
Lemma dbm_cycle y c m : days_before_month (y - 400 * c) m = days_before_month y m.
Proof. unfold days_before_month. induction (Z.to_nat (m - 1)) as [|n IH]; [reflexivity|]. cbn [days_before_month_nat]. now rewrite IH, dim_cycle. Qed.
Lemma dby_mono0 y1 y2 : (y1 <= y2)%Z -> (days_before_year y1 <= days_before_year y2)%Z.
Proof. intros H. unfold days_before_year. lia. Qed.

Lemma gmtime_spec t : (min_time <= t < max_time)%Z ->
  valid_dt (gmtime t) = true /\ timegm (gmtime t) = t /\ (1 <= dt_y (gmtime t) <= 9999)%Z /\
  ((0 <= t)%Z -> (1970 <= dt_y (gmtime t))%Z) /\ ((y100 <= t)%Z -> (100 <= dt_y (gmtime t))%Z).
Proof.
  intros Ht. unfold max_time, min_time in Ht. unfold gmtime. cbv zeta.
  set (c := if Z.ltb (t / 86400) 0 then ((146096 - t / 86400) / 146097)%Z else 0%Z). assert (HC : (0 <= t / 86400 + 146097 * c)%Z).
  { unfold c. destruct (Z.ltb_spec (t / 86400) 0); lia. }
  clearbody c. set (days := (t / 86400 + 146097 * c)%Z) in *.
  destruct (year_loop_spec (S (Z.to_nat (days / 365))) 1970 days) as (y & d & H1 & H2 & H3 & H4).
  { lia. }
  rewrite H1. destruct (month_loop_spec y d H3) as (m & d' & G1 & G2 & G3 & G4). rewrite G1.
  change (days_before_year 1970) with 719162%Z in H4. pose proof (dby_cycle y c) as HB.
  rewrite <- (dim_cycle y c) in G3. rewrite <- (dbm_cycle y c) in G4. assert (H3' : (0 <= d < year_len (y - 400 * c))%Z) by (unfold year_len; now rewrite leap_cycle).
  assert (HD : (days_before_year (y - 400 * c) + d = 719162 + t / 86400)%Z) by lia. cbv zeta. cbn [dt_y dt_mo dt_d dt_h dt_mi dt_s].
  set (z := (y - 400 * c)%Z) in *. clearbody z. clear H1 G1 H2 H3 H4 HB HC. clearbody days.
  pose proof (days_before_year_step z) as HS.
  assert (HY : forall k, (days_before_year (k + 1) <= 719162 + t / 86400 -> k < z)%Z).
  { intros k Hk. destruct (Z.lt_ge_cases k z) as [|Hge]; [easy|exfalso]. pose proof (dby_mono0 (z + 1) (k + 1) ltac:(lia)). lia. }
  assert (Hy : (z <= 9999)%Z).
  { destruct (Z.le_gt_cases z 9999) as [|Hgt]; [easy|exfalso]. pose proof (dby_mono0 10000 z ltac:(lia)) as P. change (days_before_year 10000) with 3652059%Z in P. lia. }
  assert (Hy1 : (0 < z)%Z) by (apply HY; change (days_before_year (0 + 1)) with 0%Z; lia).
  split; [|split; [|split; [lia|split]]].
  - unfold valid_dt. cbn [dt_y dt_mo dt_d dt_h dt_mi dt_s]. rewrite !andb_true_iff, !Z.leb_le. lia.
  - unfold timegm. cbn [dt_y dt_mo dt_d dt_h dt_mi dt_s]. unfold toordinal, epoch_ord. lia.
  - intros H0. enough (1969 < z)%Z by lia. apply HY. change (days_before_year (1969 + 1)) with 719162%Z. lia.
  - unfold y100. intros H0. enough (99 < z)%Z by lia. apply HY. change (days_before_year (99 + 1)) with 36159%Z. lia.
Qed.

(** ** Digits *)
Lemma digit_spec d : (0 <= d < 10)%Z -> is_digit (digit d) = true /\ digit_val (digit d) = Some (Z.to_N d).
Proof.
  intros H. assert (Hd : is_digit (digit d) = true).
  { unfold is_digit, digit. rewrite andb_true_iff, !N.leb_le. lia. }
  split; [easy|]. unfold digit_val. rewrite Hd. f_equal. unfold digit. lia.
Qed.
Lemma digit_not_ws c : is_digit c = true -> is_ws c = false /\ N.eqb c 45 = false /\ N.eqb c 43 = false.
Proof.
  unfold is_digit, is_ws. rewrite andb_true_iff, !N.leb_le. intros H.
  repeat split; [apply orb_false_iff; split; [apply andb_false_iff; right; apply N.leb_gt|apply N.eqb_neq]|apply N.eqb_neq|apply N.eqb_neq]; lia.
Qed.
Lemma py_int_digits s : s <> [] -> forallb is_digit s = true ->
  py_int 10 s = option_map Z.of_N (int_digits 10 0 s).
Proof.
  intros Hne H. unfold py_int. rewrite forallb_forall in H.
  assert (Hs : strip s = s).
  { apply strip_by_tight, tight_by_all. intros c Hc. now apply digit_not_ws, H. }
  rewrite Hs. destruct s as [|c s]; [easy|].
  destruct (digit_not_ws c) as (_ & H1 & H2); [apply H; now left|]. now rewrite H1, H2.
Qed.
Lemma int_digits_all s : forallb is_digit s = true -> forall a, exists n, int_digits 10 a s = Some n.
Proof.
  induction s as [|c s IH]; intros H a; [now exists a|]. cbn in H. apply andb_true_iff in H as [Hc H].
  cbn [int_digits]. unfold digit_val. rewrite Hc.
  assert (Hlt : N.ltb (c - 48) 10 = true).
  { unfold is_digit in Hc. rewrite andb_true_iff, !N.leb_le in Hc. apply N.ltb_lt. lia. }
  rewrite Hlt. now apply IH.
Qed.
Lemma py_int_pad2 n : (0 <= n < 100)%Z -> py_int 10 (pad2 n) = Some n.
Proof.
  intros H. destruct (digit_spec (n / 10 mod 10)) as [A1 A2]; [lia|]. destruct (digit_spec (n mod 10)) as [B1 B2]; [lia|].
  unfold pad2. rewrite py_int_digits; [|easy|cbn; now rewrite A1, B1]. cbn [int_digits]. rewrite A2, B2.
  replace (N.ltb (Z.to_N (n / 10 mod 10)) 10) with true by (symmetry; apply N.ltb_lt; lia).
  replace (N.ltb (Z.to_N (n mod 10)) 10) with true by (symmetry; apply N.ltb_lt; lia).
  cbn [option_map]. f_equal. lia.
Qed.
Lemma py_int_pad4 n : (0 <= n < 10000)%Z -> py_int 10 (pad4 n) = Some n.
Proof.
  intros H. destruct (digit_spec (n / 10 mod 10)) as [A1 A2]; [lia|]. destruct (digit_spec (n mod 10)) as [B1 B2]; [lia|].
  destruct (digit_spec (n / 100 mod 10)) as [C1 C2]; [lia|]. destruct (digit_spec (n / 1000 mod 10)) as [D1 D2]; [lia|].
  unfold pad4. rewrite py_int_digits; [|easy|cbn; now rewrite A1, B1, C1, D1]. cbn [int_digits]. rewrite A2, B2, C2, D2.
  replace (N.ltb (Z.to_N (n / 10 mod 10)) 10) with true by (symmetry; apply N.ltb_lt; lia).
  replace (N.ltb (Z.to_N (n / 100 mod 10)) 10) with true by (symmetry; apply N.ltb_lt; lia).
  replace (N.ltb (Z.to_N (n / 1000 mod 10)) 10) with true by (symmetry; apply N.ltb_lt; lia).
  replace (N.ltb (Z.to_N (n mod 10)) 10) with true by (symmetry; apply N.ltb_lt; lia).
  cbn [option_map]. f_equal. lia.
Qed.
Lemma pad2_digits n : (0 <= n < 100)%Z -> forallb is_digit (pad2 n) = true.
Proof.
  intros H. destruct (digit_spec (n / 10 mod 10)) as [A1 A2]; [lia|]. destruct (digit_spec (n mod 10)) as [B1 B2]; [lia|].
  cbn. now rewrite A1, B1.
Qed.
Lemma pad4_digits n : (0 <= n < 10000)%Z -> forallb is_digit (pad4 n) = true.
Proof.
  intros H. destruct (digit_spec (n / 10 mod 10)) as [A1 A2]; [lia|]. destruct (digit_spec (n mod 10)) as [B1 B2]; [lia|].
  destruct (digit_spec (n / 100 mod 10)) as [C1 C2]; [lia|]. destruct (digit_spec (n / 1000 mod 10)) as [D1 D2]; [lia|].
  cbn. now rewrite A1, B1, C1, D1.
Qed.

(** ** Matching *)
Lemma take_app f n a t : length a = n -> forallb f a = true -> take f n (a ++ t) = Some (a, t).
Proof.
  intros <- Hf. unfold take. rewrite app_length, firstn_app_exact, skipn_app_exact, Hf.
  now replace (Nat.leb (length a) (length a + length t)) with true by (symmetry; apply Nat.leb_le; lia).
Qed.
Lemma take_Some f n s a t : take f n s = Some (a, t) -> s = a ++ t /\ length a = n /\ forallb f a = true.
Proof.
  unfold take. destruct (Nat.leb_spec n (length s)); cbn [andb]; [|easy].
  destruct (forallb f (firstn n s)) eqn:E; [|easy]. intros [= <- <-].
  rewrite firstn_skipn, firstn_length. repeat split; [lia|easy].
Qed.
Lemma take_lit_app p t : take_lit p (p ++ t) = Some t.
Proof. unfold take_lit. now rewrite prefixb_app, skipn_app_exact. Qed.
Lemma take_lit_Some p s t : take_lit p s = Some t -> s = p ++ t.
Proof. unfold take_lit. destruct (prefixb p s) eqn:E; [|easy]. intros [= <-]. now apply prefixb_skip. Qed.

Definition two_digits (s : str) : Prop := length s = 2 /\ forallb is_digit s = true.
Definition four_digits (s : str) : Prop := length s = 4 /\ forallb is_digit s = true.
Definition three_word (s : str) : Prop := length s = 3 /\ forallb is_word s = true.
Definition clock (h mi x : str) : str := h ++ !":" ++ mi ++ !":" ++ x.
(** an optional newline at the very end, which '$' lets by *)
Definition ending (e : str) : Prop := e = [] \/ e = [LF].

(** the three date formats of RFC 7231 as they are accepted *)
Inductive date_text : str -> dmatch -> Prop :=
| dt_rfc1123 w d mo y h mi x e :
    three_word w -> two_digits d -> three_word mo -> four_digits y ->
    two_digits h -> two_digits mi -> two_digits x -> ending e ->
    date_text (w ++ !", " ++ d ++ !" " ++ mo ++ !" " ++ y ++ !" " ++ clock h mi x ++ !" GMT" ++ e)
              (mkDM y mo d h mi x)
| dt_rfc850 w d mo y h mi x e :
    6 <= length w <= 9 -> forallb is_word w = true -> two_digits d -> three_word mo -> two_digits y ->
    two_digits h -> two_digits mi -> two_digits x -> ending e ->
    date_text (w ++ !", " ++ d ++ !"-" ++ mo ++ !"-" ++ y ++ !" " ++ clock h mi x ++ !" GMT" ++ e)
              (mkDM y mo d h mi x)
| dt_asctime w d mo y h mi x e :
    three_word w -> (two_digits d \/ exists c, d = [32%N; c] /\ is_digit c = true) -> three_word mo -> four_digits y ->
    two_digits h -> two_digits mi -> two_digits x -> ending e ->
    date_text (w ++ !" " ++ mo ++ !" " ++ d ++ !" " ++ clock h mi x ++ !" " ++ y ++ e)
              (mkDM y mo d h mi x).

Lemma at_end_iff e : at_end e = true <-> ending e.
Proof.
  unfold ending. destruct e as [|c [|c' e]]; cbn; [tauto| |].
  - rewrite N.eqb_eq. split; [intros ->; now right|intros [H|H]; [easy|now injection H]].
  - split; [easy|]. intros [H|H]; discriminate.
Qed.
Lemma take_time_app h mi x t : two_digits h -> two_digits mi -> two_digits x ->
  take_time (clock h mi x ++ t) = Some (h, mi, x, t).
Proof.
  intros [H1 H2] [M1 M2] [X1 X2]. unfold take_time, clock. rewrite <- !app_assoc.
  now rewrite take_app, take_lit_app, take_app, take_lit_app, take_app.
Qed.
Lemma take_time_Some s h mi x t : take_time s = Some (h, mi, x, t) ->
  s = clock h mi x ++ t /\ two_digits h /\ two_digits mi /\ two_digits x.
Proof.
  unfold take_time. destruct (take is_digit 2 s) as [[h' s1]|] eqn:E1; [|easy].
  destruct (take_lit !":" s1) as [s2|] eqn:E2; [|easy].
  destruct (take is_digit 2 s2) as [[m' s3]|] eqn:E3; [|easy].
  destruct (take_lit !":" s3) as [s4|] eqn:E4; [|easy].
  destruct (take is_digit 2 s4) as [[x' s5]|] eqn:E5; [|easy]. intros [= <- <- <- <-].
  apply take_Some in E1 as (-> & ? & ?). apply take_lit_Some in E2 as ->. apply take_Some in E3 as (-> & ? & ?).
  apply take_lit_Some in E4 as ->. apply take_Some in E5 as (-> & ? & ?).
  unfold clock. rewrite <- !app_assoc. repeat split; easy.
Qed.
Lemma span_word_spec s a b : span_word s = (a, b) ->
  s = a ++ b /\ forallb is_word a = true /\ match b with [] => True | c :: _ => is_word c = false end.
Proof.
  revert a b; induction s as [|c s IH]; intros a b; cbn; [now intros [= <- <-]|].
  destruct (is_word c) eqn:E.
  - destruct (span_word s) as [a' b']. intros [= <- <-]. destruct (IH _ _ eq_refl) as (-> & H2 & H3).
    cbn. now rewrite E, H2.
  - intros [= <- <-]. now repeat split.
Qed.
Lemma span_word_app a c t : forallb is_word a = true -> is_word c = false ->
  span_word (a ++ c :: t) = (a, c :: t).
Proof.
  intros Ha Hc. induction a as [|x a IH]; cbn; [now rewrite Hc|].
  cbn in Ha. apply andb_true_iff in Ha as [-> Ha]. now rewrite IH.
Qed.

Definition match_any (s : str) : option dmatch :=
  match match_rfc1123 s with Some m => Some m | None =>
  match match_rfc850 s with Some m => Some m | None => match_asctime s end end.

Lemma match_rfc1123_text s m : match_rfc1123 s = Some m -> date_text s m.
Proof.
  unfold match_rfc1123.
  destruct (take is_word 3 s) as [[w s0]|] eqn:E0; [|easy]. destruct (take_lit !", " s0) as [s1|] eqn:E1; [|easy].
  destruct (take is_digit 2 s1) as [[d s2]|] eqn:E2; [|easy]. destruct (take_lit !" " s2) as [s3|] eqn:E3; [|easy].
  destruct (take is_word 3 s3) as [[mo s4]|] eqn:E4; [|easy]. destruct (take_lit !" " s4) as [s5|] eqn:E5; [|easy].
  destruct (take is_digit 4 s5) as [[y s6]|] eqn:E6; [|easy]. destruct (take_lit !" " s6) as [s7|] eqn:E7; [|easy].
  destruct (take_time s7) as [[[[h mi] x] s8]|] eqn:E8; [|easy]. destruct (take_lit !" GMT" s8) as [s9|] eqn:E9; [|easy].
  destruct (at_end s9) eqn:EA; [|easy]. intros [= <-]. apply at_end_iff in EA.
  apply take_Some in E0 as (-> & ? & ?). apply take_lit_Some in E1 as ->. apply take_Some in E2 as (-> & ? & ?).
  apply take_lit_Some in E3 as ->. apply take_Some in E4 as (-> & ? & ?). apply take_lit_Some in E5 as ->.
  apply take_Some in E6 as (-> & ? & ?). apply take_lit_Some in E7 as ->. apply take_time_Some in E8 as (-> & ? & ? & ?).
  apply take_lit_Some in E9 as ->. now apply dt_rfc1123.
Qed.
Lemma match_rfc850_text s m : match_rfc850 s = Some m -> date_text s m.
Proof.
  unfold match_rfc850. destruct (span_word s) as [w s0] eqn:E0.
  destruct (Nat.leb_spec 6 (length w)); cbn [andb negb]; [|easy].
  destruct (Nat.leb_spec (length w) 9); cbn [andb negb]; [|easy].
  destruct (take_lit !", " s0) as [s1|] eqn:E1; [|easy].
  destruct (take is_digit 2 s1) as [[d s2]|] eqn:E2; [|easy]. destruct (take_lit !"-" s2) as [s3|] eqn:E3; [|easy].
  destruct (take is_word 3 s3) as [[mo s4]|] eqn:E4; [|easy]. destruct (take_lit !"-" s4) as [s5|] eqn:E5; [|easy].
  destruct (take is_digit 2 s5) as [[y s6]|] eqn:E6; [|easy]. destruct (take_lit !" " s6) as [s7|] eqn:E7; [|easy].
  destruct (take_time s7) as [[[[h mi] x] s8]|] eqn:E8; [|easy]. destruct (take_lit !" GMT" s8) as [s9|] eqn:E9; [|easy].
  destruct (at_end s9) eqn:EA; [|easy]. intros [= <-]. apply at_end_iff in EA.
  apply span_word_spec in E0 as (-> & ? & ?). apply take_lit_Some in E1 as ->. apply take_Some in E2 as (-> & ? & ?).
  apply take_lit_Some in E3 as ->. apply take_Some in E4 as (-> & ? & ?). apply take_lit_Some in E5 as ->.
  apply take_Some in E6 as (-> & ? & ?). apply take_lit_Some in E7 as ->. apply take_time_Some in E8 as (-> & ? & ? & ?).
  apply take_lit_Some in E9 as ->. now apply dt_rfc850.
Qed.
Lemma match_asctime_text s m : match_asctime s = Some m -> date_text s m.
Proof.
  unfold match_asctime.
  destruct (take is_word 3 s) as [[w s0]|] eqn:E0; [|easy]. destruct (take_lit !" " s0) as [s1|] eqn:E1; [|easy].
  destruct (take is_word 3 s1) as [[mo s2]|] eqn:E2; [|easy]. destruct (take_lit !" " s2) as [s3|] eqn:E3; [|easy].
  destruct (take_day2 s3) as [[d s4]|] eqn:E4; [|easy]. destruct (take_lit !" " s4) as [s5|] eqn:E5; [|easy].
  destruct (take_time s5) as [[[[h mi] x] s6]|] eqn:E6; [|easy]. destruct (take_lit !" " s6) as [s7|] eqn:E7; [|easy].
  destruct (take is_digit 4 s7) as [[y s8]|] eqn:E8; [|easy].
  destruct (at_end s8) eqn:EA; [|easy]. intros [= <-]. apply at_end_iff in EA.
  apply take_Some in E0 as (-> & ? & ?). apply take_lit_Some in E1 as ->. apply take_Some in E2 as (-> & ? & ?).
  apply take_lit_Some in E3 as ->. apply take_lit_Some in E5 as ->. apply take_time_Some in E6 as (-> & ? & ? & ?).
  apply take_lit_Some in E7 as ->. apply take_Some in E8 as (-> & ? & ?).
  unfold take_day2 in E4. destruct s3 as [|a [|b t]]; try easy.
  destruct (N.eqb_spec a 32) as [->|Ha].
  - cbn [orb andb] in E4. destruct (is_digit b) eqn:Eb; [|easy]. injection E4 as <- ->.
    apply (dt_asctime w [32%N; b] mo y h mi x s8); try easy. right. now exists b.
  - cbn [orb] in E4. destruct (is_digit a) eqn:Ea; [|easy]. destruct (is_digit b) eqn:Eb; [|easy]. injection E4 as <- ->.
    apply (dt_asctime w [a; b] mo y h mi x s8); try easy. left. split; [easy|]. cbn. now rewrite Ea, Eb.
Qed.

(** the matcher finds exactly the date texts *)
Lemma take_word3_long w t : 4 <= length w -> forallb is_word w = true ->
  exists u v, take is_word 3 (w ++ t) = Some (u, v ++ t) /\ w = u ++ v /\ v <> [] /\ forallb is_word v = true.
Proof.
  intros HL HW. exists (firstn 3 w), (skipn 3 w). rewrite firstn_skipn. split; [|split; [easy|split]].
  - rewrite <- (firstn_skipn 3 w) at 1. rewrite <- app_assoc. apply take_app.
    + rewrite firstn_length. lia.
    + now apply forallb_firstn.
  - intros H. apply (f_equal (@length N)) in H. rewrite skipn_length in H. cbn in H. lia.
  - now apply forallb_skipn.
Qed.
Lemma take_lit_word_fail c p v t : v <> [] -> forallb is_word v = true -> is_word c = false ->
  take_lit (c :: p) (v ++ t) = None.
Proof.
  intros Hv HW Hc. destruct v as [|x v]; [easy|]. cbn in HW. apply andb_true_iff in HW as [Hx _].
  unfold take_lit. cbn [app prefixb]. destruct (N.eqb_spec c x) as [->|]; [congruence|easy].
Qed.

Theorem match_any_iff s m : match_any s = Some m <-> date_text s m.
Proof.
  unfold match_any. split.
  - destruct (match_rfc1123 s) as [m1|] eqn:E1; [intros [= <-]; now apply match_rfc1123_text|].
    destruct (match_rfc850 s) as [m2|] eqn:E2; [intros [= <-]; now apply match_rfc850_text|].
    apply match_asctime_text.
  - intros H. destruct H as [w d mo y h mi x e [W1 W2] [D1 D2] [M1 M2] [Y1 Y2] H MI X E
                            |w d mo y h mi x e W1 W2 [D1 D2] [M1 M2] [Y1 Y2] H MI X E
                            |w d mo y h mi x e [W1 W2] D [M1 M2] [Y1 Y2] H MI X E].
    + assert (HM : match_rfc1123 (w ++ !", " ++ d ++ !" " ++ mo ++ !" " ++ y ++ !" " ++ clock h mi x ++ !" GMT" ++ e)
                   = Some (mkDM y mo d h mi x)).
      { unfold match_rfc1123.
        rewrite (take_app _ 3 w) by easy. rewrite take_lit_app, (take_app _ 2 d) by easy. rewrite take_lit_app, (take_app _ 3 mo) by easy.
        rewrite take_lit_app, (take_app _ 4 y) by easy. rewrite take_lit_app, take_time_app by easy.
        rewrite take_lit_app. apply at_end_iff in E. now rewrite E. }
      now rewrite HM.
    + set (t := !", " ++ d ++ !"-" ++ mo ++ !"-" ++ y ++ !" " ++ clock h mi x ++ !" GMT" ++ e).
      assert (H1 : match_rfc1123 (w ++ t) = None).
      { unfold match_rfc1123. destruct (take_word3_long w t) as (u & v & Hu & _ & Hv1 & Hv2); [lia|easy|].
        rewrite Hu. cbn beta iota. pose proof (take_lit_word_fail 44%N [32%N] v t Hv1 Hv2 eq_refl) as HF.
        change (lit ", "%string) with [44%N; 32%N]. now rewrite HF. }
      rewrite H1.
      assert (H2 : match_rfc850 (w ++ t) = Some (mkDM y mo d h mi x)).
      { unfold match_rfc850. unfold t at 1.
        change (!", " ++ d ++ !"-" ++ mo ++ !"-" ++ y ++ !" " ++ clock h mi x ++ !" GMT" ++ e) with (44%N :: skipn 1 t).
        rewrite (span_word_app w 44%N (skipn 1 t)) by easy.
        replace (Nat.leb 6 (length w)) with true by (symmetry; apply Nat.leb_le; lia).
        replace (Nat.leb (length w) 9) with true by (symmetry; apply Nat.leb_le; lia). cbn [andb negb].
        change (44%N :: skipn 1 t) with t. unfold t.
        rewrite take_lit_app, (take_app _ 2 d) by easy. rewrite take_lit_app, (take_app _ 3 mo) by easy.
        rewrite take_lit_app, (take_app _ 2 y) by easy. rewrite take_lit_app, take_time_app by easy.
        rewrite take_lit_app. apply at_end_iff in E. now rewrite E. }
      now rewrite H2.
    + set (t := !" " ++ mo ++ !" " ++ d ++ !" " ++ clock h mi x ++ !" " ++ y ++ e).
      assert (H1 : match_rfc1123 (w ++ t) = None).
      { unfold match_rfc1123. rewrite (take_app _ 3 w) by easy. reflexivity. }
      assert (H2 : match_rfc850 (w ++ t) = None).
      { unfold match_rfc850. unfold t at 1.
        change (!" " ++ mo ++ !" " ++ d ++ !" " ++ clock h mi x ++ !" " ++ y ++ e) with (32%N :: skipn 1 t).
        rewrite (span_word_app w 32%N (skipn 1 t)) by easy. now rewrite W1. }
      rewrite H1, H2. unfold match_asctime. rewrite (take_app _ 3 w) by easy. unfold t.
      rewrite take_lit_app, (take_app _ 3 mo) by easy. rewrite take_lit_app.
      assert (HD : forall z, take_day2 (d ++ z) = Some (d, z)).
      { intros z. destruct D as [[D1 D2]|(c & -> & Hc)].
        - destruct d as [|a [|b [|]]]; try discriminate D1. cbn in D2. rewrite !andb_true_iff in D2.
          destruct D2 as (Da & Db & _). cbn. now rewrite Da, Db, orb_true_r.
        - cbn. now rewrite Hc. }
      rewrite HD, take_lit_app, take_time_app by easy. rewrite take_lit_app, (take_app _ 4 y) by easy.
      apply at_end_iff in E. now rewrite E.
Qed.

Lemma parse_http_date_eq s : parse_http_date s =
  match match_any s with
  | None => Err ValueError
  | Some m => match date_of_match m with Some t => Ok t | None => Err TypeError end
  end.
Proof. reflexivity. Qed.

(** ** Names *)
Lemma month_cases m : (1 <= m <= 12)%Z -> three_word (month_name m) /\
  index_of (lower (month_name m)) months_lower = Some (m - 1)%Z.
Proof.
  intros H. assert (HC : (m = 1 \/ m = 2 \/ m = 3 \/ m = 4 \/ m = 5 \/ m = 6 \/ m = 7 \/ m = 8 \/ m = 9 \/ m = 10 \/ m = 11 \/ m = 12)%Z) by lia.
  repeat destruct HC as [->|HC]; try (vm_compute; repeat split; reflexivity). subst. vm_compute; repeat split; reflexivity.
Qed.
Lemma day_cases w : (0 <= w <= 6)%Z -> three_word (day_name w).
Proof.
  intros H. assert (HC : (w = 0 \/ w = 1 \/ w = 2 \/ w = 3 \/ w = 4 \/ w = 5 \/ w = 6)%Z) by lia.
  repeat destruct HC as [->|HC]; try (vm_compute; repeat split; reflexivity). subst. vm_compute; repeat split; reflexivity.
Qed.
Lemma weekday_range t : (0 <= weekday t <= 6)%Z.
Proof. unfold weekday. lia. Qed.
Lemma two_pad2 n : (0 <= n < 100)%Z -> two_digits (pad2 n).
Proof. intros H. split; [easy|now apply pad2_digits]. Qed.
Lemma four_pad4 n : (0 <= n < 10000)%Z -> four_digits (pad4 n).
Proof. intros H. split; [easy|now apply pad4_digits]. Qed.

Lemma valid_dt_iff t : valid_dt t = true <->
  (1 <= dt_y t <= 9999 /\ 1 <= dt_mo t <= 12 /\ 1 <= dt_d t <= days_in_month (dt_y t) (dt_mo t) /\
   0 <= dt_h t <= 23 /\ 0 <= dt_mi t <= 59 /\ 0 <= dt_s t <= 59)%Z.
Proof. unfold valid_dt. rewrite !andb_true_iff, !Z.leb_le. lia. Qed.
Lemma dim_le y m : (days_in_month y m <= 31)%Z.
Proof. unfold days_in_month. repeat match goal with |- context [if ?b then _ else _] => destruct b end; lia. Qed.

(** the same instant in the two older formats (RFC 7231 7.1.1.1) *)
Definition full_day_names : list str :=
  [!"Monday"; !"Tuesday"; !"Wednesday"; !"Thursday"; !"Friday"; !"Saturday"; !"Sunday"].
Definition rfc850_date (t : Z) : str :=
  let d := gmtime t in
  nth (Z.to_nat (weekday t)) full_day_names [] ++ !", " ++ pad2 (dt_d d) ++ !"-" ++ month_name (dt_mo d) ++ !"-"
  ++ pad2 (dt_y d mod 100) ++ !" " ++ clock (pad2 (dt_h d)) (pad2 (dt_mi d)) (pad2 (dt_s d)) ++ !" GMT".
Definition pad2_space (n : Z) : str := if Z.ltb n 10 then [32%N; digit n] else pad2 n.
Definition asctime_date (t : Z) : str :=
  let d := gmtime t in
  day_name (weekday t) ++ !" " ++ month_name (dt_mo d) ++ !" " ++ pad2_space (dt_d d) ++ !" "
  ++ clock (pad2 (dt_h d)) (pad2 (dt_mi d)) (pad2 (dt_s d)) ++ !" " ++ pad4 (dt_y d).

Lemma date_of_match_ok y ys mo ds h mi x d : valid_dt (mkDT y mo d h mi x) = true -> (70 <= y)%Z ->
  (exists yy, py_int 10 ys = Some yy /\ (if Z.ltb yy 100 then if Z.ltb yy 70 then yy + 2000 else yy + 1900 else yy)%Z = y) ->
  py_int 10 ds = Some d ->
  date_of_match (mkDM ys (month_name mo) ds (pad2 h) (pad2 mi) (pad2 x)) = Some (timegm (mkDT y mo d h mi x)).
Proof.
  intros HV Hy (yy & HY & HE) HD. pose proof HV as HV'. apply valid_dt_iff in HV'. cbn in HV'.
  unfold date_of_match. cbn [m_year m_mon m_day m_hour m_min m_sec]. rewrite HY, HE.
  destruct (month_cases mo) as [_ HM]; [lia|]. rewrite HM, HD, !py_int_pad2 by lia.
  replace (mo - 1 + 1)%Z with mo by lia. now rewrite HV.
Qed.

Theorem http_date_roundtrip t : (y100 <= t < max_time)%Z -> parse_http_date (http_date t) = Ok t.
Proof.
  intros Ht. destruct (gmtime_spec t ltac:(unfold min_time, y100 in *; lia)) as (HV & HT & _ & _ & HY). specialize (HY (proj1 Ht)). unfold http_date. rewrite parse_http_date_eq.
  destruct (gmtime t) as [y mo d h mi x]. cbn [dt_y dt_mo dt_d dt_h dt_mi dt_s] in *.
  pose proof HV as HV'. apply valid_dt_iff in HV'. cbn in HV'. pose proof (dim_le y mo) as HL.
  assert (HM : match_any (day_name (weekday t) ++ !", " ++ pad2 d ++ !" " ++ month_name mo ++ !" " ++ pad4 y
    ++ !" " ++ pad2 h ++ !":" ++ pad2 mi ++ !":" ++ pad2 x ++ !" GMT") = Some (mkDM (pad4 y) (month_name mo) (pad2 d) (pad2 h) (pad2 mi) (pad2 x))).
  { apply match_any_iff.
    pose proof (dt_rfc1123 (day_name (weekday t)) (pad2 d) (month_name mo) (pad4 y) (pad2 h) (pad2 mi) (pad2 x) []) as HC.
    unfold clock in HC. rewrite <- !app_assoc in HC. rewrite app_nil_r in HC.
    apply HC; try (apply two_pad2; lia); [apply day_cases, weekday_range|apply month_cases; lia|apply four_pad4; lia|now left]. }
  rewrite HM, (date_of_match_ok y (pad4 y) mo (pad2 d) h mi x d HV); [now rewrite HT|lia| |apply py_int_pad2; lia].
  exists y. split; [apply py_int_pad4; lia|]. destruct (Z.ltb_spec y 100); [lia|easy].
Qed.

Definition y2070 : Z := 3155760000%Z.        (* 2070-01-01 00:00:00 *)
Theorem rfc850_roundtrip t : (0 <= t < y2070)%Z -> parse_http_date (rfc850_date t) = Ok t.
Proof.
  intros Ht. unfold y2070 in Ht. destruct (gmtime_spec t) as (HV & HT & _ & HY & _); [unfold max_time, min_time; lia|]. specialize (HY (proj1 Ht)).
  unfold rfc850_date. rewrite parse_http_date_eq.
  destruct (gmtime t) as [y mo d h mi x]. cbn [dt_y dt_mo dt_d dt_h dt_mi dt_s] in *.
  pose proof HV as HV'. apply valid_dt_iff in HV'. cbn in HV'. pose proof (dim_le y mo) as HL.
  assert (Hy : (y < 2070)%Z).
  { destruct (Z.lt_ge_cases y 2070) as [|Hge]; [easy|exfalso].
    unfold timegm, toordinal, epoch_ord in HT. cbn [dt_y dt_mo dt_d dt_h dt_mi dt_s] in HT.
    assert (Hm : (0 <= days_before_month y mo)%Z).
    { unfold days_before_month. generalize (Z.to_nat (mo - 1)). clear.
      induction n as [|n IH]; cbn [days_before_month_nat]; [lia|].
      assert (0 <= days_in_month y (Z.of_nat (S n)))%Z; [|lia].
      unfold days_in_month. repeat match goal with |- context [if ?b then _ else _] => destruct b end; lia. }
    unfold days_before_year in HT.
    assert (Hc : (y = 2070 \/ 2071 <= y)%Z) by lia. destruct Hc as [->|Hc].
    - change ((2070 - 1) * 365 + (2070 - 1) / 4 - (2070 - 1) / 100 + (2070 - 1) / 400)%Z with 755687%Z in HT. lia.
    - lia. }
  set (w := nth (Z.to_nat (weekday t)) full_day_names []).
  assert (HW : 6 <= length w <= 9 /\ forallb is_word w = true).
  { unfold w. pose proof (weekday_range t) as HR. remember (weekday t) as z eqn:EZ. clear - HR.
    assert (HC : (z = 0 \/ z = 1 \/ z = 2 \/ z = 3 \/ z = 4 \/ z = 5 \/ z = 6)%Z) by lia.
    repeat destruct HC as [HC|HC]; rewrite HC; vm_compute; (split; [lia|reflexivity]). }
  assert (HM : match_any (w ++ !", " ++ pad2 d ++ !"-" ++ month_name mo ++ !"-" ++ pad2 (y mod 100)
    ++ !" " ++ clock (pad2 h) (pad2 mi) (pad2 x) ++ !" GMT") = Some (mkDM (pad2 (y mod 100)) (month_name mo) (pad2 d) (pad2 h) (pad2 mi) (pad2 x))).
  { apply match_any_iff.
    pose proof (dt_rfc850 w (pad2 d) (month_name mo) (pad2 (y mod 100)) (pad2 h) (pad2 mi) (pad2 x) []) as HC.
    rewrite app_nil_r in HC.
    apply HC; try (apply two_pad2; lia); [apply HW|apply HW|apply month_cases; lia|now left]. }
  rewrite HM, (date_of_match_ok y _ mo (pad2 d) h mi x d HV); [now rewrite HT|lia| |apply py_int_pad2; lia].
  exists (y mod 100)%Z. split; [apply py_int_pad2; lia|].
  destruct (Z.ltb_spec (y mod 100) 100); [|lia]. destruct (Z.ltb_spec (y mod 100) 70); lia.
Qed.

Theorem asctime_roundtrip t : (y100 <= t < max_time)%Z -> parse_http_date (asctime_date t) = Ok t.
Proof.
  intros Ht. destruct (gmtime_spec t ltac:(unfold min_time, y100 in *; lia)) as (HV & HT & _ & _ & HY). specialize (HY (proj1 Ht)). unfold asctime_date. rewrite parse_http_date_eq.
  destruct (gmtime t) as [y mo d h mi x]. cbn [dt_y dt_mo dt_d dt_h dt_mi dt_s] in *.
  pose proof HV as HV'. apply valid_dt_iff in HV'. cbn in HV'. pose proof (dim_le y mo) as HL.
  assert (HM : match_any (day_name (weekday t) ++ !" " ++ month_name mo ++ !" " ++ pad2_space d ++ !" "
    ++ clock (pad2 h) (pad2 mi) (pad2 x) ++ !" " ++ pad4 y) = Some (mkDM (pad4 y) (month_name mo) (pad2_space d) (pad2 h) (pad2 mi) (pad2 x))).
  { apply match_any_iff.
    pose proof (dt_asctime (day_name (weekday t)) (pad2_space d) (month_name mo) (pad4 y) (pad2 h) (pad2 mi) (pad2 x) []) as HC.
    rewrite app_nil_r in HC.
    apply HC; try (apply two_pad2; lia); [apply day_cases, weekday_range| |apply month_cases; lia|apply four_pad4; lia|now left].
    unfold pad2_space. destruct (Z.ltb_spec d 10); [right; exists (digit d); split; [easy|apply digit_spec; lia]|left; apply two_pad2; lia]. }
  rewrite HM, (date_of_match_ok y (pad4 y) mo (pad2_space d) h mi x d HV); [now rewrite HT|lia| |].
  - exists y. split; [apply py_int_pad4; lia|]. destruct (Z.ltb_spec y 100); [lia|easy].
  - unfold pad2_space. destruct (Z.ltb_spec d 10); [|apply py_int_pad2; lia].
    destruct (digit_spec d) as [D1 D2]; [lia|]. unfold py_int.
    assert (HS : strip [32%N; digit d] = [digit d]).
    { unfold strip. change [32%N; digit d] with ([32%N] ++ [digit d] ++ []). apply strip_by_pad; try easy.
      apply tight_by_all. intros c [<-|[]]. now apply digit_not_ws. }
    rewrite HS. destruct (digit_not_ws _ D1) as (_ & N1 & N2). rewrite N1, N2. cbn [int_nat int_digits].
    rewrite D2. replace (N.ltb (Z.to_N d) 10) with true by (symmetry; apply N.ltb_lt; lia).
    cbn [option_map]. f_equal. lia.
Qed.

(** ** [timegm] is injective on valid dates *)
Lemma dim_pos y m : (28 <= days_in_month y m)%Z.
Proof. unfold days_in_month. repeat match goal with |- context [if ?b then _ else _] => destruct b end; lia. Qed.
Lemma days_before_month_mono y m1 m2 : (1 <= m1 <= m2)%Z -> (days_before_month y m1 <= days_before_month y m2)%Z.
Proof.
  intros H. replace m2 with (m1 + Z.of_nat (Z.to_nat (m2 - m1)))%Z by lia. generalize (Z.to_nat (m2 - m1)).
  induction n as [|n IH]; [replace (m1 + Z.of_nat 0)%Z with m1 by lia; lia|].
  replace (m1 + Z.of_nat (S n))%Z with (m1 + Z.of_nat n + 1)%Z by lia.
  rewrite days_before_month_step by lia. pose proof (dim_pos y (m1 + Z.of_nat n)). lia.
Qed.
Lemma days_before_year_mono y1 y2 : (y1 <= y2)%Z -> (days_before_year y1 <= days_before_year y2)%Z.
Proof.
  intros H. replace y2 with (y1 + Z.of_nat (Z.to_nat (y2 - y1)))%Z by lia. generalize (Z.to_nat (y2 - y1)).
  induction n as [|n IH]; [replace (y1 + Z.of_nat 0)%Z with y1 by lia; lia|].
  replace (y1 + Z.of_nat (S n))%Z with (y1 + Z.of_nat n + 1)%Z by lia.
  rewrite days_before_year_step. pose proof (year_len_ge (y1 + Z.of_nat n)). lia.
Qed.
Lemma toordinal_inj y1 m1 d1 y2 m2 d2 :
  (1 <= m1 <= 12)%Z -> (1 <= d1 <= days_in_month y1 m1)%Z -> (1 <= m2 <= 12)%Z -> (1 <= d2 <= days_in_month y2 m2)%Z ->
  toordinal y1 m1 d1 = toordinal y2 m2 d2 -> y1 = y2 /\ m1 = m2 /\ d1 = d2.
Proof.
  intros M1 D1 M2 D2. unfold toordinal.
  assert (B : forall y m d, (1 <= m <= 12)%Z -> (1 <= d <= days_in_month y m)%Z ->
     (days_before_year y < days_before_year y + days_before_month y m + d <= days_before_year (y + 1))%Z).
  { intros y m d Hm Hd. rewrite days_before_year_step, <- days_before_month_13.
    pose proof (days_before_month_step y m ltac:(lia)). pose proof (days_before_month_mono y (m + 1) 13 ltac:(lia)).
    pose proof (days_before_month_mono y 1 m ltac:(lia)). change (days_before_month y 1) with 0%Z in *. lia. }
  pose proof (B y1 m1 d1 M1 D1) as B1. pose proof (B y2 m2 d2 M2 D2) as B2. intros HE.
  assert (y1 = y2) as <-.
  { destruct (Z.lt_trichotomy y1 y2) as [H|[H|H]]; [|easy|].
    - pose proof (days_before_year_mono (y1 + 1) y2 ltac:(lia)). lia.
    - pose proof (days_before_year_mono (y2 + 1) y1 ltac:(lia)). lia. }
  split; [easy|].
  assert (m1 = m2) as <-.
  { destruct (Z.lt_trichotomy m1 m2) as [H|[H|H]]; [|easy|].
    - pose proof (days_before_month_mono y1 (m1 + 1) m2 ltac:(lia)). pose proof (days_before_month_step y1 m1 ltac:(lia)). lia.
    - pose proof (days_before_month_mono y1 (m2 + 1) m1 ltac:(lia)). pose proof (days_before_month_step y1 m2 ltac:(lia)). lia. }
  split; [easy|lia].
Qed.
Lemma timegm_inj a b : valid_dt a = true -> valid_dt b = true -> timegm a = timegm b -> a = b.
Proof.
  rewrite !valid_dt_iff. destruct a as [y mo d h mi x], b as [y' mo' d' h' mi' x']. cbn [dt_y dt_mo dt_d dt_h dt_mi dt_s].
  intros HA HB. unfold timegm. cbn [dt_y dt_mo dt_d dt_h dt_mi dt_s]. intros HE.
  assert (HT : forall y m d, (toordinal y m 1 + d - 1 = toordinal y m d)%Z) by (intros; unfold toordinal; lia).
  pose proof (HT y mo d) as T1. pose proof (HT y' mo' d') as T2.
  assert (HO : toordinal y mo d = toordinal y' mo' d') by lia.
  apply toordinal_inj in HO; try lia. destruct HO as (-> & -> & ->). f_equal; lia.
Qed.
Lemma gmtime_timegm d : valid_dt d = true ->
  gmtime (timegm d) = d /\ (min_time <= timegm d < max_time)%Z /\ ((100 <= dt_y d)%Z -> (y100 <= timegm d)%Z).
Proof.
  intros HV. pose proof HV as HV'. apply valid_dt_iff in HV'.
  assert (HR : (min_time <= timegm d < max_time)%Z /\ ((100 <= dt_y d)%Z -> (y100 <= timegm d)%Z)).
  { destruct d as [y mo d h mi x]. cbn [dt_y dt_mo dt_d dt_h dt_mi dt_s] in *.
    unfold timegm, toordinal, epoch_ord, max_time, min_time, y100. cbn [dt_y dt_mo dt_d dt_h dt_mi dt_s].
    pose proof (days_before_year_mono 1 y ltac:(lia)) as P1. pose proof (fun H => days_before_year_mono 100 y H) as P0. pose proof (days_before_year_mono (y + 1) 10000 ltac:(lia)) as P2.
    change (days_before_year 1) with 0%Z in P1. change (days_before_year 100) with 36159%Z in P0. change (days_before_year 10000) with 3652059%Z in P2.
    rewrite days_before_year_step, <- days_before_month_13 in P2.
    pose proof (days_before_month_step y mo ltac:(lia)) as P3. pose proof (days_before_month_mono y (mo + 1) 13 ltac:(lia)) as P4.
    pose proof (days_before_month_mono y 1 mo ltac:(lia)) as P5. change (days_before_month y 1) with 0%Z in P5. lia. }
  split; [|easy]. destruct (gmtime_spec _ (proj1 HR)) as (G1 & G2 & _). now apply timegm_inj.
Qed.
Lemma weekday_timegm d : valid_dt d = true -> weekday (timegm d) = ((toordinal (dt_y d) (dt_mo d) (dt_d d) + 6) mod 7)%Z.
Proof.
  intros HV. apply valid_dt_iff in HV. unfold weekday, timegm.
  replace (toordinal (dt_y d) (dt_mo d) (dt_d d)) with (toordinal (dt_y d) (dt_mo d) 1 + dt_d d - 1)%Z by (unfold toordinal; lia).
  unfold epoch_ord. set (o := toordinal (dt_y d) (dt_mo d) 1). clearbody o.
  assert (HD : (((((o - 719163 + dt_d d - 1) * 24 + dt_h d) * 60 + dt_mi d) * 60 + dt_s d) / 86400
               = o - 719163 + dt_d d - 1)%Z).
  { lia. }
  rewrite HD. clear. lia.
Qed.
