(** * C68, C69, C71, continued: exactly when *)
From Coq Require Import ZifyBool ZifyN ZifyNat.
From Verif Require Import Py Spec PyFacts HeadModel UrlFacts PercentModel PercentFacts
  UtilModel UtilFacts Base64Model Base64Facts DateModel DateFacts PropsUtil.

(** ** C69.  No ETag with a comma is ever returned *)
Lemma splitc_no_sep c s p : In p (splitc c s) -> ~ In c p.
Proof.
  revert p. induction s as [|x s IH]; intros p; cbn [splitc]; [now intros [<-|[]]|].
  destruct (N.eqb_spec x c) as [->|Hx].
  - intros [<-|H]; [easy|now apply IH].
  - destruct (splitc c s) as [|y l].
    + intros [<-|[]] [H|[]]. now elim Hx.
    + intros [<-|H].
      * intros [H|H]; [now elim Hx|]. apply (IH y); [now left|exact H].
      * apply IH. now right.
Qed.
Theorem C69_commas_refuted : forall s t, In t (parse_etags s) -> ~ In comma t.
Proof.
  intros s t. unfold parse_etags. destruct (seqb (strip s) [star]); [intros [<-|[]]; now intros [H|[]]|].
  intros H. apply filter_In in H as [H _]. apply in_map_iff in H as (p & <- & Hp). apply splitc_no_sep in Hp.
  intros H. apply Hp. destruct (strip_by_spec is_ws p) as (u & v & E & _). rewrite E. apply in_or_app. right. apply in_or_app. now left.
Qed.
Print Assumptions C69_commas_refuted.
(** every list: the ETags in it, in their order, whatever else stands between the commas *)
Inductive listed : list str -> list str -> Prop :=
| li_nil : listed [] []
| li_tag t p ts ps : padded_tag t p -> listed ts ps -> listed (t :: ts) (p :: ps)
| li_other p ts ps : ~ In comma p -> ~ is_etag (strip p) -> listed ts ps -> listed ts (p :: ps).
Theorem C69_list_exact : forall tags pieces, listed tags pieces -> pieces <> [] -> strip (join [comma] pieces) <> [star] ->
  parse_etags (join [comma] pieces) = tags.
Proof.
  intros tags pieces HL Hne Hs. unfold parse_etags. apply seqb_neq in Hs. rewrite Hs.
  assert (HP : Forall (fun p => ~ In comma p) pieces).
  { clear Hne Hs. induction HL as [|t p ts ps (Ht & Hc & u & v & -> & Hu & Hv) HF IH|p ts ps Hc Ht HF IH]; constructor; try easy.
    rewrite forallb_forall in Hu, Hv. intros H. apply in_app_or in H as [H|H]; [now apply Hu in H|].
    apply in_app_or in H as [H|H]; [easy|now apply Hv in H]. }
  rewrite splitc_join_inv by easy. clear Hne Hs HP.
  induction HL as [|t p ts ps (Ht & Hc & u & v & -> & Hu & Hv) HF IH|p ts ps Hc Ht HF IH]; [reflexivity| |]; cbn [map filter].
  - assert (E : strip (u ++ t ++ v) = t).
    { apply strip_by_pad; try easy; [now apply etag_tight|now destruct Ht as (m & _ & [->| ->])]. }
    rewrite E. apply etag_match_iff in Ht. now rewrite Ht, IH.
  - destruct (etag_match (strip p)) eqn:E; [apply etag_match_iff in E; easy|]. exact IH.
Qed.
Print Assumptions C69_list_exact.
(** quoting twice: exactly for which texts it is the same as quoting once *)
Theorem C69_quote_etag_exact : forall s, quote_etag (quote_etag s) = quote_etag s <-> is_etag s \/ ~ In dquote s.
Proof.
  intros s. split; [|intros H; now destruct (C69_quote_etag_idempotent_partial s H) as (_ & -> & _)].
  unfold quote_etag at 2 3. destruct (etag_match s) eqn:E; [left; now apply etag_match_iff|].
  unfold quote_etag. destruct (etag_match ([dquote] ++ s ++ [dquote])) eqn:E2.
  - intros _. right. apply etag_match_iff in E2 as (m & Hm & [H|H]); [|discriminate].
    apply app_inv_head, app_inv_tail in H. now subst.
  - intros H. apply (f_equal (@length N)) in H. rewrite !app_length in H. cbn in H. lia.
Qed.
Print Assumptions C69_quote_etag_exact.
Example C69_exact_case :
  listed [[dquote] ++ !"a" ++ [dquote]] [!" " ++ [dquote] ++ !"a" ++ [dquote]; !"junk"; !" *"] /\
  parse_etags (!" " ++ [dquote] ++ !"a" ++ [dquote] ++ !",junk, *") = [[dquote] ++ !"a" ++ [dquote]] /\
  quote_etag (quote_etag [97%N; dquote]) <> quote_etag [97%N; dquote].
Proof.
  assert (HN : forall p, etag_match (strip p) = false -> ~ is_etag (strip p)).
  { intros p H Hi. apply etag_match_iff in Hi. congruence. }
  assert (HC : forall x p, mem x p = false -> ~ In x p).
  { intros x p H Hi. apply mem_In in Hi. congruence. }
  split; [|split; [reflexivity|now vm_compute]].
  apply li_tag; [|repeat apply li_other; try (now apply HN); try (now apply HC); apply li_nil].
  split; [apply etag_match_iff; reflexivity|]. split; [now apply HC|]. exists !" ", []. repeat split.
Qed.

(** ** C71.  A text of the right shape: a date, or a TypeError *)
(** the moment the fields of a date describe; two-digit years are those from 1970 to 2069 *)
Definition denotes (m : dmatch) (d : datetime) : Prop :=
  exists y, py_int 10 (m_year m) = Some y /\
    (100 <= y /\ dt_y d = y \/ 70 <= y < 100 /\ dt_y d = 1900 + y \/ y < 70 /\ dt_y d = 2000 + y)%Z /\
    (1 <= dt_mo d <= 12)%Z /\ lower (m_mon m) = lower (month_name (dt_mo d)) /\
    py_int 10 (m_day m) = Some (dt_d d) /\ (1 <= dt_d d <= days_in_month (dt_y d) (dt_mo d))%Z /\
    py_int 10 (m_hour m) = Some (dt_h d) /\ (0 <= dt_h d <= 23)%Z /\
    py_int 10 (m_min m) = Some (dt_mi d) /\ (0 <= dt_mi d <= 59)%Z /\
    py_int 10 (m_sec m) = Some (dt_s d) /\ (0 <= dt_s d <= 59)%Z.
Lemma month_index mo : (1 <= mo <= 12)%Z -> index_of (lower (month_name mo)) months_lower = Some (mo - 1)%Z.
Proof.
  intros H. assert (C : (mo = 1 \/ mo = 2 \/ mo = 3 \/ mo = 4 \/ mo = 5 \/ mo = 6 \/ mo = 7 \/ mo = 8 \/ mo = 9 \/ mo = 10 \/ mo = 11 \/ mo = 12)%Z) by lia.
  repeat destruct C as [->|C]; try reflexivity. subst. reflexivity.
Qed.
Lemma int_digits_bound s : forall a n, int_digits 10 a s = Some n -> (n < (a + 1) * 10 ^ N.of_nat (length s))%N.
Proof.
  induction s as [|c s IH]; intros a n; cbn [int_digits length]; [intros [= <-]; cbn; lia|].
  destruct (digit_val c) as [d|]; [|easy]. destruct (N.ltb_spec d 10); [|easy]. intros H1. apply IH in H1.
  rewrite Nat2N.inj_succ, N.pow_succ_r'. nia.
Qed.
Lemma digits_value s : s <> [] -> forallb is_digit s = true -> length s <= 4 ->
  exists z, py_int 10 s = Some z /\ (0 <= z <= 9999)%Z.
Proof.
  intros Hne H Hl. rewrite py_int_digits by easy. destruct (int_digits_all s H 0%N) as [n Hn]. rewrite Hn.
  exists (Z.of_N n). split; [reflexivity|]. apply int_digits_bound in Hn.
  assert (10 ^ N.of_nat (length s) <= 10 ^ 4)%N by (apply N.pow_le_mono_r; lia). change (10 ^ 4)%N with 10000%N in *. lia.
Qed.
Lemma date_year s m : date_text s m -> exists z, py_int 10 (m_year m) = Some z /\ (0 <= z <= 9999)%Z.
Proof.
  intros [w d mo y h mi x e _ _ _ [H1 H2] _ _ _ _|w d mo y h mi x e _ _ _ _ [H1 H2] _ _ _ _|w d mo y h mi x e _ _ _ [H1 H2] _ _ _ _];
    cbn [m_year]; apply digits_value; try easy; try lia; now intros ->.
Qed.
Lemma denotes_valid s m d : date_text s m -> denotes m d -> valid_dt d = true /\ date_of_match m = Some (timegm d).
Proof.
  intros HT (y & HY & HC & Hmo & HM & HD & Hd & HH & Hh & HI & Hi & HS & Hs). destruct (date_year s m HT) as (y' & HY' & Hr).
  assert (y' = y) by congruence. subst y'.
  assert (HV : valid_dt d = true) by (apply valid_dt_iff; lia).
  split; [exact HV|]. unfold date_of_match. rewrite HY, HM, month_index, HD, HH, HI, HS by easy.
  replace (dt_mo d - 1 + 1)%Z with (dt_mo d) by lia.
  assert (HE : (if Z.ltb y 100 then (if Z.ltb y 70 then y + 2000 else y + 1900) else y)%Z = dt_y d)
    by (destruct (Z.ltb_spec y 100); [destruct (Z.ltb_spec y 70)|]; lia).
  rewrite HE. destruct d as [dy dmo dd dh dmi ds]. cbn [dt_y dt_mo dt_d dt_h dt_mi dt_s] in *. now rewrite HV.
Qed.
Theorem C71_exact : forall s m, date_text s m ->
  (forall d, denotes m d -> parse_http_date s = Ok (timegm d)) /\
  ((forall d, ~ denotes m d) -> parse_http_date s = Err TypeError).
Proof.
  intros s m HT. split.
  - intros d HD. destruct (denotes_valid s m d HT HD) as [_ H]. apply match_any_iff in HT.
    now rewrite parse_http_date_eq, HT, H.
  - intros HN. destruct (C71_outcomes_partial s) as [(t & Ht & _)|[[H|H] _]]; [exfalso| |exact H].
    + destruct (C71_parsed_dates_exist s t Ht) as (m' & d & y & HT' & _ & Hr & HY & HC & HM & HD & HH & HI & HS).
      apply match_any_iff in HT, HT'. assert (m' = m) by congruence. subst m'.
      apply (HN d). exists y. repeat (split; [tauto || lia|]). tauto.
    + exfalso. apply C71_bad_shape_valueerror in H. apply H. now exists m.
Qed.
Print Assumptions C71_exact.
(** the name of the day is not looked at: any word of the same kind does as well *)
Definition long_day_word (w : str) : Prop := 6 <= length w <= 9 /\ forallb is_word w = true.
Theorem C71_weekday_refuted : forall w w' c r,
  three_word w /\ three_word w' \/ long_day_word w /\ long_day_word w' -> is_word c = false ->
  parse_http_date (w' ++ c :: r) = parse_http_date (w ++ c :: r).
Proof.
  intros w w' c r H Hc. rewrite !parse_http_date_eq.
  enough (E : match_any (w' ++ c :: r) = match_any (w ++ c :: r)) by now rewrite E.
  unfold match_any. destruct H as [[[Hw1 Hw2] [Hv1 Hv2]]|[[Hw1 Hw2] [Hv1 Hv2]]].
  - assert (E1 : match_rfc1123 (w' ++ c :: r) = match_rfc1123 (w ++ c :: r)).
    { unfold match_rfc1123. rewrite (take_app _ 3 w), (take_app _ 3 w') by easy. reflexivity. }
    assert (E2 : forall u, three_word u -> match_rfc850 (u ++ c :: r) = None).
    { intros u [U1 U2]. unfold match_rfc850. rewrite span_word_app by easy. now rewrite U1. }
    assert (E3 : match_asctime (w' ++ c :: r) = match_asctime (w ++ c :: r)).
    { unfold match_asctime. rewrite (take_app _ 3 w), (take_app _ 3 w') by easy. reflexivity. }
    now rewrite E1, E3, (E2 w'), (E2 w) by easy.
  - assert (E1 : forall u, long_day_word u -> match_rfc1123 (u ++ c :: r) = None).
    { intros u [U1 U2]. unfold match_rfc1123. destruct (take_word3_long u (c :: r)) as (a & v & Hu & _ & Hx1 & Hx2); [lia|easy|].
      rewrite Hu. cbn beta iota. change (lit ", "%string) with [44%N; 32%N]. now rewrite (take_lit_word_fail 44%N [32%N] v _ Hx1 Hx2). }
    assert (E3 : forall u, long_day_word u -> match_asctime (u ++ c :: r) = None).
    { intros u [U1 U2]. unfold match_asctime. destruct (take_word3_long u (c :: r)) as (a & v & Hu & _ & Hx1 & Hx2); [lia|easy|].
      rewrite Hu. cbn beta iota. change (lit " "%string) with [32%N]. now rewrite (take_lit_word_fail 32%N [] v _ Hx1 Hx2). }
    assert (E2 : match_rfc850 (w' ++ c :: r) = match_rfc850 (w ++ c :: r)).
    { unfold match_rfc850. rewrite !span_word_app by easy.
      replace (Nat.leb 6 (length w)) with true by (symmetry; apply Nat.leb_le; lia).
      replace (Nat.leb (length w) 9) with true by (symmetry; apply Nat.leb_le; lia).
      replace (Nat.leb 6 (length w')) with true by (symmetry; apply Nat.leb_le; lia).
      replace (Nat.leb (length w') 9) with true by (symmetry; apply Nat.leb_le; lia). reflexivity. }
    now rewrite !E1, !E3, E2 by easy.
Qed.
Print Assumptions C71_weekday_refuted.
Example C71_exact_case :
  let m := mkDM !"1994" !"nov" !"06" !"08" !"49" !"37" in
  date_text !"Mon, 06 nov 1994 08:49:37 GMT" m /\ denotes m (mkDT 1994 11 6 8 49 37) /\
  parse_http_date !"xyz, 06 nov 1994 08:49:37 GMT" = Ok 784111777%Z /\
  parse_http_date !"Sunday_, 06-Nov-94 08:49:37 GMT" = Ok 784111777%Z.
Proof.
  cbv zeta. split; [apply match_any_iff; reflexivity|]. split; [|split; reflexivity].
  exists 1994%Z. cbn [m_year m_mon m_day m_hour m_min m_sec dt_y dt_mo dt_d dt_h dt_mi dt_s].
  repeat split; try reflexivity; vm_compute; try (intros H; discriminate); try (left; repeat split; intros H; discriminate).
Qed.

(** ** C68.  Characters outside the alphabet are not refused: they are skipped *)
Definition b64_text : str := urlsafe_alphabet ++ !"+/=".
Definition meant (s : str) : str := filter (fun c => mem c b64_text) s.
Lemma meant_val c : mem c b64_text = false -> N.eqb (of_urlsafe c) pad = false /\ b64val (of_urlsafe c) = None.
Proof.
  intros H. destruct (N.lt_ge_cases c 128) as [Hc|Hc].
  - pose proof (ascii_check (fun c => mem c b64_text || (negb (N.eqb (of_urlsafe c) pad) && match b64val (of_urlsafe c) with None => true | _ => false end))
      ltac:(vm_compute; reflexivity) c Hc) as HK. cbv beta in HK. rewrite H in HK. cbn [orb] in HK. apply andb_true_iff in HK as [H1 H2].
    split; [now destruct (N.eqb (of_urlsafe c) pad)|now destruct (b64val (of_urlsafe c))].
  - unfold of_urlsafe, b64val, is_upper, is_lower, is_digit, pad.
    repeat match goal with |- context [N.eqb ?a ?b] => destruct (N.eqb_spec a b); [lia|] end.
    repeat match goal with |- context [N.leb ?a ?b] => destruct (N.leb_spec a b); [try lia|try lia] end; easy.
Qed.
Lemma meant_next s t : next_valid (map of_urlsafe (meant s) ++ t) = next_valid (map of_urlsafe s ++ t).
Proof.
  induction s as [|c s IH]; [reflexivity|]. cbn [meant filter]. fold (meant s). destruct (mem c b64_text) eqn:E.
  - cbn [map app next_valid]. now rewrite IH.
  - cbn [map app next_valid]. destruct (meant_val c E) as [-> ->]. exact IH.
Qed.
Lemma meant_loop s t : forall st, a2b_loop (map of_urlsafe (meant s) ++ t) st = a2b_loop (map of_urlsafe s ++ t) st.
Proof.
  induction s as [|c s IH]; intros st; [reflexivity|]. cbn [meant filter]. fold (meant s). destruct (mem c b64_text) eqn:E.
  - cbn [map app a2b_loop]. rewrite meant_next, IH.
    destruct (N.eqb (of_urlsafe c) pad); [reflexivity|]. destruct (b64val (of_urlsafe c)); [|reflexivity].
    destruct (b64_shift n st). now rewrite IH.
  - cbn [map app a2b_loop]. destruct (meant_val c E) as [-> ->]. apply IH.
Qed.
Theorem C68_junk_refuted : forall s, (forall c, In c s -> (c < 128)%N) -> length s mod 4 = length (meant s) mod 4 ->
  urlsafe_base64_decode s = urlsafe_base64_decode (meant s).
Proof.
  intros s HA HL. unfold urlsafe_base64_decode.
  assert (HA1 : ascii_only s = true) by (apply forallb_forall; intros c Hc; apply N.ltb_lt, HA, Hc).
  assert (HA2 : ascii_only (meant s) = true).
  { apply forallb_forall. intros c Hc. apply filter_In in Hc as [Hc _]. apply N.ltb_lt, HA, Hc. }
  rewrite HA1, HA2, HL. unfold b64decode. now rewrite !map_app, meant_loop.
Qed.
Print Assumptions C68_junk_refuted.
Example C68_junk_case : meant !"ab cd$#f!" = !"abcdf" /\ urlsafe_base64_decode !"ab cd$#e!f" = urlsafe_base64_decode !"abcdef" /\
  urlsafe_base64_decode !"*a*b*cde&f" = Ok [105%N; 183%N; 29%N; 121%N].
Proof. now vm_compute. Qed.
