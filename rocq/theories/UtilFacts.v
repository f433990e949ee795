(** * Proofs about the small helpers of utils/http.py *)
From Verif Require Import Py Spec HeadSpec PyFacts HeadModel UrlFacts UtilModel.

(** ** Base 36 *)
Lemma below36 n : (n < 36)%N -> exists k, (k < 36)%nat /\ n = N.of_nat k.
Proof. intros H. exists (N.to_nat n). lia. Qed.
Lemma char36_spec : forall n, (n < 36)%N ->
  digit_val (char36 n) = Some n /\ is_digit (char36 n) || is_lower (char36 n) = true /\
  is_ws (char36 n) = false /\ char36 n <> 45%N /\ char36 n <> 43%N /\ (char36 n = 48%N -> n = 0%N).
Proof.
  intros n H. unfold char36, digit_val, is_digit, is_lower, is_upper, is_ws.
  destruct (N.ltb_spec n 10).
  - replace (N.leb 48 (48 + n)) with true by (symmetry; apply N.leb_le; lia).
    replace (N.leb (48 + n) 57) with true by (symmetry; apply N.leb_le; lia).
    replace (N.leb (48 + n) 13) with false by (symmetry; apply N.leb_gt; lia).
    replace (N.eqb (48 + n) 32) with false by (symmetry; apply N.eqb_neq; lia).
    rewrite !andb_false_r. cbn [andb orb]. split; [f_equal; lia|]. repeat split; try lia.
  - replace (N.leb (87 + n) 57) with false by (symmetry; apply N.leb_gt; lia).
    replace (N.leb 97 (87 + n)) with true by (symmetry; apply N.leb_le; lia).
    replace (N.leb (87 + n) 122) with true by (symmetry; apply N.leb_le; lia).
    replace (N.leb (87 + n) 13) with false by (symmetry; apply N.leb_gt; lia).
    replace (N.eqb (87 + n) 32) with false by (symmetry; apply N.eqb_neq; lia).
    rewrite !andb_false_r. cbn [andb orb]. split; [f_equal; lia|]. repeat split; try lia.
Qed.

Definition is36 (c : char) : bool := is_digit c || is_lower c.

Lemma b36_loop_spec : forall fuel i acc, (N.to_nat (N.size i) <= fuel)%nat ->
  exists ds, b36_loop fuel i acc = ds ++ acc /\
    (forall a t, int_digits 36 a (ds ++ t) = int_digits 36 (a * 36 ^ N.of_nat (length ds) + i) t) /\
    forallb is36 ds = true /\
    (i = 0%N -> ds = []) /\
    (forall c r, ds = c :: r -> c <> 48%N /\ (36 ^ N.of_nat (length r) <= i)%N) /\
    (i < 36 ^ N.of_nat (length ds))%N.
Proof.
  induction fuel as [|fuel IH]; intros i acc Hf.
  - assert (i = 0%N) as ->.
    { destruct (N.eq_dec i 0) as [|Hn]; [easy|]. rewrite N.size_log2 in Hf by easy. lia. }
    exists []. cbn [b36_loop]. split; [easy|]. split.
    + intros a t. cbn. now rewrite N.mul_1_r, N.add_0_r.
    + repeat split; try easy.
  - cbn [b36_loop]. destruct (N.eqb_spec i 0) as [->|Hi].
    + exists []. split; [easy|]. split; [|repeat split; easy].
      intros a t. cbn. now rewrite N.mul_1_r, N.add_0_r.
    + assert (Hlt : (i mod 36 < 36)%N) by (apply N.mod_lt; lia).
      assert (Hdm : i = (36 * (i / 36) + i mod 36)%N) by (apply N.div_mod; lia).
      destruct (IH (i / 36)%N (char36 (i mod 36) :: acc)) as (ds & H1 & H2 & H3 & H4 & H5 & H6).
      { destruct (N.eq_dec (i / 36) 0) as [->|Hn]; [cbn; lia|].
        rewrite N.size_log2 in Hf |- * by easy.
        assert (HL : (N.log2 (i / 36) < N.log2 i)%N).
        { apply N.log2_lt_pow2; [lia|]. apply N.div_lt_upper_bound; [lia|].
          pose proof (N.log2_spec i ltac:(lia)) as [_ Hs]. rewrite N.pow_succ_r' in Hs. lia. }
        lia. }
      destruct (char36_spec _ Hlt) as (C1 & C2 & C3 & C4 & C5 & C6).
      exists (ds ++ [char36 (i mod 36)]). rewrite H1, <- app_assoc. split; [easy|]. split; [|split; [|split; [|split]]].
      * intros a t. rewrite <- app_assoc, H2. cbn [app int_digits]. rewrite C1.
        replace (N.ltb (i mod 36) 36) with true by (symmetry; now apply N.ltb_lt).
        f_equal. rewrite app_length, Nat2N.inj_add, N.pow_add_r. cbn [length]. change (N.of_nat 1) with 1%N.
        rewrite N.pow_1_r. lia.
      * rewrite forallb_app, H3. cbn. unfold is36. now rewrite C2.
      * easy.
      * intros c r Heq. destruct ds as [|c0 ds].
        -- cbn in Heq. injection Heq as <- <-. split.
           ++ intros Hc. apply C6 in Hc. assert (i / 36 = 0)%N; [|lia]. cbn in H6. lia.
           ++ cbn. lia.
        -- cbn in Heq. injection Heq as <- <-. destruct (H5 _ _ eq_refl) as [G1 G2]. split; [easy|].
           rewrite app_length, Nat2N.inj_add, N.pow_add_r. change (N.of_nat (length [char36 (i mod 36)])) with 1%N.
           rewrite N.pow_1_r. clear - G2 Hdm. generalize dependent (36 ^ N.of_nat (length ds))%N. intros p Hp.
        pose proof (N.le_0_l (i mod 36)). lia.
      * rewrite app_length, Nat2N.inj_add, N.pow_add_r. change (N.of_nat (length [char36 (i mod 36)])) with 1%N.
        rewrite N.pow_1_r. clear - H6 Hdm Hlt. generalize dependent (36 ^ N.of_nat (length ds))%N. intros p Hp.
        pose proof (N.le_0_l (i mod 36)). lia.
Qed.

Lemma size_nat_size i : N.to_nat (N.size i) = N.size_nat i.
Proof.
  destruct i as [|p]; [easy|]. cbn. induction p; cbn; rewrite ?Pos2Nat.inj_succ, ?IHp; easy.
Qed.

Definition wf36 (s : str) : Prop := s <> [] /\ forallb is36 s = true.
Lemma py_int_36 s : wf36 s -> py_int 36 s = option_map Z.of_N (int_digits 36 0 s).
Proof.
  intros [Hne H]. unfold py_int.
  assert (Hs : strip s = s).
  { apply strip_by_tight, tight_by_all. intros c Hin. rewrite forallb_forall in H. specialize (H c Hin).
    unfold is36, is_digit, is_lower, is_ws in *.
    rewrite orb_true_iff, !andb_true_iff, !N.leb_le in H.
    apply orb_false_iff. split; [apply andb_false_iff; right; apply N.leb_gt|apply N.eqb_neq]; lia. }
  rewrite Hs. destruct s as [|c s]; [easy|].
  assert (Hc : is36 c = true) by (cbn in H; now apply andb_true_iff in H).
  assert (H45 : N.eqb c 45 = false) by (apply N.eqb_neq; intros ->; easy).
  assert (H43 : N.eqb c 43 = false) by (apply N.eqb_neq; intros ->; easy).
  now rewrite H45, H43.
Qed.

Theorem int_to_base36_spec i : (0 <= i)%Z -> exists s, int_to_base36 i = Ok s /\ wf36 s /\
  int_digits 36 0 s = Some (Z.to_N i) /\
  (forall c r, s = c :: r -> r <> [] -> c <> 48%N /\ (36 ^ Z.of_nat (length r) <= i)%Z) /\
  (i < 36 ^ Z.of_nat (length s))%Z.
Proof.
  intros Hi. unfold int_to_base36. destruct (Z.ltb_spec i 0); [lia|].
  destruct (Z.ltb_spec i 36).
  - eexists. split; [reflexivity|]. destruct (char36_spec (Z.to_N i)) as (C1 & C2 & _); [lia|].
    split; [split; [easy|cbn; unfold is36; now rewrite C2]|]. split; [|split].
    + cbn. rewrite C1. now replace (N.ltb (Z.to_N i) 36) with true by (symmetry; apply N.ltb_lt; lia).
    + intros c r Heq Hr. injection Heq as <- <-. easy.
    + cbn. lia.
  - destruct (b36_loop_spec (N.size_nat (Z.to_N i)) (Z.to_N i) []) as (ds & H1 & H2 & H3 & H4 & H5 & H6).
    { now rewrite size_nat_size. }
    rewrite app_nil_r in H1. exists ds. rewrite H1. split; [easy|]. split; [split|split; [|split]].
    + intros ->. cbn in H6. lia.
    + easy.
    + specialize (H2 0%N []). rewrite app_nil_r in H2. rewrite H2. cbn. reflexivity.
    + intros c r -> _. destruct (H5 _ _ eq_refl) as [G1 G2]. split; [easy|].
      apply N2Z.inj_le in G2. rewrite N2Z.inj_pow, nat_N_Z, Z2N.id in G2 by lia. exact G2.
    + apply N2Z.inj_lt in H6. rewrite N2Z.inj_pow, nat_N_Z, Z2N.id in H6 by lia. exact H6.
Qed.

(** ** ETags *)
Definition is_etag (s : str) : Prop :=
  exists m, ~ In dquote m /\ (s = [dquote] ++ m ++ [dquote] \/ s = !"W/" ++ [dquote] ++ m ++ [dquote]).

Lemma quoted_re_iff s : quoted_re s = true <-> exists m, ~ In dquote m /\ s = [dquote] ++ m ++ [dquote].
Proof.
  split.
  - destruct s as [|c r]; [easy|]. cbn. intros H. apply andb_true_iff in H as [Hc H]. apply N.eqb_eq in Hc.
    destruct (rev r) as [|d m] eqn:E; [easy|]. apply andb_true_iff in H as [Hd Hm]. apply N.eqb_eq in Hd. subst.
    exists (rev m). split.
    + rewrite <- in_rev. apply mem_nIn. now apply negb_true_iff.
    + apply (f_equal (@rev N)) in E. rewrite rev_involutive in E. cbn in E. now subst.
  - intros (m & Hm & ->). cbn [app quoted_re]. rewrite rev_app_distr. cbn [rev app]. rewrite !N.eqb_refl.
    assert (Hr : mem dquote (rev m) = false) by (apply mem_nIn; now rewrite <- in_rev). now rewrite Hr.
Qed.
Lemma etag_match_iff s : etag_match s = true <-> is_etag s.
Proof.
  unfold etag_match, startswith. destruct (prefixb !"W/" s) eqn:E.
  - apply prefixb_iff in E as [t ->]. change (skipn 2 (!"W/" ++ t)) with t. rewrite quoted_re_iff. split.
    + intros (m & Hm & ->). exists m. split; [easy|now right].
    + intros (m & Hm & [H|H]); [discriminate H|]. injection H as H. exists m. easy.
  - rewrite quoted_re_iff. split.
    + intros (m & Hm & ->). exists m. split; [easy|now left].
    + intros (m & Hm & [H|H]); [now exists m|]. subst. cbn in E. discriminate.
Qed.

Lemma etag_tight s : is_etag s -> tight_by is_ws s = true.
Proof.
  intros (m & _ & [->| ->]); unfold tight_by.
  - cbn [app]. change (is_ws dquote) with false. cbn [negb andb].
    change (dquote :: m ++ [dquote]) with ((dquote :: m) ++ [dquote]). now rewrite last_last.
  - change (!"W/" ++ [dquote] ++ m ++ [dquote]) with (87%N :: (47%N :: dquote :: m) ++ [dquote]).
    change (is_ws 87) with false. cbn [negb andb].
    change (87%N :: (47%N :: dquote :: m) ++ [dquote]) with ((87%N :: 47%N :: dquote :: m) ++ [dquote]).
    now rewrite last_last.
Qed.

(** ** Safe URLs *)
(** [rest] starts with an authority [n] *)
Definition has_authority (rest n : str) : Prop := exists t, authority_then rest n t.

Lemma split_scheme_has url sc rest : has_scheme url sc rest -> split_scheme url = (lower sc, rest).
Proof.
  intros [[Hne Hsc%scheme_text_iff] ->]. unfold split_scheme. cbn [app]. rewrite findc_app.
  - destruct sc as [|c sc]; [easy|]. cbn [length].
    change (S (length sc)) with (length (c :: sc)). rewrite firstn_app_exact, Hsc. f_equal. apply skipn_S_app.
  - intros Hin. rewrite forallb_forall in Hsc. apply Hsc in Hin. now apply scheme_char_not in Hin.
Qed.
Lemma split_scheme_none url : (forall sc rest, ~ has_scheme url sc rest) -> split_scheme url = ([], url).
Proof.
  intros H. unfold split_scheme. destruct (findc colon url) as [[|i]|] eqn:E; [easy| |easy].
  destruct (forallb is_scheme_char (firstn (S i) url)) eqn:Ef; [|easy].
  exfalso. apply findc_Some in E as (H1 & H2 & H3). eapply (H (firstn (S i) url)). split; [split|].
  - destruct url; [cbn in H3; lia|]. easy.
  - now apply scheme_text_iff.
  - exact H1.
Qed.
Lemma scheme_dec url : (exists sc rest, has_scheme url sc rest) \/ (forall sc rest, ~ has_scheme url sc rest).
Proof.
  destruct (findc colon url) as [[|i]|] eqn:E.
  - right. intros sc rest [[Hne Hsc%scheme_text_iff] ->]. cbn [app] in E. rewrite findc_app in E.
    + injection E as E. now destruct sc.
    + intros Hin. rewrite forallb_forall in Hsc. apply Hsc in Hin. now apply scheme_char_not in Hin.
  - destruct (forallb is_scheme_char (firstn (S i) url)) eqn:Ef.
    + left. apply findc_Some in E as (H1 & H2 & H3). exists (firstn (S i) url), (skipn (S (S i)) url).
      split; [split|]; [|now apply scheme_text_iff|exact H1]. destruct url; [cbn in H3; lia|easy].
    + right. intros sc rest [[Hne Hsc%scheme_text_iff] ->]. cbn [app] in E, Ef. rewrite findc_app in E.
      * injection E as E. rewrite <- E in Ef. rewrite firstn_app_exact in Ef. congruence.
      * intros Hin. rewrite forallb_forall in Hsc. apply Hsc in Hin. now apply scheme_char_not in Hin.
  - right. intros sc rest [_ ->]. apply findc_None in E. apply E. apply in_or_app. right. now left.
Qed.

Lemma split_netloc_has rest n : has_authority rest n -> fst (split_netloc rest) = n.
Proof.
  intros (t & -> & Hn & Ht). unfold split_netloc, startswith. rewrite prefixb_app.
  change (skipn 2 (!"//" ++ n ++ t)) with (n ++ t). rewrite span_netloc_app; [easy| |].
  - intros c Hc. now apply netloc_end_false, Hn.
  - destruct Ht as [->|(c & t' & -> & Hc)]; [now left|right]. exists c, t'. split; [easy|now apply netloc_end_iff].
Qed.
Lemma split_netloc_authority rest : startswith rest !"//" = true -> has_authority rest (fst (split_netloc rest)).
Proof.
  intros H. destruct (split_netloc rest) as [n u] eqn:E. pose proof E as E'.
  unfold split_netloc in E'. rewrite H in E'. apply span_netloc_spec in E' as (E1 & E2 & E3).
  unfold startswith in H. apply prefixb_iff in H as [t ->]. change (skipn 2 (!"//" ++ t)) with t in E1. subst t.
  exists u. split; [easy|]. split.
  - intros c Hc. now apply netloc_end_false, E2.
  - destruct E3 as [->|(c & t' & -> & Hc)]; [now left|right]. exists c, t'. split; [easy|now apply netloc_end_iff].
Qed.
Lemma split_netloc_none rest : startswith rest !"//" = false -> split_netloc rest = ([], rest).
Proof. intros H. unfold split_netloc. now rewrite H. Qed.

Lemma urlparse_scheme_netloc url u : urlparse_text url = Ok u ->
  up_scheme u = fst (split_scheme url) /\ up_netloc u = fst (split_netloc (snd (split_scheme url))).
Proof.
  unfold urlparse_text, urlsplit. destruct (split_scheme url) as [sc u1]. cbn [fst snd].
  destruct (split_netloc u1) as [n u2]. cbn [fst]. destruct (_ || _); [easy|].
  destruct (cut hash u2), (cut qmark s). cbn [bind].
  match goal with |- context [let (_, _) := ?x in _] => destruct x end. intros [= <-]. easy.
Qed.
