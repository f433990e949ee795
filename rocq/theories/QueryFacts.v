(** * Proofs about query strings *)
From Verif Require Import Py PyFacts PyDict CodecModel CodecFacts PercentModel PercentFacts QueryModel QuerySpec.

Lemma Ok_inj {A} (a b : A) : Ok a = Ok b -> a = b.
Proof. congruence. Qed.

(** ** Splitting into fields *)
Lemma is_sep_iff c : is_sep c = true <-> separator c.
Proof. unfold is_sep, separator. rewrite orb_true_iff, !N.eqb_eq. easy. Qed.
Lemma separators_cons c t : separators (c :: t) = (if is_sep c then 1 else 0) + separators t.
Proof. reflexivity. Qed.

Lemma fields_split_nonnil m s : fields_split m s <> [].
Proof.
  destruct s as [|c t]; cbn; destruct m as [[|m]|]; try easy; cbn;
    destruct (is_sep c); try easy; destruct (fields_split _ t); easy.
Qed.

Lemma fields_split_pieces s : pieces s (fields_split None s).
Proof.
  induction s as [|c t IH]; cbn.
  { apply pieces_one. easy. }
  destruct (is_sep c) eqn:E.
  - change (c :: t) with ([] ++ c :: t). apply pieces_cons; [easy|now apply is_sep_iff|easy].
  - assert (Hc : ~ separator c) by (rewrite <- is_sep_iff; now rewrite E).
    inversion IH as [s0 H1 H2|u c0 t0 l H1 H2 H3 H4 H5].
    + apply pieces_one. intros x [<-|Hx]; [easy|]. subst. now apply H1.
    + change (c :: u ++ c0 :: t0) with ((c :: u) ++ c0 :: t0). apply pieces_cons; auto.
      intros x [<-|Hx]; auto.
Qed.

Lemma fields_split_prefix u s h r : no_separator u -> fields_split None s = h :: r ->
  fields_split None (u ++ s) = (u ++ h) :: r.
Proof.
  induction u as [|c u IH]; intros Hu Hs; [easy|]. cbn.
  assert (E : is_sep c = false).
  { destruct (is_sep c) eqn:E; [|easy]. apply is_sep_iff in E. exfalso. apply (Hu c); [now left|easy]. }
  rewrite E. rewrite IH; [easy| |easy]. intros x Hx. apply Hu. now right.
Qed.

Lemma pieces_unique s l : pieces s l -> l = fields_split None s.
Proof.
  induction 1 as [s H|u c t l Hu Hc Hp IH].
  - pose proof (fields_split_prefix s [] [] [] H eq_refl) as Hx. now rewrite app_nil_r in Hx.
  - erewrite fields_split_prefix; [|easy|].
    2:{ cbn. apply is_sep_iff in Hc. rewrite Hc. reflexivity. }
    now rewrite app_nil_r, IH.
Qed.

Lemma fields_split_length s : length (fields_split None s) = S (separators s).
Proof.
  induction s as [|c t IH]; [easy|]. rewrite separators_cons. cbn. destruct (is_sep c); cbn; [now rewrite IH|].
  destruct (fields_split None t) eqn:E; [now apply fields_split_nonnil in E|]. now rewrite <- IH.
Qed.

Lemma fields_split_max n s : length (fields_split (Some n) s) = S (Nat.min n (separators s)).
Proof.
  revert n. induction s as [|c t IH]; intros [|n]; try reflexivity.
  rewrite separators_cons. cbn [fields_split option_map pred].
  destruct (is_sep c); cbn [length].
  - rewrite IH. lia.
  - specialize (IH (S n)). destruct (fields_split (Some (S n)) t) eqn:E; [now apply fields_split_nonnil in E|].
    cbn in IH |- *. lia.
Qed.

Lemma fields_split_below n s : separators s <= n -> fields_split (Some n) s = fields_split None s.
Proof.
  revert n. induction s as [|c t IH]; intros [|n] H; try easy.
  - rewrite separators_cons in H. destruct (is_sep c) eqn:E; [lia|]. cbn. rewrite E.
    assert (Ht : separators t <= 0) by lia. specialize (IH 0 Ht). cbn in IH.
    destruct t as [|c' t]; cbn in IH |- *; [easy|]. now rewrite <- IH.
  - rewrite separators_cons in H. cbn [fields_split option_map pred]. destruct (is_sep c).
    + rewrite IH; [easy|lia].
    + now rewrite IH by lia.
Qed.

(** ** Percent-decoding *)
Lemma hexval_spec c : match hexval c with
  | Some v => (v < 16)%N /\ hex_value c (N.to_nat v)
  | None => forall v, ~ hex_value c v
  end.
Proof.
  assert (Hnone : hexval c = None -> forall v, ~ hex_value c v).
  { intros Hc v Hv. revert Hc. assert (Hlt : v < 16).
    { destruct Hv as [Hv|Hv]; assert (nth_error _ v <> None) by (rewrite Hv; easy);
        apply nth_error_Some in H; exact H. }
    assert (Hin : In c (map (fun i => nth i !"0123456789ABCDEF" 0%N) (seq 0 16)
                      ++ map (fun i => nth i !"0123456789abcdef" 0%N) (seq 0 16))).
    { apply in_or_app. destruct Hv as [Hv|Hv]; [left|right]; apply in_map_iff; exists v;
        (split; [now apply nth_error_nth|apply in_seq; lia]). }
    vm_compute in Hin. repeat destruct Hin as [<-|Hin]; easy. }
  destruct (hexval c) as [v|] eqn:E; [|auto]. clear Hnone.
  unfold hexval in E. unfold hex_value.
  assert (Hc : (48 <= c <= 57 \/ 97 <= c <= 102 \/ 65 <= c <= 70)%N).
  { unfold is_digit in E. destruct (N.leb 48 c && N.leb c 57) eqn:E1.
    - rewrite andb_true_iff, !N.leb_le in E1. lia.
    - destruct (N.leb 97 c && N.leb c 102) eqn:E2.
      + rewrite andb_true_iff, !N.leb_le in E2. lia.
      + destruct (N.leb 65 c && N.leb c 70) eqn:E3; [|easy]. rewrite andb_true_iff, !N.leb_le in E3. lia. }
  assert (Hin : In c (map N.of_nat (seq 48 10 ++ seq 97 6 ++ seq 65 6))).
  { apply in_map_iff. exists (N.to_nat c). split; [lia|]. rewrite !in_app_iff, !in_seq. lia. }
  vm_compute in Hin.
  repeat destruct Hin as [<-|Hin]; try easy; vm_compute in E; injection E as <-; vm_compute;
    (split; [reflexivity|]); first [left; reflexivity | right; reflexivity].
Qed.

Lemma hex_value_hexval c v : hex_value c v -> hexval c = Some (N.of_nat v).
Proof.
  intros Hv. assert (Hlt : v < 16).
  { destruct Hv as [Hv|Hv]; assert (Hn : nth_error _ v <> None) by (rewrite Hv; easy);
      apply nth_error_Some in Hn; exact Hn. }
  do 16 (destruct v as [|v]; [destruct Hv as [Hv|Hv]; cbn in Hv; injection Hv as <-; reflexivity|]). lia.
Qed.

Lemma unquote_to_bytes_hex a b s x y : hexval a = Some x -> hexval b = Some y ->
  unquote_to_bytes (percent :: a :: b :: s) = (x * 16 + y)%N :: unquote_to_bytes s.
Proof. intros Ha Hb. cbn [unquote_to_bytes]. now rewrite N.eqb_refl, Ha, Hb. Qed.
Lemma unquote_to_bytes_other c s :
  (c = percent -> match s with a :: b :: _ => hexval a = None \/ hexval b = None | _ => True end) ->
  unquote_to_bytes (c :: s) = c :: unquote_to_bytes s.
Proof.
  intros H. destruct (N.eq_dec c percent) as [->|Hne]; [|now apply unquote_plain].
  specialize (H eq_refl). destruct s as [|a [|b s]]; try reflexivity.
  cbn [unquote_to_bytes]. rewrite N.eqb_refl. destruct (hexval a); [|reflexivity].
  destruct (hexval b); [|reflexivity]. now destruct H.
Qed.

Lemma unquote_decodes : forall n s, length s <= n -> pct_decodes s (unquote_to_bytes s).
Proof.
  induction n as [|n IH]; intros s Hl.
  { destruct s; [constructor|cbn in Hl; lia]. }
  destruct s as [|c s]; [constructor|]. cbn in Hl.
  assert (Hother : (c = percent -> match s with a :: b :: _ => hexval a = None \/ hexval b = None | _ => True end) ->
      pct_decodes (c :: s) (unquote_to_bytes (c :: s))).
  { intros H. rewrite unquote_to_bytes_other by easy. apply pct_plain; [|apply IH; lia].
    intros -> (a & b & r & x & y & -> & Ha & Hb). destruct (H eq_refl) as [H'|H'].
    - pose proof (hexval_spec a) as Hs. rewrite H' in Hs. now apply (Hs x).
    - pose proof (hexval_spec b) as Hs. rewrite H' in Hs. now apply (Hs y). }
  destruct (N.eq_dec c percent) as [->|Hne]; [|apply Hother; now intros ->].
  destruct s as [|a [|b s]]; [now apply Hother|now apply Hother|].
  destruct (hexval a) as [x|] eqn:Ea; [|apply Hother; intros _; now left].
  destruct (hexval b) as [y|] eqn:Eb; [|apply Hother; intros _; now right].
  rewrite (unquote_to_bytes_hex a b s x y Ea Eb).
  pose proof (hexval_spec a) as Ha. rewrite Ea in Ha. pose proof (hexval_spec b) as Hb. rewrite Eb in Hb.
  replace (x * 16 + y)%N with (N.of_nat (N.to_nat x * 16 + N.to_nat y)) by lia.
  apply pct_hex; [apply Ha|apply Hb|]. apply IH. cbn in Hl. lia.
Qed.

Lemma pct_decodes_unquote s t : pct_decodes s t -> t = unquote_to_bytes s.
Proof.
  induction 1 as [|a b x y s t Ha Hb H IH|c s t Hc H IH]; [easy| |].
  - apply hex_value_hexval in Ha, Hb. change 37%N with percent. rewrite (unquote_to_bytes_hex a b s _ _ Ha Hb). f_equal; [lia|easy].
  - rewrite unquote_to_bytes_other; [now f_equal|]. intros ->. destruct s as [|a [|b s]]; try easy.
    pose proof (hexval_spec a) as Ha. pose proof (hexval_spec b) as Hb.
    destruct (hexval a) as [x|]; [|now left]. destruct (hexval b) as [y|]; [|now right].
    exfalso. apply (Hc eq_refl). exists a, b, s, (N.to_nat x), (N.to_nat y). tauto.
Qed.

Lemma unquote_nopercent s : ~ In percent s -> unquote_to_bytes s = s.
Proof.
  induction s as [|c s IH]; [easy|]. intros H. rewrite unquote_plain.
  - f_equal. apply IH. intros Hi. apply H. now right.
  - intros ->. apply H. now left.
Qed.

(** ** Decoding of text *)
Lemma ascii_run_spec s : let (a, b) := ascii_run s in
  s = a ++ b /\ (forall x, In x a -> (x < 128)%N) /\ match b with [] => True | x :: _ => (128 <= x)%N end.
Proof.
  induction s as [|c s IH]; cbn; [easy|]. destruct (is_ascii c) eqn:E.
  - destruct (ascii_run s) as [a b]. destruct IH as (-> & H1 & H2). split; [easy|]. split; [|easy].
    intros x [<-|Hx]; [now apply N.ltb_lt in E|auto].
  - split; [easy|]. split; [easy|]. now apply N.ltb_ge in E.
Qed.

Lemma unquote_runs_decodes c : forall fuel s, length s < fuel -> text_decodes c s (unquote_runs fuel (c_rep c) s).
Proof.
  induction fuel as [|fuel IH]; intros s Hl; [lia|]. cbn [unquote_runs].
  destruct s as [|x s]; [constructor|]. cbn in Hl. destruct (is_ascii x) eqn:E.
  - pose proof (ascii_run_spec (x :: s)) as Ha. cbn [ascii_run] in *. rewrite E in *.
    destruct (ascii_run s) as [a b]. destruct Ha as (H1 & H2 & H3). rewrite H1.
    apply td_run; [easy|easy|easy|now apply (unquote_decodes (length (x :: a)))|].
    apply IH. apply (f_equal (@length _)) in H1. cbn in H1. rewrite app_length in H1. lia.
  - apply td_char; [now apply N.ltb_ge in E|]. apply IH. lia.
Qed.

Lemma ascii_run_app a b : (forall x, In x a -> (x < 128)%N) -> match b with [] => True | x :: _ => (128 <= x)%N end ->
  ascii_run (a ++ b) = (a, b).
Proof.
  induction a as [|c a IH]; intros Ha Hb; cbn.
  - destruct b as [|x b]; [easy|]. cbn. unfold is_ascii. apply N.ltb_ge in Hb. now rewrite Hb.
  - assert (E : is_ascii c = true) by (apply N.ltb_lt, Ha; now left). rewrite E.
    rewrite IH; [easy| |easy]. intros x Hx. apply Ha. now right.
Qed.

Lemma text_decodes_unquote c s t : text_decodes c s t -> forall fuel, length s < fuel ->
  t = unquote_runs fuel (c_rep c) s.
Proof.
  induction 1 as [|a b bs t Hne Ha Hb Hp H IH|x b t Hx H IH]; intros fuel Hl; (destruct fuel as [|fuel]; [lia|]).
  - easy.
  - destruct a as [|x a]; [easy|]. cbn [app unquote_runs].
    assert (E : is_ascii x = true) by (apply N.ltb_lt, Ha; now left). rewrite E.
    change (x :: a ++ b) with ((x :: a) ++ b). rewrite ascii_run_app by easy.
    apply pct_decodes_unquote in Hp. subst bs. f_equal. apply IH.
    rewrite app_length in Hl. cbn in Hl. lia.
  - cbn [unquote_runs]. unfold is_ascii. apply N.ltb_ge in Hx. rewrite Hx. f_equal. apply IH. cbn in Hl. lia.
Qed.

(** without '%' nothing changes, for an ASCII-compatible codec *)
Lemma unquote_runs_plain c : codec_ok c -> forall fuel s, length s < fuel -> ~ In percent s ->
  unquote_runs fuel (c_rep c) s = s.
Proof.
  intros Hc. induction fuel as [|fuel IH]; intros s Hl Hn; [lia|]. cbn [unquote_runs].
  destruct s as [|x s]; [easy|]. cbn in Hl. destruct (is_ascii x) eqn:E.
  - pose proof (ascii_run_spec (x :: s)) as Ha. cbn [ascii_run] in *. rewrite E in *.
    destruct (ascii_run s) as [a b]. destruct Ha as (H1 & H2 & H3).
    rewrite unquote_nopercent.
    2:{ intros Hi. apply Hn. rewrite H1. apply in_or_app. now left. }
    rewrite IH.
    + rewrite (cok_rep c Hc (x :: a) (x :: a)); [now rewrite H1|]. apply (cok_dec_ascii c Hc).
      apply forallb_forall. intros y Hy. now apply N.ltb_lt, H2.
    + apply (f_equal (@length _)) in H1. cbn in H1. rewrite app_length in H1. lia.
    + intros Hi. apply Hn. rewrite H1. apply in_or_app. now right.
  - f_equal. apply IH; [lia|]. intros Hi. apply Hn. now right.
Qed.

Lemma unquote_eq reg enc c s : reg enc = Some c -> codec_ok c ->
  unquote reg enc s = Ok (unquote_runs (S (length s)) (c_rep c) s).
Proof.
  intros Hr Hc. unfold unquote. rewrite Hr. destruct (mem percent s) eqn:E; [easy|].
  rewrite unquote_runs_plain; [easy|easy|lia|]. now apply mem_nIn.
Qed.
Lemma unquote_text reg enc c s t : reg enc = Some c -> codec_ok c ->
  (unquote reg enc s = Ok t <-> text_decodes c s t).
Proof.
  intros Hr Hc. rewrite (unquote_eq reg enc c s Hr Hc). split.
  - intros <-%Ok_inj. apply unquote_runs_decodes. lia.
  - intros H. f_equal. symmetry. apply (text_decodes_unquote c s t H). lia.
Qed.
Lemma unquote_total reg enc c s : reg enc = Some c -> codec_ok c -> exists t, unquote reg enc s = Ok t.
Proof. intros Hr Hc. rewrite (unquote_eq reg enc c s Hr Hc). eauto. Qed.

Lemma unquote_ascii reg enc c s : reg enc = Some c -> codec_ok c -> ascii_only s = true ->
  unquote reg enc s = Ok (c_rep c (unquote_to_bytes s)).
Proof.
  intros Hr Hc Ha. rewrite (unquote_eq reg enc c s Hr Hc). f_equal. destruct s as [|x s].
  - cbn. symmetry. apply (cok_rep c Hc). now apply (cok_dec_ascii c Hc).
  - assert (Hrun : ascii_run (x :: s) = (x :: s, [])).
    { rewrite <- (app_nil_r (x :: s)) at 1. apply ascii_run_app; [|easy]. intros y Hy. now apply (ascii_only_In (x :: s)). }
    cbn [unquote_runs length]. rewrite Hrun.
    assert (E : is_ascii x = true) by (cbn in Ha; now apply andb_prop in Ha). rewrite E. cbn. apply app_nil_r.
Qed.

(** ** Fields *)
Lemma split1_in c n v : ~ In c n -> split1 c (n ++ c :: v) = Some (n, v).
Proof.
  intros H. unfold split1. rewrite findc_app by easy. f_equal. f_equal.
  - apply firstn_app_exact.
  - replace (S (length n)) with (length n + 1) by lia. rewrite <- skipn_skipn'. now rewrite skipn_app_exact.
Qed.
Lemma split1_notin c s : ~ In c s -> split1 c s = None.
Proof. intros H. unfold split1. apply findc_None in H. now rewrite H. Qed.
Lemma split1_cases c s : (exists n v, s = n ++ c :: v /\ ~ In c n /\ split1 c s = Some (n, v)) \/
  (~ In c s /\ split1 c s = None).
Proof.
  unfold split1. destruct (findc c s) as [i|] eqn:E.
  - left. apply findc_Some in E. destruct E as (E1 & E2 & E3). eauto 6.
  - right. now apply findc_None in E.
Qed.

Lemma qsl_field_value blank n v : ~ In equal n -> qsl_field blank (n ++ equal :: v) =
  if nonempty v || blank then Some (n, v) else None.
Proof.
  intros H. unfold qsl_field. rewrite split1_in by easy. destruct (n ++ equal :: v) eqn:E; [now destruct n|easy].
Qed.
Lemma qsl_field_name blank n : n <> [] -> ~ In equal n -> qsl_field blank n =
  if blank then Some (n, []) else None.
Proof. intros H1 H. unfold qsl_field. rewrite split1_notin by easy. now destruct n. Qed.

Definition field_res (reg : registry) (enc : str) (f : option (str * str)) : res (list (str * str)) :=
  match f with
  | None => Ok []
  | Some (n, v) => let* n := unquote reg enc (replacec plus 32%N n) in
                   let* v := unquote reg enc (replacec plus 32%N v) in Ok [(n, v)]
  end.

Lemma field_pair_spec reg enc c blank nv r : reg enc = Some c -> codec_ok c ->
  (field_res reg enc (qsl_field blank nv) = Ok r <-> field_pair c blank nv r).
Proof.
  intros Hr Hc.
  assert (Hft : forall s t, unquote reg enc (replacec plus 32%N s) = Ok t <-> field_text c s t).
  { intros s t. now apply unquote_text. }
  assert (Htot : forall s, exists t, unquote reg enc (replacec plus 32%N s) = Ok t).
  { intros s. eapply unquote_total; eauto. }
  assert (Hmt : unquote reg enc (replacec plus 32%N []) = Ok []) by reflexivity.
  split.
  - destruct (list_eq_dec N.eq_dec nv []) as [->|Hne]; [cbn; intros [= <-]; constructor|].
    destruct (split1_cases equal nv) as [(n & v & Hnv & Hn & _)|[Hn _]].
    + rewrite Hnv. rewrite qsl_field_value by easy. destruct (nonempty v || blank) eqn:E; cbn [field_res].
      * destruct (Htot n) as [n' Hn']. destruct (Htot v) as [v' Hv']. rewrite Hn', Hv'. cbn. intros [= <-].
        apply fp_value; [easy| |now apply Hft|now apply Hft].
        destruct v; [right; exact E|left; easy].
      * intros [= <-]. destruct v; [|easy]. apply fp_novalue; easy.
    + rewrite qsl_field_name by easy. destruct blank; cbn [field_res].
      * destruct (Htot nv) as [n' Hn']. rewrite Hn'. rewrite Hmt. cbn. intros [= <-].
        apply fp_name; [easy|easy|easy|now apply Hft].
      * intros [= <-]. now apply fp_noname.
  - intros H. destruct H as [|n v n' v' H1 H2 H3 H4|n H1 H2|n n' H1 H2 H3 H4|n H1 H2 H3].
    + easy.
    + rewrite qsl_field_value by easy. apply Hft in H3, H4.
      assert (E : nonempty v || blank = true).
      { destruct H2 as [H2| ->]; [now destruct v|now rewrite orb_true_r]. }
      rewrite E. cbn [field_res]. rewrite H3, H4. easy.
    + rewrite qsl_field_value by easy. now rewrite H2.
    + rewrite qsl_field_name by easy. rewrite H3. cbn [field_res]. apply Hft in H4. now rewrite H4, Hmt.
    + rewrite qsl_field_name by easy. now rewrite H3.
Qed.

Lemma field_pair_total reg enc c blank nv : reg enc = Some c -> codec_ok c ->
  exists r, field_res reg enc (qsl_field blank nv) = Ok r.
Proof.
  intros Hr Hc. unfold field_res. destruct (qsl_field blank nv) as [[n v]|]; [|eauto].
  destruct (unquote_total reg enc c (replacec plus 32%N n) Hr Hc) as [n' ->].
  destruct (unquote_total reg enc c (replacec plus 32%N v) Hr Hc) as [v' ->]. cbn. eauto.
Qed.

Lemma qsl_loop_cons reg enc blank nv rest :
  qsl_loop reg enc blank (nv :: rest) =
  let* a := field_res reg enc (qsl_field blank nv) in
  let* r := qsl_loop reg enc blank rest in Ok (a ++ r).
Proof.
  cbn [qsl_loop]. unfold field_res. destruct (qsl_field blank nv) as [[n v]|]; cbn.
  - destruct (unquote reg enc (replacec plus 32%N n)); cbn; [|easy].
    destruct (unquote reg enc (replacec plus 32%N v)); cbn; [|easy]. easy.
  - now destruct (qsl_loop reg enc blank rest).
Qed.

Lemma qsl_loop_spec reg enc c blank ps r : reg enc = Some c -> codec_ok c ->
  (qsl_loop reg enc blank ps = Ok r <-> exists rs, Forall2 (field_pair c blank) ps rs /\ r = concat rs).
Proof.
  intros Hr Hc. revert r. induction ps as [|p ps IH]; intros r.
  - cbn. split.
    + intros [= <-]. exists []. split; [constructor|easy].
    + intros (rs & H & ->). inversion H. easy.
  - rewrite qsl_loop_cons. split.
    + destruct (field_res reg enc (qsl_field blank p)) as [a|] eqn:E; [|easy]. cbn [bind].
      destruct (qsl_loop reg enc blank ps) as [r'|] eqn:E2; [|easy]. cbn. intros [= <-].
      destruct (proj1 (IH r') eq_refl) as (rs & H1 & ->). exists (a :: rs). split; [|easy].
      constructor; [|easy]. eapply field_pair_spec; eauto.
    + intros (rs & H & ->). inversion H as [|? a ? rs' H1 H2]; subst.
      apply (proj2 (field_pair_spec reg enc c blank p a Hr Hc)) in H1. rewrite H1. cbn [bind].
      rewrite (proj2 (IH (concat rs'))); [easy|]. eauto.
Qed.
Lemma qsl_loop_total reg enc c blank ps : reg enc = Some c -> codec_ok c ->
  exists r, qsl_loop reg enc blank ps = Ok r.
Proof.
  intros Hr Hc. induction ps as [|p ps [r IH]]; [now exists []|]. rewrite qsl_loop_cons.
  destruct (field_pair_total reg enc c blank p Hr Hc) as [a ->]. rewrite IH. cbn. eauto.
Qed.

(** ** The limit *)
Lemma qsl_pairs_spec limit qs :
  qsl_pairs limit qs =
  match limit with
  | Some z => if Z.eqb z 0 then Ok (fields_split None qs)
              else if Z.leb z (Z.of_nat (separators qs)) then Err TooManyFieldsSent
              else Ok (fields_split None qs)
  | None => Ok (fields_split None qs)
  end.
Proof.
  unfold qsl_pairs. destruct limit as [z|]; [|easy]. destruct (Z.eqb_spec z 0) as [|Hz]; [easy|].
  rewrite fields_split_max. destruct (Z.leb_spec z (Z.of_nat (separators qs))) as [Hle|Hgt].
  - destruct (Z.ltb_spec z (Z.of_nat (S (Nat.min (Z.to_nat z) (separators qs))))); [easy|lia].
  - destruct (Z.ltb_spec z (Z.of_nat (S (Nat.min (Z.to_nat z) (separators qs))))); [lia|].
    rewrite fields_split_below by lia. easy.
Qed.

(** ** QueryDict *)
Definition values_of (k : str) (l : list (str * str)) : list str :=
  map snd (filter (fun e => seqb (fst e) k) l).

Lemma q_extend_pu reg k vs q : q_mut q = true ->
  let (r, q') := q_extend reg (PU k) vs q in
  r = Ok tt /\ q_mut q' = true /\ q_enc q' = q_enc q /\
  (forall k', dget k' (q_d q') = if seqb k' k then Some (q_list k q ++ vs) else dget k' (q_d q)).
Proof.
  intros Hm. unfold q_extend, q_setlistdefault, q_setlist, q_assert. rewrite Hm. cbn [key_of].
  unfold dmem, q_list. destruct (dget k (q_d q)) as [l|] eqn:E.
  - rewrite E. split; [easy|]. split; [easy|]. split; [easy|]. intros k'. cbn. apply dget_dset.
  - cbn [q_conv bytes_to_text conv_list]. unfold q_set. cbn [q_d q_mut q_enc].
    rewrite !dget_dset_same. cbn [q_d q_mut q_enc]. split; [easy|]. split; [easy|]. split; [easy|].
    intros k'. cbn [key_of]. rewrite !dget_dset. now destruct (seqb k' k).
Qed.

Lemma q_appendlist_pu reg k v q : q_mut q = true ->
  q_appendlist reg (PU k) (PU v) q = q_extend reg (PU k) [PU v] q.
Proof. intros Hm. unfold q_appendlist, q_assert. rewrite Hm. easy. Qed.

Lemma q_fill_spec reg l q : q_mut q = true ->
  let (r, q') := q_fill reg l q in
  r = Ok tt /\ q_mut q' = true /\ q_enc q' = q_enc q /\
  (forall k, q_list k q' = q_list k q ++ map PU (values_of k l)) /\
  (forall k, dget k (q_d q') = None <-> dget k (q_d q) = None /\ values_of k l = []).
Proof.
  revert q. induction l as [|[k v] l IH]; intros q Hm; cbn [q_fill].
  - split; [easy|]. split; [easy|]. split; [easy|]. split; [|easy].
    intros k. now rewrite app_nil_r.
  - rewrite q_appendlist_pu by easy. pose proof (q_extend_pu reg k [PU v] q Hm) as He.
    destruct (q_extend reg (PU k) [PU v] q) as [r q1]. destruct He as (-> & Hm1 & He1 & Hd1).
    specialize (IH q1 Hm1). destruct (q_fill reg l q1) as [r2 q2]. destruct IH as (-> & Hm2 & He2 & Hl2 & Hn2).
    split; [easy|]. split; [easy|]. split; [congruence|].
    assert (Hs : forall a, seqb k a = seqb a k).
    { intros a. destruct (seqb k a) eqn:E1, (seqb a k) eqn:E2; try easy.
      - apply seqb_eq in E1. subst. now rewrite seqb_refl in E2.
      - apply seqb_eq in E2. subst. now rewrite seqb_refl in E1. }
    split.
    + intros a. rewrite Hl2. unfold q_list. rewrite Hd1. unfold values_of. cbn [filter fst]. rewrite Hs.
      destruct (seqb a k) eqn:E; [|easy]. apply seqb_eq in E. subst a. cbn [map snd]. unfold q_list.
      now rewrite <- app_assoc.
    + intros a. rewrite Hn2, Hd1. unfold values_of. cbn [filter fst]. rewrite Hs.
      destruct (seqb a k); [|easy]. split; intros [A1 A2]; discriminate.
Qed.

(** the constructor, for a known ASCII-compatible charset *)
Lemma querydict_spec reg st c text qs mut : reg (qs_charset st) = Some c -> codec_ok c ->
  query_text reg (qs_charset st) (match qs with Some p => if pnonempty p then p else PB [] | None => PB [] end)
    = Ok text ->
  match limited_parse_qsl reg text true (qs_charset st) (qs_limit st) with
  | Err e => querydict reg (Some st) qs mut = Err e
  | Ok l => exists q, querydict reg (Some st) qs mut = Ok q /\ q_mut q = mut /\ q_enc q = qs_charset st /\
              (forall k, q_list k q = map PU (values_of k l)) /\
              (forall k, dget k (q_d q) = None <-> values_of k l = [])
  end.
Proof.
  intros Hr Hc Ht. unfold querydict. rewrite Ht. cbn [bind].
  destruct (limited_parse_qsl reg text true (qs_charset st) (qs_limit st)) as [l|e]; [|easy]. cbn [bind].
  pose proof (q_fill_spec reg l (mkQD (qs_charset st) true []) eq_refl) as Hf.
  destruct (q_fill reg l (mkQD (qs_charset st) true [])) as [r q]. destruct Hf as (-> & H1 & H2 & H3 & H4).
  eexists. split; [reflexivity|]. cbn. split; [easy|]. split; [easy|]. split.
  - intros k. apply H3.
  - intros k. rewrite H4. cbn. tauto.
Qed.

(** ** urlencode *)
Lemma replacec_back s : ~ In plus s -> replacec plus 32%N (replacec 32%N plus s) = s.
Proof.
  induction s as [|c s IH]; [easy|]. intros H. cbn. f_equal.
  - destruct (N.eqb_spec c 32) as [->|Hc]; [easy|]. destruct (N.eqb_spec c plus) as [->|]; [|easy].
    exfalso. apply H. now left.
  - apply IH. intros Hi. apply H. now right.
Qed.
Lemma replacec_notin a b s : ~ In a s -> replacec a b s = s.
Proof.
  intros H. apply map_id_on. intros c Hc. destruct (N.eqb_spec c a) as [->|]; [easy|easy].
Qed.

Lemma always_safe_iff c : always_safe c = true ->
  c <> plus /\ c <> amp /\ c <> semic /\ c <> equal /\ c <> percent /\ (c < 128)%N.
Proof.
  unfold always_safe, is_alnum, is_alpha, is_upper, is_lower, is_digit, plus, amp, semic, equal, percent.
  rewrite !orb_true_iff, !andb_true_iff, !N.leb_le, !N.eqb_eq. lia.
Qed.
Lemma HEX_iff c : is_HEX c = true -> c <> plus /\ c <> amp /\ c <> semic /\ c <> equal /\ (c < 128)%N.
Proof. intros H. apply HEX_safe in H. apply always_safe_iff in H. tauto. Qed.

Lemma quote_plus_chars s c : bytes_only s = true -> In c (quote_plus s) ->
  c <> amp /\ c <> semic /\ c <> equal /\ (c < 128)%N.
Proof.
  intros Hb Hin. unfold quote_plus in Hin.
  assert (Hq : forall safe, (forall x, In x safe -> x = 32%N) -> forall x, In x (quote safe s) ->
     x <> amp /\ x <> semic /\ x <> equal /\ (x < 128)%N).
  { intros safe Hs x Hx. destruct (quote_chars safe s x Hb Hx) as [[H _]|[->|H]].
    - apply orb_true_iff in H. destruct H as [H|H].
      + apply always_safe_iff in H. tauto.
      + apply mem_In in H. apply Hs in H. subst. easy.
    - easy.
    - apply HEX_iff in H. tauto. }
  destruct (mem 32%N s).
  - apply in_map_iff in Hin. destruct Hin as (x & Hx & Hin). specialize (Hq [32%N]).
    destruct (Hq ltac:(intros y [<-|[]]; easy) x Hin) as (A & B & C & D).
    destruct (N.eqb_spec x 32); subst; easy.
  - apply (Hq []); easy.
Qed.

Lemma unquote_quote_plus s : bytes_only s = true ->
  unquote_to_bytes (replacec plus 32%N (quote_plus s)) = s.
Proof.
  intros Hb. unfold quote_plus.
  assert (Hp : forall safe, (forall x, In x safe -> x = 32%N) -> ~ In plus (quote safe s)).
  { intros safe Hs Hin. destruct (quote_chars safe s plus Hb Hin) as [[H _]|[H|H]]; try easy.
    apply orb_true_iff in H. destruct H as [H|H]; [easy|]. apply mem_In in H. now apply Hs in H. }
  destruct (mem 32%N s).
  - rewrite replacec_back by (apply Hp; now intros x [<-|[]]). now apply unquote_quote.
  - rewrite replacec_notin by now apply Hp. now apply unquote_quote.
Qed.

(** one encoded pair parses back *)
Lemma enc_pair_parses reg enc c k v e : reg enc = Some c -> codec_ok c -> ascii_only (pchars v) = true ->
  enc_pair reg enc None (PU k) v = Ok e ->
  no_separator e /\ ascii_only e = true /\ e <> [] /\
  field_res reg enc (qsl_field true e) = Ok [(k, pchars v)].
Proof.
  intros Hr Hc Hv He. unfold enc_pair, encode in He. rewrite Hr in He.
  destruct (c_enc c k) as [kb|] eqn:Ek; [|easy]. cbn [bind] in He.
  assert (Hev : enc_value reg enc v = Ok (pchars v)).
  { unfold enc_value, to_native, encode. destruct v as [b|b]; cbn [pchars] in *; rewrite ?Hv; cbn [bind]; rewrite Hr, Hv;
      now rewrite (cok_enc_ascii c Hc b Hv). }
  rewrite Hev in He. cbn [bind] in He. injection He as <-.
  pose proof (cok_bytes c Hc k kb Ek) as Hkb. pose proof (ascii_bytes _ Hv) as Hvb.
  assert (Hck := quote_plus_chars kb). assert (Hcv := quote_plus_chars (pchars v)).
  assert (Hne : ~ In equal (quote_plus kb)).
  { intros H. destruct (Hck _ Hkb H) as (_ & _ & H' & _). easy. }
  split.
  { intros x Hx [Hs|Hs]; rewrite in_app_iff in Hx; cbn in Hx; destruct Hx as [Hx|[Hx|Hx]]; subst; try easy;
      try (destruct (Hck _ Hkb Hx) as (? & ? & _); easy); destruct (Hcv _ Hvb Hx) as (? & ? & _); easy. }
  split.
  { unfold ascii_only. rewrite forallb_app. apply andb_true_iff. split; [|cbn; rewrite <- (andb_true_l (forallb _ _)); apply andb_true_iff; split; [easy|]];
      apply forallb_forall; intros x Hx; apply N.ltb_lt.
    - now apply Hck.
    - now apply Hcv. }
  split; [now destruct (quote_plus kb)|].
  rewrite qsl_field_value by easy. rewrite orb_true_r. cbn [field_res].
  assert (Hasc : forall s, bytes_only s = true -> ascii_only (replacec plus 32%N (quote_plus s)) = true).
  { intros s Hs. apply forallb_forall. intros x Hx. apply in_map_iff in Hx. destruct Hx as (y & <- & Hy).
    destruct (N.eqb y plus); [easy|]. apply N.ltb_lt. now apply (quote_plus_chars s). }
  rewrite !(unquote_ascii reg enc c) by (try easy; now apply Hasc). cbn [bind].
  rewrite !unquote_quote_plus by easy.
  rewrite (cok_rep c Hc kb k) by now apply (cok_roundtrip c Hc).
  rewrite (cok_rep c Hc (pchars v) (pchars v)) by now apply (cok_dec_ascii c Hc). easy.
Qed.

Lemma fields_split_join l : l <> [] -> Forall no_separator l -> fields_split None (join [amp] l) = l.
Proof.
  induction l as [|x l IH]; [easy|]. intros _ HF. inversion HF as [|? ? Hx HF']; subst.
  destruct l as [|y l].
  - cbn [join]. symmetry. apply pieces_unique. now apply pieces_one.
  - rewrite join_cons. erewrite fields_split_prefix; [|easy|].
    2:{ cbn [app fields_split]. change (is_sep amp) with true. cbn iota. reflexivity. }
    rewrite app_nil_r. cbn [option_map]. now rewrite IH.
Qed.

Lemma separators_join l : l <> [] -> Forall no_separator l -> S (separators (join [amp] l)) = length l.
Proof. intros H1 H2. rewrite <- fields_split_length. now rewrite fields_split_join. Qed.

Lemma enc_pairs_parse reg enc c l es : reg enc = Some c -> codec_ok c ->
  Forall (fun e => exists k, fst e = PU k) l ->
  Forall (fun e => ascii_only (pchars (snd e)) = true) l ->
  enc_pairs reg enc None l = Ok es ->
  length es = length l /\ Forall no_separator es /\ Forall (fun e => ascii_only e = true) es /\
  qsl_loop reg enc true es = Ok (map (fun e => (pchars (fst e), pchars (snd e))) l).
Proof.
  intros Hr Hc. revert es. induction l as [|[k v] l IH]; intros es Hk Hv He; cbn [enc_pairs] in He.
  - injection He as <-. repeat split; constructor.
  - inversion Hk as [|? ? [k0 Hk0] Hk']; subst. cbn in Hk0. subst k. inversion Hv as [|? ? Hv0 Hv']; subst. cbn in Hv0.
    destruct (enc_pair reg enc None (PU k0) v) as [e|] eqn:Ee; [|easy]. cbn [bind] in He.
    destruct (enc_pairs reg enc None l) as [es'|] eqn:Ees; [|easy]. cbn [bind] in He. injection He as <-.
    destruct (IH es' Hk' Hv' eq_refl) as (I1 & I2 & I3 & I4).
    destruct (enc_pair_parses reg enc c k0 v e Hr Hc Hv0 Ee) as (P1 & P2 & P3 & P4).
    split; [cbn; now rewrite I1|]. split; [now constructor|]. split; [now constructor|].
    rewrite qsl_loop_cons, P4. cbn [bind]. rewrite I4. easy.
Qed.

(** the pairs of a dictionary give back its lists *)
Lemma values_of_pairs q k : wf (q_d q) ->
  values_of k (map (fun e => (pchars (fst e), pchars (snd e))) (q_pairs q)) = map pchars (q_list k q).
Proof.
  unfold q_pairs, q_list, wf. generalize (q_d q). intros d. induction d as [|[k1 l1] d IH]; intros Hw; [easy|].
  cbn [flat_map fst snd]. inversion Hw as [|? ? Hn Hw']; subst. specialize (IH Hw').
  unfold values_of in *. rewrite map_app, filter_app, map_app, IH. cbn [dget].
  assert (Hl : map snd (filter (fun e : str * str => seqb (fst e) k)
             (map (fun e => (pchars (fst e), pchars (snd e))) (map (fun v => (PU k1, v)) l1))) =
             if seqb k k1 then map pchars l1 else []).
  { rewrite map_map. cbn. clear. induction l1 as [|v l1 IHl]; [now destruct (seqb k k1)|]. cbn.
    destruct (seqb k1 k) eqn:E.
    - apply seqb_eq in E. subst. rewrite seqb_refl in *. cbn. now rewrite IHl.
    - rewrite IHl. destruct (seqb k k1) eqn:E2; [|easy]. apply seqb_eq in E2. subst. now rewrite seqb_refl in E. }
  rewrite Hl. destruct (seqb k k1) eqn:E; [|easy].
  apply seqb_eq in E. subst. assert (Hd : dget k1 d = None) by now apply dget_None_notin.
  now rewrite Hd, app_nil_r.
Qed.
