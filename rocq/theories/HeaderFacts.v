(** * Facts about header-line parsing *)
From Verif Require Import Py PyFacts PyDict CodecModel PercentModel QueryModel HeaderModel HeaderSpec.
From Coq Require Import ZifyBool ZifyN.

Definition qodd (s : str) : bool := Nat.odd (countc hquote s).
Lemma qodd_app a b : qodd (a ++ b) = xorb (qodd a) (qodd b).
Proof. unfold qodd, countc. now rewrite count_occ_app, Nat.odd_add. Qed.
Lemma qodd_cons c b : qodd (c :: b) = if N.eqb c 34 then negb (qodd b) else qodd b.
Proof.
  unfold qodd, countc. cbn [count_occ]. destruct (N.eq_dec c hquote) as [->|H].
  - cbn. now rewrite Nat.odd_succ, <- Nat.negb_odd.
  - destruct (N.eqb_spec c 34) as [->|]; [|easy]. now elim H.
Qed.

Lemma findc_split c s i : findc c s = Some i -> exists u v, s = u ++ c :: v /\ length u = i /\ ~ In c u.
Proof.
  intros H. apply findc_Some in H as (H1 & H2 & H3). exists (firstn i s), (skipn (S i) s).
  repeat split; [exact H1| |exact H2]. rewrite firstn_length. lia.
Qed.

(** ** Where the pieces end *)
Fixpoint qend (inq : bool) (s : str) : option nat :=
  match s with
  | [] => None
  | c :: r => if N.eqb c 59 && negb inq then Some 0
              else option_map S (qend (if N.eqb c 34 then negb inq else inq) r)
  end.
Lemma qend_noq u : forall inq r, ~ In hsemi u ->
  qend inq (u ++ r) = option_map (Nat.add (length u)) (qend (xorb inq (qodd u)) r).
Proof.
  induction u as [|c u IH]; intros inq r H; cbn [app qend length].
  - change (qodd []) with false. rewrite xorb_false_r. now destruct (qend inq r).
  - destruct (N.eqb_spec c 59) as [->|Hc]; [elim H; now left|]. cbn [andb].
    rewrite IH by (intros G; apply H; now right). rewrite qodd_cons.
    replace (xorb (if N.eqb c 34 then negb inq else inq) (qodd u))
      with (xorb inq (if N.eqb c 34 then negb (qodd u) else qodd u))
      by (destruct (N.eqb c 34), inq, (qodd u); reflexivity).
    now destruct (qend _ r).
Qed.
Lemma qend_none u inq : ~ In hsemi u -> qend inq u = None.
Proof. intros H. rewrite <- (app_nil_r u), qend_noq by easy. easy. Qed.

Lemma semi_loop_spec : forall n a r f, length r <= n -> n < f ->
  semi_loop f (a ++ r) (findc_from hsemi (a ++ r) (length a)) =
  option_map (Nat.add (length a)) (qend (qodd a) r).
Proof.
  induction n as [|n IH]; intros a r f Hr Hf.
  - destruct r; [|cbn in Hr; lia]. destruct f; [lia|]. unfold findc_from.
    rewrite app_nil_r, skipn_all. easy.
  - unfold findc_from. rewrite skipn_app_exact. destruct (findc hsemi r) as [i|] eqn:E.
    + apply findc_split in E as (u & v & -> & <- & Hu). destruct f as [|f]; [lia|].
      cbn [option_map]. rewrite qend_noq by easy. cbn [qend].
      change (N.eqb hsemi 59) with true. cbn [andb].
      assert (EQ : firstn (length a + length u) (a ++ u ++ hsemi :: v) = a ++ u)
        by (rewrite app_assoc, <- app_length; apply firstn_app_exact).
      cbn [semi_loop]. destruct (length a + length u) as [|e'] eqn:EL.
      * destruct a; [|cbn in EL; lia]. destruct u; [|cbn in EL; lia]. easy.
      * rewrite EQ. fold (qodd (a ++ u)). rewrite qodd_app.
        destruct (xorb (qodd a) (qodd u)) eqn:EO; cbn [negb option_map].
        -- replace (S e' + 1) with (length (a ++ u ++ [hsemi])) by (rewrite !app_length; cbn; lia).
           replace (a ++ u ++ hsemi :: v) with ((a ++ u ++ [hsemi]) ++ v) by (rewrite <- !app_assoc; easy).
           rewrite IH; [|rewrite app_length in Hr; cbn in Hr; lia|lia].
           rewrite !qodd_app. change (qodd [hsemi]) with false. rewrite xorb_false_r, EO.
           change (if N.eqb hsemi 34 then false else true) with true.
           destruct (qend true v) as [z|]; [|easy]. cbn. f_equal. rewrite !app_length. cbn. lia.
        -- f_equal. lia.
    + apply findc_None in E. rewrite qend_none by easy. destruct f; easy.
Qed.

Lemma qsplit_end : forall s inq, qsplit inq s =
  match qend inq s with
  | None => [s]
  | Some e => firstn e s :: qsplit false (skipn (S e) s)
  end.
Proof.
  induction s as [|c s IH]; intros inq; [easy|]. cbn [qsplit qend].
  destruct (N.eqb c 59 && negb inq) eqn:E.
  - apply andb_true_iff in E as [_ ->%negb_true_iff]. easy.
  - rewrite IH. destruct (qend _ s) as [e|]; easy.
Qed.

Lemma piece_end_spec s : piece_end s = match qend false s with None => length s | Some e => e end.
Proof.
  unfold piece_end. pose proof (semi_loop_spec (length s) [] s (S (length s)) (le_n _) (le_n _)) as H.
  cbn [app length] in H. unfold findc_from in H. cbn [skipn] in H.
  replace (option_map (Nat.add 0) (findc hsemi s)) with (findc hsemi s) in H by now destruct (findc hsemi s).
  rewrite H. change (qodd []) with false. now destruct (qend false s).
Qed.

Lemma qend_Some : forall s inq e, qend inq s = Some e -> e < length s /\ skipn e s = hsemi :: skipn (S e) s.
Proof.
  induction s as [|c s IH]; intros inq e H; [easy|]. cbn [qend] in H.
  destruct (N.eqb c 59 && negb inq) eqn:E.
  - injection H as <-. apply andb_true_iff in E as [->%N.eqb_eq _]. cbn. split; [lia|easy].
  - destruct (qend _ s) as [e'|] eqn:E'; [|easy]. injection H as <-.
    destruct (IH _ _ E') as [H1 H2]. cbn [length]. split; [lia|]. exact H2.
Qed.

Lemma raw_pieces_spec : forall n s f, length s <= n -> n + 1 < f ->
  raw_pieces f (hsemi :: s) = qsplit false s.
Proof.
  induction n as [|n IH]; intros s f Hs Hf; (destruct f as [|f]; [lia|]); cbn [raw_pieces];
    change (N.eqb hsemi hsemi) with true; cbv zeta iota; rewrite piece_end_spec, (qsplit_end s).
  - destruct s; [|cbn in Hs; lia]. cbn. destruct f; easy.
  - destruct (qend false s) as [e|] eqn:E.
    + destruct (qend_Some _ _ _ E) as [H1 H2]. f_equal. rewrite H2.
      apply IH; [rewrite skipn_length; lia|lia].
    + rewrite firstn_all, skipn_all. destruct f; easy.
Qed.
Lemma parse_header_params_spec s : parse_header_params (hsemi :: s) = map strip (qsplit false s).
Proof.
  unfold parse_header_params. f_equal. apply (raw_pieces_spec (length s)); cbn; lia.
Qed.
Lemma parse_header_params_other s : hd 0%N s <> hsemi -> parse_header_params s = [].
Proof.
  intros H. unfold parse_header_params. destruct s as [|c s]; [easy|]. cbn [length raw_pieces].
  cbn in H. destruct (N.eqb_spec c hsemi); easy.
Qed.

Lemma qsplit_nonnil inq s : qsplit inq s <> [].
Proof. rewrite qsplit_end. destruct (qend inq s); easy. Qed.
Lemma qsplit_join : forall s inq, join !";" (qsplit inq s) = s.
Proof.
  induction s as [|c s IH]; intros inq; [easy|]. cbn [qsplit].
  destruct (N.eqb c 59 && negb inq) eqn:E.
  - apply andb_true_iff in E as [->%N.eqb_eq _].
    pose proof (qsplit_nonnil inq s) as HN. specialize (IH inq).
    destruct (qsplit inq s) as [|p ps]; [easy|]. rewrite join_cons, IH. easy.
  - specialize (IH (if N.eqb c 34 then negb inq else inq)).
    pose proof (qsplit_nonnil (if N.eqb c 34 then negb inq else inq) s) as HN.
    destruct (qsplit _ s) as [|p ps]; [easy|]. destruct ps as [|p2 ps].
    + cbn in *. now rewrite IH.
    + rewrite join_cons in *. rewrite <- IH. easy.
Qed.
(** a ';' at which the line is cut has an even number of quotes before it, and every other ';' an odd number *)
Lemma qsplit_cut : forall s inq a b, s = a ++ hsemi :: b ->
  (xorb inq (qodd a) = false -> exists k, join !";" (firstn (S k) (qsplit inq s)) = a /\ S k < length (qsplit inq s)) /\
  (forall k, S k < length (qsplit inq s) -> join !";" (firstn (S k) (qsplit inq s)) = a -> xorb inq (qodd a) = false).
Proof.
  induction s as [|c s IH]; intros inq a b E; [now destruct a|].
  destruct a as [|x a].
  - injection E as -> ->. change (qodd []) with false. rewrite xorb_false_r. cbn [qsplit].
    change (N.eqb hsemi 59) with true. cbn [andb]. destruct inq; cbn [negb].
    + split; [easy|]. intros k Hk H. exfalso.
      change (N.eqb hsemi 34) with false in *. cbv iota in *. destruct (qsplit true b) as [|p ps]; [cbn in Hk; lia|].
      cbn [firstn] in H. destruct (firstn k ps) eqn:E1; [easy|]. now rewrite join_cons in H.
    + split; [|easy]. intros _. exists 0. split; [easy|]. pose proof (qsplit_nonnil false b).
      destruct (qsplit false b); [easy|cbn; lia].
  - injection E as -> ->. specialize (IH (if N.eqb x 34 then negb inq else inq) a b eq_refl).
    rewrite qodd_cons. cbn [qsplit]. destruct (N.eqb x 59 && negb inq) eqn:EX.
    + apply andb_true_iff in EX as [->%N.eqb_eq ->%negb_true_iff]. change (N.eqb 59 34) with false in *.
      cbv iota in *. destruct IH as [I1 I2]. split.
      * intros Hx. destruct (I1 Hx) as (k & H1 & H2). exists (S k). split; [|cbn [length]; lia].
        cbn [firstn]. cbn [firstn] in H1. destruct (qsplit false (a ++ hsemi :: b)) as [|p ps]; [easy|].
        rewrite join_cons. now rewrite H1.
      * intros k Hk H. cbn [length] in Hk. destruct k as [|k]; [easy|].
        apply (I2 k); [lia|]. cbn [firstn] in *. destruct (qsplit false (a ++ hsemi :: b)) as [|p ps]; [easy|].
        rewrite join_cons in H. cbn in H. now injection H.
    + replace (xorb inq (if N.eqb x 34 then negb (qodd a) else qodd a))
        with (xorb (if N.eqb x 34 then negb inq else inq) (qodd a))
        by (destruct (N.eqb x 34), inq, (qodd a); reflexivity).
      pose proof (qsplit_nonnil (if N.eqb x 34 then negb inq else inq) (a ++ hsemi :: b)) as HN.
      destruct (qsplit _ (a ++ hsemi :: b)) as [|p ps]; [easy|].
      assert (J : forall k, join !";" (firstn (S k) ((x :: p) :: ps)) = x :: join !";" (firstn (S k) (p :: ps))).
      { intros k. cbn [firstn]. change (@firstn (list N) k ps) with (@firstn str k ps). destruct (firstn k ps); [reflexivity|]. now rewrite !join_cons. }
      destruct IH as [I1 I2]. split.
      * intros Hx. destruct (I1 Hx) as (k & H1 & H2). exists k. rewrite J, H1. split; [easy|]. exact H2.
      * intros k Hk H. rewrite J in H. injection H as H. now apply (I2 k).
Qed.

(** ** Quoting *)
Lemma escape_app a b : escape (a ++ b) = escape a ++ escape b.
Proof. apply flat_map_app. Qed.

Lemma replace2_cons_other p1 p2 r c s : c <> p1 -> replace2 p1 p2 r (c :: s) = c :: replace2 p1 p2 r s.
Proof.
  intros H. cbn [replace2]. destruct s as [|d s]; [easy|]. destruct (N.eqb_spec c p1); [easy|]. easy.
Qed.
(** after the first replacement: a backslash before each quote *)
Definition escq (v : str) : str := flat_map (fun c => if N.eqb c 34 then [92%N; c] else [c]) v.
Lemma replace2_hit p1 p2 r s : replace2 p1 p2 r (p1 :: p2 :: s) = r ++ replace2 p1 p2 r s.
Proof. cbn [replace2]. now rewrite !N.eqb_refl. Qed.
Lemma unescape1 v : replace2 hback hback [hback] (escape v) = escq v.
Proof.
  induction v as [|c v IH]; [easy|]. unfold escape, escq in *. cbn [flat_map].
  destruct (N.eqb_spec c 92) as [->|H1]; cbn [orb].
  - change (N.eqb 92 34) with false. cbv iota. cbn [app].
    rewrite (replace2_hit hback hback). cbn [app]. now rewrite IH.
  - destruct (N.eqb_spec c 34) as [->|H2]; cbn [app].
    + cbn [replace2]. change (N.eqb 92 hback && N.eqb 34 hback) with false. cbv iota.
      f_equal. rewrite <- IH. apply (replace2_cons_other hback hback). easy.
    + rewrite replace2_cons_other by easy. now rewrite IH.
Qed.
Lemma unescape2 v : replace2 hback hquote [hquote] (escq v) = v.
Proof.
  induction v as [|c v IH]; [easy|]. unfold escq in *. cbn [flat_map].
  destruct (N.eqb_spec c 34) as [->|H1].
  - cbn [app]. rewrite (replace2_hit hback hquote). cbn [app]. now rewrite IH.
  - cbn [app]. destruct (N.eqb_spec c 92) as [->|H2].
    + destruct v as [|d v]; [easy|]. cbn [flat_map] in *.
      destruct (N.eqb_spec d 34) as [->|H3]; cbn [app] in *.
      * cbn [replace2]. change (N.eqb 92 hback && N.eqb 92 hquote) with false. cbv iota.
        f_equal. exact IH.
      * cbn [replace2]. change (N.eqb 92 hback) with true. cbn [andb].
        destruct (N.eqb_spec d hquote); [easy|]. f_equal. exact IH.
    + rewrite replace2_cons_other by easy. now rewrite IH.
Qed.
Lemma unquote_value_quoted v : unquote_value ([34%N] ++ escape v ++ [34%N]) = v.
Proof.
  unfold unquote_value. cbn [app length hd tl]. rewrite app_length. cbn [length].
  replace (2 <=? S (length (escape v) + 1)) with true by (symmetry; apply Nat.leb_le; lia).
  change (N.eqb 34 hquote) with true. cbn [andb].
  change (34%N :: escape v ++ [34%N]) with ((34%N :: escape v) ++ [34%N]). rewrite last_last.
  change (N.eqb 34 hquote) with true. cbv iota. rewrite removelast_last.
  now rewrite unescape1, unescape2.
Qed.
Lemma unquote_value_plain v : ~ In hquote v -> unquote_value v = v.
Proof.
  intros H. unfold unquote_value. destruct (Nat.leb 2 (length v)) eqn:E; [|easy].
  destruct v as [|c v]; [easy|]. cbn [hd]. destruct (N.eqb_spec c hquote) as [->|]; [|easy].
  elim H. now left.
Qed.

(** ** Rendered headers *)
Lemma qend_app u : forall inq r, qend inq u = None ->
  qend inq (u ++ r) = option_map (Nat.add (length u)) (qend (xorb inq (qodd u)) r).
Proof.
  induction u as [|c u IH]; intros inq r H; cbn [app qend length].
  - change (qodd []) with false. rewrite xorb_false_r. now destruct (qend inq r).
  - cbn [qend] in H. destruct (N.eqb c 59 && negb inq); [easy|].
    destruct (qend (if N.eqb c 34 then negb inq else inq) u) eqn:E; [easy|].
    rewrite IH by easy. rewrite qodd_cons.
    replace (xorb (if N.eqb c 34 then negb inq else inq) (qodd u))
      with (xorb inq (if N.eqb c 34 then negb (qodd u) else qodd u))
      by (destruct (N.eqb c 34), inq, (qodd u); reflexivity).
    now destruct (qend _ r).
Qed.
Lemma qsplit_piece u r : qend false u = None -> qodd u = false ->
  qsplit false (u ++ hsemi :: r) = u :: qsplit false r.
Proof.
  intros H1 H2. rewrite (qsplit_end (u ++ _)), qend_app, H2 by easy. cbn [xorb qend].
  change (N.eqb hsemi 59 && negb false) with true. cbn [option_map]. rewrite Nat.add_0_r.
  rewrite firstn_app_exact. f_equal. f_equal.
  change (hsemi :: r) with ([hsemi] ++ r). rewrite app_assoc.
  replace (S (length u)) with (length (u ++ [hsemi])) by (rewrite app_length; cbn; lia).
  apply skipn_app_exact.
Qed.
Lemma qsplit_single u : qend false u = None -> qsplit false u = [u].
Proof. intros H. now rewrite qsplit_end, H. Qed.
Lemma qodd_notin u : ~ In hquote u -> qodd u = false.
Proof. intros H. unfold qodd, countc. apply (count_occ_not_In N.eq_dec) in H. now rewrite H. Qed.

Lemma balanced_escape v : forall o, balanced o v = true ->
  qend (negb o) (escape v) = None /\ xorb o (qodd (escape v)) = false.
Proof.
  induction v as [|c v IH]; intros o H.
  - cbn in *. destruct o; easy.
  - cbn [balanced] in H. change (escape (c :: v)) with ((if N.eqb c 92 || N.eqb c 34 then [92%N; c] else [c]) ++ escape v).
    destruct (N.eqb_spec c 34) as [->|H34].
    + destruct (IH _ H) as [I1 I2]. change (N.eqb 34 92 || true) with true. cbv iota. cbn [app qend].
      change (N.eqb 92 59) with false. change (N.eqb 92 34) with false. change (N.eqb 34 59) with false.
      cbn [andb]. change (N.eqb 34 34) with true. cbv iota. rewrite I1. split; [easy|].
      rewrite !qodd_cons. change (N.eqb 92 34) with false. change (N.eqb 34 34) with true. cbv iota.
      destruct o, (qodd (escape v)); easy.
    + rewrite orb_false_r. destruct (N.eqb_spec c 59) as [->|H59].
      * change (N.eqb 59 92) with false. cbv iota. apply andb_true_iff in H as [->%negb_true_iff H].
        destruct (IH _ H) as [I1 I2]. cbn [app qend negb andb]. change (N.eqb 59 59) with true.
        cbn [andb negb]. change (N.eqb 59 34) with false. cbv iota. cbn [negb] in I1. rewrite I1.
        rewrite qodd_cons. change (N.eqb 59 34) with false. easy.
      * destruct (IH _ H) as [I1 I2]. destruct (N.eqb_spec c 92) as [->|H92]; cbn [app qend].
        -- change (N.eqb 92 59) with false. change (N.eqb 92 34) with false. cbn [andb]. rewrite I1.
           rewrite !qodd_cons. change (N.eqb 92 34) with false. easy.
        -- destruct (N.eqb_spec c 59); [easy|]. destruct (N.eqb_spec c 34) as [->|H34']; [easy|].
           cbn [andb]. rewrite I1. rewrite qodd_cons. destruct (N.eqb_spec c 34); easy.
Qed.

Definition token_chars : str := Eval vm_compute in
  filter is_token_char (map N.of_nat (seq 0 128)).
Lemma token_char_in c : is_token_char c = true -> In c token_chars.
Proof.
  intros H. assert (Hc : (c < 128)%N).
  { unfold is_token_char in H. apply orb_true_iff in H as [H|H].
    - unfold is_alnum, is_alpha, is_upper, is_lower, is_digit in H. lia.
    - apply mem_In in H. repeat (destruct H as [<-|H]; [reflexivity|]). destruct H. }
  change token_chars with (filter is_token_char (map N.of_nat (seq 0 128))).
  apply filter_In. split; [|easy]. rewrite <- (N2Nat.id c). apply in_map, in_seq. lia.
Qed.
Lemma token_check (P : char -> bool) : forallb P token_chars = true ->
  forall c, is_token_char c = true -> P c = true.
Proof. intros H c Hc. rewrite forallb_forall in H. apply H, token_char_in, Hc. Qed.

Lemma token_all (P : char -> bool) s : forallb P token_chars = true -> is_token s = true ->
  forallb P s = true.
Proof.
  intros H [_ Ht]%andb_true_iff. rewrite forallb_forall in *. intros c Hc.
  apply (token_check P); [now apply forallb_forall|]. now apply Ht.
Qed.
Lemma token_notin c s : forallb (fun x => negb (N.eqb x c)) token_chars = true -> is_token s = true -> ~ In c s.
Proof.
  intros H Ht Hin. pose proof (token_all _ _ H Ht) as HA. rewrite forallb_forall in HA.
  specialize (HA c Hin). now rewrite N.eqb_refl in HA.
Qed.
Lemma token_nonempty s : is_token s = true -> s <> [].
Proof. intros [H _]%andb_true_iff. now destruct s. Qed.

Lemma endswith1 s c : endswith (lower s) [c] = true -> lowerc c = c ->
  (forall x, lowerc x = c -> x = c) -> endswith s [c] = true.
Proof.
  unfold endswith, lower. rewrite <- map_rev. cbn [rev app]. intros H H1 H2. destruct (rev s) as [|x r]; [easy|].
  cbn in *. destruct (N.eqb_spec c (lowerc x)) as [E|]; [|easy]. rewrite (H2 x (eq_sym E)). now rewrite N.eqb_refl.
Qed.

Definition pname_ok (n : str) : bool := is_token n && negb (endswith n [hstar]).
Definition pval_ok (p : pval) : bool := match p with Tok v => is_token v | Quo v => balanced false v end.
Definition param_ok (p : str * pval) : bool := pname_ok (fst p) && pval_ok (snd p).
Definition piece_of (p : str * pval) : str := 32%N :: fst p ++ !"=" ++ render_val (snd p).

Lemma val_quiet v : pval_ok v = true -> qend false (render_val v) = None /\ qodd (render_val v) = false.
Proof.
  destruct v as [v|v]; cbn [pval_ok render_val]; intros H.
  - split; [apply qend_none|apply qodd_notin]; now apply token_notin.
  - destruct (balanced_escape _ _ H) as [H1 H2]. cbn [app qend]. change (N.eqb 34 59) with false.
    change (N.eqb 34 34) with true. cbn [andb negb] in *. cbv iota. rewrite qend_app by easy.
    rewrite qodd_cons, qodd_app. change (N.eqb 34 34) with true. cbv iota. destruct (qodd (escape v)); easy.
Qed.
Lemma piece_quiet p : param_ok p = true -> qend false (piece_of p) = None /\ qodd (piece_of p) = false.
Proof.
  intros [Hn Hv]%andb_true_iff. apply andb_true_iff in Hn as [Hn _].
  destruct (val_quiet _ Hv) as [V1 V2].
  assert (HS : ~ In hsemi (32%N :: fst p ++ !"=")).
  { intros [H|H]; [easy|]. apply in_app_or in H as [H|[H|[]]]; [|easy].
    now apply (token_notin hsemi (fst p)). }
  assert (HQ : ~ In hquote (32%N :: fst p ++ !"=")).
  { intros [H|H]; [easy|]. apply in_app_or in H as [H|[H|[]]]; [|easy].
    now apply (token_notin hquote (fst p)). }
  assert (E : piece_of p = (32%N :: fst p ++ !"=") ++ render_val (snd p))
    by (unfold piece_of; cbn [app]; now rewrite <- app_assoc).
  rewrite E, qodd_app, qend_app, (qodd_notin _ HQ), V2 by now apply qend_none.
  cbn [xorb]. now rewrite V1.
Qed.
Lemma qsplit_params : forall ps u, Forall (fun p => param_ok p = true) ps -> qend false u = None -> qodd u = false ->
  qsplit false (u ++ flat_map render_param ps) = u :: map piece_of ps.
Proof.
  induction ps as [|p ps IH]; intros u H H1 H2; cbn [flat_map map].
  - rewrite app_nil_r. now apply qsplit_single.
  - inversion H as [|? ? Hp Hps]; subst.
    change (render_param p ++ flat_map render_param ps) with (hsemi :: piece_of p ++ flat_map render_param ps).
    destruct (piece_quiet p Hp) as [Q1 Q2]. rewrite qsplit_piece by easy. now rewrite IH.
Qed.

Lemma render_val_tight v : pval_ok v = true -> tight (render_val v) = true.
Proof.
  destruct v as [v|v]; cbn [pval_ok render_val]; intros H.
  - apply tight_by_all. intros c Hc. pose proof (token_all (fun c => negb (is_ws c)) v eq_refl H) as HA.
    rewrite forallb_forall in HA. apply negb_true_iff, HA, Hc.
  - unfold tight, tight_by. cbn [app]. change (34%N :: escape v ++ [34%N]) with ((34%N :: escape v) ++ [34%N]).
    now rewrite last_last.
Qed.
Lemma unquote_render_val v : pval_ok v = true -> unquote_value (render_val v) = pval_of v.
Proof.
  destruct v as [v|v]; cbn [pval_ok render_val pval_of]; intros H.
  - apply unquote_value_plain. now apply token_notin.
  - apply unquote_value_quoted.
Qed.
Lemma decode_ascii_token n : is_token n = true -> decode_ascii (lower n) = Ok (lower n).
Proof.
  intros H. unfold decode_ascii. replace (ascii_only (lower n)) with true; [easy|].
  unfold ascii_only, lower. symmetry. apply forallb_forall. intros c (x & <- & Hx)%in_map_iff.
  pose proof (token_all (fun c => is_ascii (lowerc c)) n eq_refl H) as HA.
  rewrite forallb_forall in HA. now apply HA.
Qed.
Lemma parse_param_render reg p : param_ok p = true ->
  parse_param reg (strip (piece_of p)) = Ok (Some (lower (fst p), PB (pval_of (snd p)))).
Proof.
  intros H. pose proof H as [Hn Hv]%andb_true_iff. apply andb_true_iff in Hn as [Hn Hs].
  destruct p as [n v]. cbn [fst snd] in *.
  assert (HT : tight n = true).
  { apply tight_by_all. intros c Hc. pose proof (token_all (fun c => negb (is_ws c)) n eq_refl Hn) as HA.
    rewrite forallb_forall in HA. apply negb_true_iff, HA, Hc. }
  assert (Enb : strip (piece_of (n, v)) = n ++ hequal :: render_val v).
  { pose proof (render_val_tight v Hv) as HV.
    pose proof (strip_by_pad is_ws [32%N] (n ++ hequal :: render_val v) []) as HP.
    rewrite app_nil_r in HP. apply HP; try easy.
    pose proof (token_nonempty n Hn) as Hne. unfold tight, tight_by in *.
    destruct n as [|x n]; [easy|]. cbn [app].
    assert (HVne : render_val v <> []) by (destruct v as [v|v]; [now apply token_nonempty|easy]).
    destruct (last_nonnil (render_val v) 0%N HVne) as [s' Es]. rewrite Es.
    replace (x :: n ++ hequal :: s' ++ [last (render_val v) 0%N])
      with ((x :: n ++ hequal :: s') ++ [last (render_val v) 0%N]) by (cbn; now rewrite <- app_assoc).
    rewrite last_last. destruct (render_val v) as [|y w]; [easy|].
    apply andb_true_iff in HT as [HT1 _]. apply andb_true_iff in HV as [_ HV2].
    rewrite HT1. replace (last (y :: w) 0%N) with (last (y :: w) y); [exact HV2|].
    clear. assert (G : forall w (y d e : N), last (y :: w) d = last (y :: w) e)
      by (induction w0 as [|z w0 IH]; intros; [easy|apply (IH z)]). apply G.
    now destruct n. }
  rewrite Enb. unfold parse_param.
  rewrite findc_app by now apply token_notin. rewrite firstn_app_exact.
  assert (HSn : strip n = n) by now apply strip_by_tight. rewrite HSn, decode_ascii_token by easy.
  cbn [bind]. destruct (endswith (lower n) [hstar]) eqn:ES.
  { exfalso. apply negb_true_iff in Hs. rewrite endswith1 in Hs; try easy.
    intros x Hx. unfold lowerc in Hx. destruct (N.leb 65 x && N.leb x 90) eqn:EU; [|easy].
    unfold hstar in Hx. lia. }
  cbn [andb].
  replace (skipn (S (length n)) (n ++ hequal :: render_val v)) with (render_val v).
  2:{ change (hequal :: render_val v) with ([hequal] ++ render_val v). rewrite app_assoc.
      replace (S (length n)) with (length (n ++ [hequal])) by (rewrite app_length; cbn; lia).
      now rewrite skipn_app_exact. }
  cbn [bind pmap]. rewrite (strip_by_tight is_ws) by now apply render_val_tight.
  now rewrite unquote_render_val.
Qed.

Lemma parse_params_render reg : forall ps d, Forall (fun p => param_ok p = true) ps ->
  parse_params reg (map strip (map piece_of ps)) d =
  Ok (fold_left (fun d p => dset (lower (fst p)) (PB (pval_of (snd p))) d) ps d).
Proof.
  induction ps as [|p ps IH]; intros d H; [easy|]. inversion H as [|? ? Hp Hps]; subst.
  cbn [map parse_params fold_left]. rewrite parse_param_render by easy. cbn [bind]. now apply IH.
Qed.
Lemma fold_params n : forall ps d acc, dget n d = option_map PB acc ->
  dget n (fold_left (fun d p => dset (lower (fst p)) (PB (pval_of (snd p))) d) ps d) =
  option_map PB (fold_left (fun acc p => if seqb (lower (fst p)) n then Some (pval_of (snd p)) else acc) ps acc).
Proof.
  induction ps as [|p ps IH]; intros d acc H; [easy|]. cbn [fold_left]. apply IH.
  rewrite dget_dset. destruct (seqb n (lower (fst p))) eqn:E.
  - apply seqb_eq in E. subst. now rewrite seqb_refl.
  - destruct (seqb (lower (fst p)) n) eqn:E2; [|easy]. apply seqb_eq in E2. subst. now rewrite seqb_refl in E.
Qed.

Definition main_ok (m : str) : bool := ascii_only m && negb (mem hsemi m) && negb (mem hquote m).
Lemma lower_ascii s : ascii_only s = true -> ascii_only (lower s) = true.
Proof.
  unfold ascii_only, lower. rewrite !forallb_forall. intros H c (x & <- & Hx)%in_map_iff.
  specialize (H x Hx). unfold is_ascii, lowerc in *. destruct (N.leb 65 x && N.leb x 90) eqn:E; [|easy]. lia.
Qed.
Lemma strip_ascii s : ascii_only s = true -> ascii_only (strip s) = true.
Proof. unfold ascii_only. rewrite !forallb_forall. intros H c Hc. apply H. now apply strip_In. Qed.
Lemma parse_header_render reg main ps : main_ok main = true -> Forall (fun p => param_ok p = true) ps ->
  exists d, parse_header reg (render main ps) = Ok (lower (strip main), d) /\
            forall n, dget n d = option_map PB (last_value n ps).
Proof.
  intros Hm H. apply andb_true_iff in Hm as [Hm Hq]. apply andb_true_iff in Hm as [Ha Hs].
  apply negb_true_iff, mem_nIn in Hq, Hs.
  eexists. split.
  - unfold parse_header, render. rewrite parse_header_params_spec, qsplit_params;
      [|easy|now apply qend_none|now apply qodd_notin].
    cbn [map]. unfold decode_ascii. rewrite lower_ascii by now apply strip_ascii. cbn [bind].
    rewrite parse_params_render by easy. cbn [bind]. reflexivity.
  - intros n. now apply fold_params.
Qed.
