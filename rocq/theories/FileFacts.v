(** * Proofs about file iteration *)
From Verif Require Import Py PyFacts FileModel FileSpec.

(** ** The lines of a string are unique *)
Lemma no_newline_head b c : no_newline (c :: b) -> no_newline b.
Proof. intros [H1 H2]. split; intros H; [apply H1|apply H2]; now right. Qed.
Lemma no_newline_nil : no_newline [].
Proof. now split. Qed.
Lemma no_newline_cons c b : c <> CR -> c <> LF -> no_newline b -> no_newline (c :: b).
Proof. intros H1 H2 [H3 H4]. split; cbn; intros [H|H]; auto. Qed.
Lemma no_newline_app a b : no_newline a -> no_newline b -> no_newline (a ++ b).
Proof. intros [H1 H2] [H3 H4]. split; intros H; apply in_app_or in H; tauto. Qed.

Lemma splitlines_spec : forall n s, length s <= n -> is_lines s (splitlines_loop s).
Proof.
  induction n as [|n IH]; intros s Hl.
  { destruct s; cbn in Hl; [constructor|lia]. }
  destruct s as [|c t]; [constructor|]. cbn [splitlines_loop]. cbn in Hl.
  destruct (N.eqb_spec c LF) as [->|Hlf].
  { change ([LF] :: splitlines_loop t) with (([] ++ [LF]) :: splitlines_loop t).
    change (LF :: t) with ([] ++ LF :: t). apply lines_lf; [apply no_newline_nil|apply IH; lia]. }
  destruct (N.eqb_spec c CR) as [->|Hcr].
  { destruct t as [|d t'].
    - apply (lines_cr [] [] []); [apply no_newline_nil|easy|constructor].
    - destruct (N.eqb_spec d LF) as [->|Hd].
      + apply (lines_crlf [] t' _); [apply no_newline_nil|]. apply IH. cbn in Hl. lia.
      + apply (lines_cr [] (d :: t') _); [apply no_newline_nil|easy|]. apply IH. lia. }
  assert (IHt : is_lines t (splitlines_loop t)) by (apply IH; lia).
  assert (Hc : forall b, no_newline b -> no_newline (c :: b)) by (intros; now apply no_newline_cons).
  inversion IHt as [H1 H2|b Hb1 Hb2 H1 H2|b s L Hb Hs H1 H2|b s L Hb Hs H1 H2|b s L Hb Hh Hs H1 H2].
  - apply lines_last; [easy|]. apply Hc, no_newline_nil.
  - apply lines_last; [easy|]. subst. now apply Hc.
  - change (c :: b ++ LF :: s) with ((c :: b) ++ LF :: s).
    change (c :: b ++ [LF]) with ((c :: b) ++ [LF]). apply lines_lf; auto.
  - change (c :: b ++ CR :: LF :: s) with ((c :: b) ++ CR :: LF :: s).
    change (c :: b ++ [CR; LF]) with ((c :: b) ++ [CR; LF]). apply lines_crlf; auto.
  - change (c :: b ++ CR :: s) with ((c :: b) ++ CR :: s).
    change (c :: b ++ [CR]) with ((c :: b) ++ [CR]). apply lines_cr; auto.
Qed.

(** every list of lines of [s] is the one computed by [splitlines] *)
Lemma splitlines_prefix b s : no_newline b -> b <> [] ->
  splitlines_loop (b ++ s) =
  match splitlines_loop s with
  | [] => [b]
  | l :: r => (b ++ l) :: r
  end.
Proof.
  induction b as [|c b IH]; [easy|]. intros Hn _. cbn.
  assert (Hc : c <> LF /\ c <> CR).
  { destruct Hn as [H1 H2]. split; intros ->; [apply H2|apply H1]; now left. }
  destruct Hc as [Hc1 Hc2].
  destruct (N.eqb_spec c LF); [easy|]. destruct (N.eqb_spec c CR); [easy|].
  destruct b as [|c' b].
  - cbn. destruct (splitlines_loop s); easy.
  - rewrite IH; [|eapply no_newline_head; eauto|easy].
    destruct (splitlines_loop s); easy.

Qed.

Lemma splitlines_prefix' b s l r : no_newline b -> splitlines_loop s = l :: r ->
  splitlines_loop (b ++ s) = (b ++ l) :: r.
Proof.
  intros Hb Hs. destruct b as [|c b]; [easy|]. rewrite splitlines_prefix by easy. now rewrite Hs.
Qed.

Lemma is_lines_splitlines s L : is_lines s L -> L = splitlines s.
Proof.
  unfold splitlines. induction 1 as [|b H1 H2|b s L Hb HL IH|b s L Hb HL IH|b s L Hb Hh HL IH].
  - easy.
  - pose proof (splitlines_prefix b [] H2 H1) as H. rewrite app_nil_r in H. now rewrite H.
  - erewrite splitlines_prefix'; [now rewrite IH|easy|]. cbn. reflexivity.
  - erewrite splitlines_prefix'; [now rewrite IH|easy|]. cbn. reflexivity.
  - erewrite splitlines_prefix'; [now rewrite IH|easy|]. cbn [splitlines_loop].
    change (N.eqb CR LF) with false. change (N.eqb CR CR) with true. cbn iota.
    destruct s as [|d s]; [easy|]. cbn in Hh. now destruct (N.eqb_spec d LF).
Qed.

Lemma is_lines_concat s L : is_lines s L -> concat L = s.
Proof.
  induction 1; cbn; rewrite ?app_nil_r, <- ?app_assoc; cbn; congruence.
Qed.

(** ** The iterator *)
(** a piece: what [splitlines] delivers *)
Definition piece (l : str) : Prop :=
  exists b t, l = b ++ t /\ no_newline b /\ l <> [] /\ (t = [] \/ t = [LF] \/ t = [CR] \/ t = [CR; LF]).

Lemma is_lines_pieces s L : is_lines s L -> Forall piece L.
Proof.
  induction 1 as [|b H1 H2|b s L Hb HL IH|b s L Hb HL IH|b s L Hb Hh HL IH]; constructor; auto.
  - exists b, []. rewrite app_nil_r. tauto.
  - exists b, [LF]. split; [easy|]. split; [easy|]. split; [now destruct b|tauto].
  - exists b, [CR; LF]. split; [easy|]. split; [easy|]. split; [now destruct b|tauto].
  - exists b, [CR]. split; [easy|]. split; [easy|]. split; [now destruct b|tauto].
Qed.

Lemma endswith_last s x c : endswith (s ++ [x]) [c] = N.eqb c x.
Proof. unfold endswith. rewrite rev_app_distr. cbn. now rewrite andb_true_r. Qed.

Lemma endswith_notin s c : ~ In c s -> endswith s [c] = false.
Proof.
  intros H. destruct s as [|x s] using rev_ind; [easy|]. rewrite endswith_last.
  apply N.eqb_neq. intros ->. apply H. apply in_or_app. right. now left.
Qed.

Lemma is_lines_cons_piece l s L : piece l -> endswith_lf l = true -> is_lines s L ->
  is_lines (l ++ s) (l :: L).
Proof.
  intros (b & t & -> & Hb & Hne & Ht) Hlf HL. rewrite <- app_assoc.
  destruct Ht as [->|[->|[->| ->]]].
  - rewrite app_nil_r in *. unfold endswith_lf in Hlf. now rewrite endswith_notin in Hlf by apply Hb.
  - now apply lines_lf.
  - unfold endswith_lf in Hlf. now rewrite endswith_last in Hlf.
  - now apply lines_crlf.
Qed.

(** a buffered piece: not empty and not ending with LF *)
Lemma piece_open l : piece l -> endswith_lf l = false ->
  l <> [] /\ (no_newline l \/ exists b, l = b ++ [CR] /\ no_newline b).
Proof.
  intros (b & t & -> & Hb & Hne & Ht) Hlf. split; [easy|].
  destruct Ht as [->|[->|[->| ->]]].
  - left. now rewrite app_nil_r.
  - unfold endswith_lf in Hlf. now rewrite endswith_last in Hlf.
  - right. now exists b.
  - change [CR; LF] with ([CR] ++ [LF]) in Hlf. rewrite app_assoc in Hlf.
    unfold endswith_lf in Hlf. now rewrite endswith_last in Hlf.
Qed.

Lemma piece_hd_lf l : piece l -> hd 0%N l = LF -> l = [LF].
Proof.
  intros (b & t & -> & Hb & Hne & Ht) Hh. destruct b as [|c b].
  - cbn in *. destruct Ht as [->|[->|[->| ->]]]; easy.
  - cbn in Hh. subst c. exfalso. apply (proj2 Hb). now left.
Qed.

Lemma iter_lines_spec ls : Forall piece ls ->
  is_lines (concat ls) (iter_lines None ls) /\
  forall b, piece b -> endswith_lf b = false -> is_lines (b ++ concat ls) (iter_lines (Some b) ls).
Proof.
  intros HF. induction HF as [|l ls Hl HF [IH1 IH2]]; cbn [iter_lines concat].
  { split; [constructor|]. intros b Hb Hlf. rewrite app_nil_r.
    destruct (piece_open b Hb Hlf) as [Hne [H|(b' & -> & H)]].
    - now apply lines_last.
    - change [b' ++ [CR]] with ((b' ++ [CR]) :: []). change (b' ++ [CR]) with (b' ++ CR :: []) at 1.
      apply lines_cr; [easy|easy|constructor]. }
  split.
  - cbn [iter_line]. destruct (endswith_lf l) eqn:E; cbn [app].
    + now apply is_lines_cons_piece.
    + now apply IH2.
  - intros b Hb Hlf. destruct (piece_open b Hb Hlf) as [Hne Ho].
    destruct b as [|b0 b']; [easy|]. cbn [iter_line]. set (b := b0 :: b') in *.
    destruct (endswith_cr b && negb (equals_lf l)) eqn:E.
    + apply andb_prop in E. destruct E as [E1 E2].
      destruct Ho as [Ho|(bb & Hbb & Ho)].
      { unfold endswith_cr in E1. now rewrite endswith_notin in E1 by apply Ho. }
      assert (Hh : hd 0%N (l ++ concat ls) <> LF).
      { intros Hh. assert (l = [LF]).
        { apply piece_hd_lf; [easy|]. destruct l; [|easy]. destruct Hl as (? & ? & ? & ? & ? & ?). easy. }
        subst l. discriminate E2. }
      destruct (endswith_lf l) eqn:E3; cbn [app].
      * rewrite Hbb. rewrite <- app_assoc. cbn [app]. apply lines_cr; [easy|easy|].
        now apply is_lines_cons_piece.
      * rewrite Hbb. rewrite <- app_assoc. cbn [app]. apply lines_cr; [easy|easy|]. now apply IH2.
    + assert (Hp : piece (b ++ l)).
      { destruct Ho as [Ho|(bb & Hbb & Ho)].
        - destruct Hl as (lb & t & -> & Hlb & Hlne & Ht).
          exists (b ++ lb), t. split; [now rewrite app_assoc|]. split; [now apply no_newline_app|].
          split; [easy|easy].
        - rewrite Hbb in E. unfold endswith_cr in E. rewrite endswith_last in E. cbn in E.
          apply negb_false_iff in E. apply seqb_eq in E. subst l. rewrite Hbb.
          exists bb, [CR; LF]. split; [now rewrite <- app_assoc|]. split; [easy|].
          split; [now destruct bb|tauto]. }
      rewrite app_assoc. destruct (endswith_lf (b ++ l)) eqn:E3; cbn [app].
      * now apply is_lines_cons_piece.
      * now apply IH2.
Qed.

Lemma splitlines_is_lines s : is_lines s (splitlines s).
Proof. now apply (splitlines_spec (length s)). Qed.

Lemma concat_flat_splitlines cs : concat (flat_map splitlines cs) = concat cs.
Proof.
  induction cs as [|c cs IH]; [easy|]. cbn. rewrite concat_app, IH. f_equal.
  apply is_lines_concat, splitlines_is_lines.
Qed.

Lemma file_iter_chunks_spec cs : is_lines (concat cs) (file_iter_chunks cs).
Proof.
  unfold file_iter_chunks. rewrite <- concat_flat_splitlines. apply iter_lines_spec.
  induction cs as [|c cs IH]; [constructor|]. cbn. apply Forall_app. split; [|easy].
  eapply is_lines_pieces, splitlines_is_lines.
Qed.

(** ** Chunks *)
Lemma chunks_loop_pos : forall fuel n data pos, (0 < n)%Z -> pos <= length data -> length data - pos < fuel ->
  let (cs, f) := chunks_loop fuel n (mkFile data pos) in
  concat cs = skipn pos data /\ blocks (Z.to_nat n) cs /\ f = mkFile data (length data).
Proof.
  induction fuel as [|fuel IH]; intros n data pos Hn Hp Hf; [lia|].
  cbn [chunks_loop]. unfold fo_read. cbn [fo_pos fo_data].
  destruct (Z.ltb_spec n 0) as [H|_]; [lia|].
  destruct (firstn (Z.to_nat n) (skipn pos data)) as [|x d] eqn:E.
  - assert (Hnil : skipn pos data = []).
    { destruct (skipn pos data) eqn:E2; [easy|]. destruct (Z.to_nat n) eqn:E3; [lia|easy]. }
    rewrite Hnil. split; [easy|]. split; [constructor|]. f_equal.
    assert (length (skipn pos data) = 0) by now rewrite Hnil. rewrite skipn_length in *. cbn. lia.
  - set (D := x :: d) in *.
    assert (HD : length D = Nat.min (Z.to_nat n) (length data - pos)).
    { rewrite <- E, firstn_length, skipn_length. easy. }
    assert (HD1 : 1 <= length D) by (cbn; lia).
    specialize (IH n data (pos + length D) Hn ltac:(lia) ltac:(lia)).
    destruct (chunks_loop fuel n (mkFile data (pos + length D))) as [cs f].
    destruct IH as (IH1 & IH2 & IH3).
    assert (Hcat : concat (D :: cs) = skipn pos data).
    { cbn [concat]. rewrite IH1. rewrite <- E. rewrite firstn_length, skipn_length.
      replace (skipn (pos + Nat.min (Z.to_nat n) (length data - pos)) data)
        with (skipn (Z.to_nat n) (skipn pos data)).
      - apply firstn_skipn.
      - rewrite skipn_skipn'. destruct (Nat.le_gt_cases (Z.to_nat n) (length data - pos)).
        + now rewrite Nat.min_l by lia.
        + rewrite Nat.min_r by lia. rewrite !skipn_all2 by lia. easy. }
    split; [exact Hcat|]. split; [|easy].
    destruct cs as [|c cs].
    + apply blocks_last. lia.
    + apply blocks_cons; [|easy|easy].
      destruct (Nat.le_gt_cases (Z.to_nat n) (length data - pos)); [lia|].
      assert (skipn (pos + length D) data = []) by (apply skipn_all2; lia).
      rewrite H0 in IH1. inversion IH2; subst; cbn in IH1.
      * rewrite app_nil_r in IH1. subst. cbn in *. lia.
      * apply app_eq_nil in IH1. destruct IH1 as [-> _]. cbn in *. lia.
Qed.

Lemma chunks_loop_neg n fuel data pos : (n < 0)%Z -> 1 < fuel -> pos <= length data ->
  chunks_loop fuel n (mkFile data pos) =
  (match skipn pos data with [] => [] | d => [d] end, mkFile data (length data)).
Proof.
  intros Hn Hf Hp. destruct fuel as [|[|fuel]]; [lia|lia|]. cbn [chunks_loop]. unfold fo_read. cbn [fo_pos fo_data].
  destruct (Z.ltb_spec n 0) as [_|H]; [|lia].
  assert (Hl := skipn_length pos data).
  destruct (skipn pos data) as [|x d] eqn:E.
  - cbn in *. f_equal. f_equal. lia.
  - rewrite Hl. replace (pos + (length data - pos)) with (length data) by lia.
    rewrite skipn_all. cbn. now rewrite Nat.add_0_r.
Qed.

Lemma chunk_size_of_nz n : chunk_size_of n <> 0%Z.
Proof. unfold chunk_size_of. destruct n as [z|]; [destruct (Z.eqb_spec z 0)|]; cbn; lia. Qed.

Lemma file_chunks_concat n f : concat (fst (file_chunks n f)) = fo_data f.
Proof.
  unfold file_chunks, fo_seek0. pose proof (chunk_size_of_nz n) as Hz.
  destruct (Z.lt_ge_cases (chunk_size_of n) 0) as [H|H].
  - destruct (fo_data f) as [|x d] eqn:E.
    + cbn. unfold fo_read. cbn. destruct (Z.ltb (chunk_size_of n) 0); [easy|]. now rewrite firstn_nil.
    + rewrite chunks_loop_neg; [|easy|cbn; lia|cbn; lia]. cbn [skipn fst]. cbn. now rewrite app_nil_r.
  - pose proof (chunks_loop_pos (S (length (fo_data f))) (chunk_size_of n) (fo_data f) 0
                  ltac:(lia) ltac:(lia) ltac:(lia)) as Hc.
    destruct (chunks_loop _ _ _) as [cs f']. cbn [fst]. now destruct Hc as (-> & _).
Qed.

Lemma file_chunks_blocks n f : (0 < chunk_size_of n)%Z ->
  blocks (Z.to_nat (chunk_size_of n)) (fst (file_chunks n f)).
Proof.
  intros H. unfold file_chunks, fo_seek0.
  pose proof (chunks_loop_pos (S (length (fo_data f))) (chunk_size_of n) (fo_data f) 0
                ltac:(lia) ltac:(lia) ltac:(lia)) as Hc.
  destruct (chunks_loop _ _ _) as [cs f']. now destruct Hc as (_ & ? & _).
Qed.

Lemma file_iter_eq f : file_iter f = splitlines (fo_data f).
Proof.
  apply is_lines_splitlines. unfold file_iter.
  rewrite <- (file_chunks_concat None f) at 1. apply file_iter_chunks_spec.
Qed.

Lemma mem_chunks_eq n f : fst (mem_chunks n f) = [fo_data f].
Proof. reflexivity. Qed.

Lemma mem_iter_eq f : mem_iter f = splitlines (fo_data f).
Proof.
  apply is_lines_splitlines. unfold mem_iter. rewrite mem_chunks_eq.
  pose proof (file_iter_chunks_spec [fo_data f]) as H. cbn [concat] in H. now rewrite app_nil_r in H.
Qed.
