(** * Proofs about percent-encoding *)
From Verif Require Import Py Spec PyFacts PercentModel.

Definition is_HEX (c : char) : bool := is_digit c || (N.leb 65 c && N.leb c 70).

Lemma N_cases16 n : (n < 16)%N -> (n = 0 \/ n = 1 \/ n = 2 \/ n = 3 \/ n = 4 \/ n = 5 \/ n = 6 \/ n = 7 \/
  n = 8 \/ n = 9 \/ n = 10 \/ n = 11 \/ n = 12 \/ n = 13 \/ n = 14 \/ n = 15)%N.
Proof. lia. Qed.
Lemma hexval_hexdig d : (d < 16)%N -> hexval (hexdig d) = Some d.
Proof. intros H. apply N_cases16 in H. repeat destruct H as [->|H]; try reflexivity. now subst. Qed.
Lemma hexdig_HEX d : (d < 16)%N -> is_HEX (hexdig d) = true.
Proof. intros H. apply N_cases16 in H. repeat destruct H as [->|H]; try reflexivity. now subst. Qed.
Lemma HEX_safe c : is_HEX c = true -> always_safe c = true.
Proof.
  unfold is_HEX, always_safe, is_alnum, is_alpha, is_upper. destruct (is_digit c); cbn.
  - now rewrite orb_true_r.
  - rewrite !andb_true_iff, !N.leb_le. intros H.
    assert (H1 : N.leb 65 c = true) by (apply N.leb_le; lia).
    assert (H2 : N.leb c 90 = true) by (apply N.leb_le; lia). now rewrite H1, H2.
Qed.

Lemma quote_cons safe c s : quote safe (c :: s) = quote_byte safe c ++ quote safe s.
Proof. reflexivity. Qed.
Lemma quote_app safe a b : quote safe (a ++ b) = quote safe a ++ quote safe b.
Proof. apply flat_map_app. Qed.

Lemma unquote_plain c s : c <> percent -> unquote_to_bytes (c :: s) = c :: unquote_to_bytes s.
Proof.
  intros H. apply N.eqb_neq in H. destruct s as [|a [|b t]]; try reflexivity.
  cbn [unquote_to_bytes]. now rewrite H.
Qed.
Lemma unquote_escape x y s : (x < 16)%N -> (y < 16)%N ->
  unquote_to_bytes ([percent; hexdig x; hexdig y] ++ s) = (x * 16 + y)%N :: unquote_to_bytes s.
Proof.
  intros Hx Hy. cbn [app unquote_to_bytes]. now rewrite N.eqb_refl, !hexval_hexdig.
Qed.

Lemma mem_percent_safe safe c : mem percent safe = false -> (always_safe c || mem c safe) = true -> c <> percent.
Proof. intros H H1 ->. rewrite H in H1. now cbn in H1. Qed.

Theorem unquote_quote safe s : mem percent safe = false -> bytes_only s = true ->
  unquote_to_bytes (quote safe s) = s.
Proof.
  intros Hs. induction s as [|c s IH]; [easy|]. intros Hb. cbn in Hb. apply andb_true_iff in Hb as [Hc Hb].
  rewrite quote_cons. unfold quote_byte. destruct (always_safe c || mem c safe) eqn:E.
  - cbn [app]. rewrite unquote_plain by now apply (mem_percent_safe safe). now rewrite IH.
  - apply N.ltb_lt in Hc. rewrite unquote_escape.
    + rewrite IH by easy. f_equal. rewrite N.mul_comm. symmetry. apply N.div_mod. lia.
    + apply N.div_lt_upper_bound; lia.
    + apply N.mod_lt. lia.
Qed.
(** without '%' in the input, '%' may be a safe character *)
Theorem unquote_quote_nopercent safe s : ~ In percent s -> bytes_only s = true ->
  unquote_to_bytes (quote safe s) = s.
Proof.
  induction s as [|c s IH]; [easy|]. intros Hn Hb. cbn in Hb. apply andb_true_iff in Hb as [Hc Hb].
  rewrite quote_cons. unfold quote_byte. destruct (always_safe c || mem c safe) eqn:E.
  - cbn [app]. rewrite unquote_plain by (intros ->; apply Hn; now left). rewrite IH; [easy| |easy].
    intros H. apply Hn. now right.
  - apply N.ltb_lt in Hc. rewrite unquote_escape.
    + rewrite IH; [|intros H; apply Hn; now right|easy]. f_equal. rewrite N.mul_comm. symmetry. apply N.div_mod. lia.
    + apply N.div_lt_upper_bound; lia.
    + apply N.mod_lt. lia.
Qed.

(** characters of the output *)
Theorem quote_chars safe s c : bytes_only s = true -> In c (quote safe s) ->
  (always_safe c || mem c safe = true /\ In c s) \/ c = percent \/ is_HEX c = true.
Proof.
  induction s as [|x s IH]; [easy|]. intros Hb Hin. cbn in Hb. apply andb_true_iff in Hb as [Hx Hb].
  rewrite quote_cons in Hin. apply in_app_or in Hin as [Hin|Hin].
  - unfold quote_byte in Hin. destruct (always_safe x || mem x safe) eqn:E.
    + destruct Hin as [<-|[]]. left. split; [easy|now left].
    + apply N.ltb_lt in Hx. destruct Hin as [<-|[<-|[<-|[]]]]; [now right; left| |].
      * right. right. apply hexdig_HEX. apply N.div_lt_upper_bound; lia.
      * right. right. apply hexdig_HEX. apply N.mod_lt. lia.
  - destruct (IH Hb Hin) as [[H1 H2]|H]; [left; split; [easy|now right]|now right].
Qed.
Theorem quote_fixed safe s : (forall c, In c s -> always_safe c || mem c safe = true) -> quote safe s = s.
Proof.
  induction s as [|c s IH]; [easy|]. intros H. rewrite quote_cons. unfold quote_byte.
  rewrite (H c) by now left. cbn. now rewrite IH by (intros x Hx; apply H; now right).
Qed.
Theorem quote_idempotent safe s : mem percent safe = true -> bytes_only s = true ->
  quote safe (quote safe s) = quote safe s.
Proof.
  intros Hp Hb. apply quote_fixed. intros c Hin.
  destruct (quote_chars safe s c Hb Hin) as [[H _]|[->|H]]; [easy|now rewrite Hp, orb_true_r|].
  now rewrite (HEX_safe _ H).
Qed.
Lemma quote_ascii safe s : bytes_only s = true -> (forall c, In c safe -> (c < 128)%N) ->
  forall c, In c (quote safe s) -> (c < 128)%N.
Proof.
  intros Hb Hs c Hin. destruct (quote_chars safe s c Hb Hin) as [[H _]|[->|H]].
  - apply orb_true_iff in H as [H|H]; [|apply Hs; now apply mem_In].
    unfold always_safe, is_alnum, is_alpha, is_upper, is_lower, is_digit in H.
    rewrite !orb_true_iff, !andb_true_iff, !N.leb_le, !N.eqb_eq in H. lia.
  - reflexivity.
  - unfold is_HEX, is_digit in H. rewrite !orb_true_iff, !andb_true_iff, !N.leb_le in H. lia.
Qed.
