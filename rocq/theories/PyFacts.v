(** * Facts about the Python built-ins of [Py.v] *)
From Verif Require Import Py Spec.

Lemma seqb_eq a b : seqb a b = true <-> a = b.
Proof.
  revert b; induction a as [|x a IH]; intros [|y b]; cbn; split; intros H; try easy.
  - apply andb_true_iff in H as [H1 H2]. apply N.eqb_eq in H1. apply IH in H2. now subst.
  - injection H as -> ->. rewrite N.eqb_refl. cbn. now apply IH.
Qed.
Lemma seqb_refl a : seqb a a = true.
Proof. now apply seqb_eq. Qed.
Lemma seqb_neq a b : seqb a b = false <-> a <> b.
Proof.
  destruct (seqb a b) eqn:E; split; intros H; try easy.
  - apply seqb_eq in E. contradiction.
  - intros ->. now rewrite seqb_refl in E.
Qed.
Lemma str_eq_dec (a b : str) : {a = b} + {a <> b}.
Proof. apply list_eq_dec, N.eq_dec. Qed.

Lemma prefixb_iff p s : prefixb p s = true <-> exists t, s = p ++ t.
Proof.
  revert s; induction p as [|x p IH]; intros s; cbn; split; intros H.
  - now exists s.
  - easy.
  - destruct s as [|y s]; [easy|]. apply andb_true_iff in H as [H1 H2].
    apply N.eqb_eq in H1. apply IH in H2 as [t ->]. subst. now exists t.
  - destruct H as [t ->]. cbn. rewrite N.eqb_refl. cbn. apply IH. now exists t.
Qed.
Lemma prefixb_app p t : prefixb p (p ++ t) = true.
Proof. apply prefixb_iff. now exists t. Qed.
Lemma prefixb_skip p s : prefixb p s = true -> s = p ++ skipn (length p) s.
Proof.
  intros H. apply prefixb_iff in H as [t ->].
  now rewrite skipn_app, skipn_all, Nat.sub_diag.
Qed.

Lemma mem_In c s : mem c s = true <-> In c s.
Proof.
  unfold mem. rewrite existsb_exists. split.
  - intros (x & Hx & E). apply N.eqb_eq in E. now subst.
  - intros H. exists c. split; [easy|apply N.eqb_refl].
Qed.
Lemma mem_nIn c s : mem c s = false <-> ~ In c s.
Proof. rewrite <- mem_In. destruct (mem c s); split; congruence. Qed.
Lemma mem_app c s t : mem c (s ++ t) = mem c s || mem c t.
Proof. unfold mem. apply existsb_app. Qed.

(** ** find *)
Lemma find_eq p s :
  find p s = if prefixb p s then Some 0
             else match s with [] => None | _ :: t => option_map S (find p t) end.
Proof. destruct s; reflexivity. Qed.

Lemma find_Some p s i : find p s = Some i ->
  s = firstn i s ++ p ++ skipn (i + length p) s /\ i + length p <= length s.
Proof.
  revert i; induction s as [|x s IH]; intros i; rewrite find_eq.
  - destruct (prefixb p []) eqn:E; [|easy]. intros [= <-].
    destruct p; [|easy]. now cbn.
  - destruct (prefixb p (x :: s)) eqn:E.
    + intros [= <-]. cbn [firstn app Nat.add]. apply prefixb_iff in E as [t E].
      rewrite E at 1 2. split.
      * now rewrite skipn_app, skipn_all, Nat.sub_diag.
      * rewrite E, app_length. lia.
    + destruct (find p s) as [j|]; [|easy]. cbn [option_map]. intros [= <-].
      destruct (IH j eq_refl) as [H1 H2]. split.
      * cbn [firstn app Nat.add skipn]. now f_equal.
      * cbn. lia.
Qed.

Lemma find_Some_min p s i : find p s = Some i ->
  forall u v, s = u ++ p ++ v -> i <= length u.
Proof.
  revert i; induction s as [|x s IH]; intros i; rewrite find_eq.
  - destruct (prefixb p []); [|easy]. intros [= <-]. lia.
  - destruct (prefixb p (x :: s)) eqn:E; [intros [= <-]; lia|].
    destruct (find p s) as [j|]; [|easy]. cbn [option_map]. intros [= <-] u v Hu.
    destruct u as [|y u].
    + cbn in Hu. rewrite Hu, prefixb_app in E. easy.
    + injection Hu as -> Hu. specialize (IH j eq_refl _ _ Hu). cbn. lia.
Qed.

Lemma find_None p s : find p s = None <-> ~ occurs p s.
Proof.
  induction s as [|x s IH]; rewrite find_eq.
  - destruct (prefixb p []) eqn:E; split; intros H; try easy.
    + exfalso. apply H. exists [], []. destruct p; easy.
    + intros (u & v & Hu). destruct u; [|easy]. destruct p; easy.
  - destruct (prefixb p (x :: s)) eqn:E.
    + split; [easy|]. intros H. exfalso. apply H.
      apply prefixb_iff in E as [t E]. exists [], t. easy.
    + destruct (find p s) as [j|] eqn:Ej; cbn [option_map]; split; try easy; intros H.
      * exfalso. apply H. destruct (find_Some _ _ _ Ej) as [Hs _].
        exists (x :: firstn j s), (skipn (j + length p) s). cbn. now f_equal.
      * intros (u & v & Hu). destruct u as [|y u].
        { cbn in Hu. rewrite Hu, prefixb_app in E. easy. }
        injection Hu as -> Hu. apply IH; [easy|]. now exists u, v.
Qed.

Lemma find_first_occ p s i :
  find p s = Some i <-> exists u v, first_occ p s u v /\ length u = i.
Proof.
  split.
  - intros H. destruct (find_Some _ _ _ H) as [Hs Hl].
    exists (firstn i s), (skipn (i + length p) s). split; [split|].
    + easy.
    + intros u' v' Hu. rewrite firstn_length.
      pose proof (find_Some_min _ _ _ H _ _ Hu). lia.
    + rewrite firstn_length. lia.
  - intros (u & v & [Hs Hmin] & <-).
    destruct (find p s) as [j|] eqn:E.
    + f_equal. pose proof (find_Some_min _ _ _ E _ _ Hs).
      destruct (find_Some _ _ _ E) as [Hj Hl].
      specialize (Hmin _ _ Hj). rewrite firstn_length in Hmin. lia.
    + exfalso. apply find_None in E. apply E. now exists u, v.
Qed.

Lemma find_Some_firstn p s i : find p s = Some i -> length (firstn i s) = i.
Proof. intros H. apply find_Some in H as [_ H]. rewrite firstn_length. lia. Qed.

(** the leftmost occurrence when it is given *)
Lemma find_app_first p u v :
  (forall u' v', u ++ p ++ v = u' ++ p ++ v' -> length u <= length u') ->
  find p (u ++ p ++ v) = Some (length u).
Proof. intros H. apply find_first_occ. exists u, v. split; [split|]; easy. Qed.

(** extending on the right keeps a found occurrence *)
Lemma find_app_l p s t i : find p s = Some i -> find p (s ++ t) = Some i.
Proof.
  revert i. induction s as [|x s IH]; intros i; rewrite find_eq.
  - destruct (prefixb p []) eqn:E; [|easy]. intros [= <-]. destruct p; [|easy].
    rewrite find_eq. easy.
  - destruct (prefixb p (x :: s)) eqn:E.
    + intros [= <-]. rewrite find_eq. apply prefixb_iff in E as [r ->].
      now rewrite <- app_assoc, prefixb_app.
    + destruct (find p s) as [j|] eqn:Ej; [|easy]. cbn [option_map]. intros [= <-].
      specialize (IH j eq_refl). cbn [app]. rewrite find_eq.
      destruct (prefixb p (x :: s ++ t)) eqn:E2.
      * exfalso. apply prefixb_iff in E2 as [r Hr].
        assert (Hp : firstn (length p) (x :: s) = p).
        { assert (length p <= length (x :: s)).
          { apply find_Some in Ej as [_ Hl]. cbn. lia. }
          pose proof (f_equal (firstn (length p)) Hr) as HH.
          rewrite firstn_app, Nat.sub_diag, firstn_all in HH. cbn [firstn] in HH.
          rewrite app_nil_r in HH. rewrite <- HH at 2.
          change (x :: s ++ t) with ((x :: s) ++ t).
          rewrite firstn_app. replace (length p - length (x :: s)) with 0 by lia.
          cbn [firstn]. now rewrite app_nil_r. }
        assert (E' : prefixb p (x :: s) = true).
        { apply prefixb_iff. exists (skipn (length p) (x :: s)).
          rewrite <- Hp at 1. now rewrite firstn_skipn. }
        congruence.
      * cbn [app]. now rewrite IH.
Qed.

(** ** findc *)
Lemma findc_Some c s i : findc c s = Some i ->
  s = firstn i s ++ c :: skipn (S i) s /\ ~ In c (firstn i s) /\ i < length s.
Proof.
  revert i; induction s as [|x s IH]; intros i; cbn [findc]; [easy|].
  destruct (N.eqb_spec x c) as [->|Hne].
  - intros [= <-]. cbn. repeat split; [tauto|lia].
  - destruct (findc c s) as [j|]; [|easy]. cbn. intros [= <-].
    destruct (IH j eq_refl) as (H1 & H2 & H3). repeat split.
    + cbn. now f_equal.
    + cbn. intros [->|H]; tauto.
    + lia.
Qed.
Lemma findc_None c s : findc c s = None <-> ~ In c s.
Proof.
  induction s as [|x s IH]; cbn; [easy|].
  destruct (N.eqb_spec x c) as [->|Hne].
  - split; [easy|]. intros H. exfalso. tauto.
  - destruct (findc c s); cbn.
    + split; [easy|]. intros H. exfalso. assert (H0 : ~ In c s) by tauto. now apply IH in H0.
    + split; [|easy]. intros _ [->|H]; [easy|]. now apply IH in H.
Qed.
Lemma findc_app c u v : ~ In c u -> findc c (u ++ c :: v) = Some (length u).
Proof.
  induction u as [|x u IH]; cbn; intros H.
  - now rewrite N.eqb_refl.
  - destruct (N.eqb_spec x c) as [->|Hne]; [tauto|]. rewrite IH by tauto. easy.
Qed.
Lemma findc_app_none c u v : ~ In c u -> findc c (u ++ v) = option_map (Nat.add (length u)) (findc c v).
Proof.
  induction u as [|x u IH]; cbn; intros H.
  - now destruct (findc c v).
  - destruct (N.eqb_spec x c) as [->|Hne]; [tauto|]. rewrite IH by tauto.
    now destruct (findc c v).
Qed.

(** ** rfindc *)
Lemma rfindc_Some c s i : rfindc c s = Some i ->
  s = firstn i s ++ c :: skipn (S i) s /\ ~ In c (skipn (S i) s) /\ i < length s.
Proof.
  revert i; induction s as [|x s IH]; intros i; cbn [rfindc]; [easy|].
  destruct (rfindc c s) as [j|] eqn:E.
  - intros [= <-]. destruct (IH j eq_refl) as (H1 & H2 & H3). repeat split.
    + cbn [firstn app skipn]. now f_equal.
    + easy.
    + cbn. lia.
  - destruct (N.eqb_spec x c) as [->|Hne]; [|easy]. intros [= <-]. cbn. repeat split; [|lia].
    clear IH. intros Hin. revert E. induction s as [|y s IH]; cbn; [easy|].
    destruct (rfindc c s); [easy|]. destruct (N.eqb_spec y c) as [->|Hne]; [easy|].
    destruct Hin as [->|Hin]; [easy|]. now intros _; apply IH.
Qed.
Lemma rfindc_None c s : rfindc c s = None <-> ~ In c s.
Proof.
  induction s as [|x s IH]; cbn; [easy|].
  destruct (rfindc c s) as [j|].
  - split; [easy|]. intros H. exfalso.
    assert (~ In c s) by tauto. apply IH in H0. easy.
  - destruct (N.eqb_spec x c) as [->|Hne].
    + split; [easy|]. tauto.
    + split; [|easy]. intros _ [->|H]; [easy|]. now apply IH in H.
Qed.
Lemma rfindc_app c u v : ~ In c v -> rfindc c (u ++ c :: v) = Some (length u).
Proof.
  intros Hv. induction u as [|x u IH]; cbn.
  - apply rfindc_None in Hv. now rewrite Hv, N.eqb_refl.
  - now rewrite IH.
Qed.

(** ** splitc *)
Lemma splitc_nonnil c s : splitc c s <> [].
Proof.
  destruct s as [|x s]; cbn; [easy|]. destruct (N.eqb x c); [easy|].
  now destruct (splitc c s).
Qed.
Lemma splitc_join c s : join [c] (splitc c s) = s.
Proof.
  induction s as [|x s IH]; [easy|]. cbn [splitc].
  pose proof (splitc_nonnil c s) as Hn.
  destruct (N.eqb_spec x c) as [->|Hne].
  - destruct (splitc c s) as [|h r] eqn:E; [easy|]. change (join [c] ([] :: h :: r)) with (c :: join [c] (h :: r)). now rewrite IH.
  - destruct (splitc c s) as [|h r] eqn:E; [easy|]. destruct r; cbn [join app] in *; now f_equal.
Qed.
Lemma splitc_pieces c s : Forall (fun p => ~ In c p) (splitc c s).
Proof.
  induction s as [|x s IH]; cbn [splitc].
  - now repeat constructor.
  - destruct (N.eqb_spec x c) as [->|Hne]; [constructor; easy|].
    destruct (splitc c s) as [|h r]; [now repeat constructor; intros [->|[]]|].
    inversion_clear IH. constructor; [|easy]. intros [->|H']; easy.
Qed.
Lemma splitc_notin c s : ~ In c s -> splitc c s = [s].
Proof.
  induction s as [|x s IH]; cbn; [easy|]. intros H.
  destruct (N.eqb_spec x c) as [->|Hne]; [tauto|]. rewrite IH by tauto. easy.
Qed.
Lemma splitc_cons c u v : ~ In c u -> splitc c (u ++ c :: v) = u :: splitc c v.
Proof.
  induction u as [|x u IH]; cbn; intros H.
  - now rewrite N.eqb_refl.
  - destruct (N.eqb_spec x c) as [->|Hne]; [tauto|]. rewrite IH by tauto. easy.
Qed.
Lemma splitc_length c s : length (splitc c s) = S (countc c s).
Proof.
  unfold countc. induction s as [|x s IH]; [easy|]. cbn [splitc count_occ].
  destruct (N.eqb_spec x c) as [->|Hne].
  - destruct (N.eq_dec c c); [|easy]. cbn. now rewrite IH.
  - destruct (N.eq_dec x c); [easy|]. pose proof (splitc_nonnil c s).
    destruct (splitc c s); cbn in *; easy.
Qed.
(** uniqueness: splitting a joined list of separator-free pieces *)
Lemma splitc_join_inv c l : l <> [] -> Forall (fun p => ~ In c p) l -> splitc c (join [c] l) = l.
Proof.
  induction l as [|x l IH]; [easy|]. intros _ HF. inversion_clear HF as [|? ? Hx Hl].
  destruct l as [|y l].
  - cbn. now apply splitc_notin.
  - cbn [join]. cbn [app]. rewrite splitc_cons by easy. f_equal. now apply IH.
Qed.

(** ** join *)
Lemma join_cons sep x y l : join sep (x :: y :: l) = x ++ sep ++ join sep (y :: l).
Proof. reflexivity. Qed.

(** ** split by a longer separator *)
Lemma split_fuel_enough p : p <> [] -> forall n m s,
  length s < n -> length s < m -> split_fuel n p s = split_fuel m p s.
Proof.
  intros Hp. induction n as [|n IH]; intros m s Hn Hm; [lia|].
  destruct m as [|m]; [lia|]. cbn [split_fuel].
  destruct (find p s) as [i|] eqn:E; [|easy]. f_equal.
  apply find_Some in E as [_ E].
  assert (0 < length p) by (destruct p; cbn; [easy|lia]).
  apply IH; rewrite skipn_length; lia.
Qed.
Lemma split_unfold p s : p <> [] ->
  split p s = match find p s with
              | None => [s]
              | Some i => firstn i s :: split p (skipn (i + length p) s)
              end.
Proof.
  intros Hp. unfold split at 1. cbn [split_fuel].
  destruct (find p s) as [i|] eqn:E; [|easy]. f_equal. unfold split.
  pose proof (find_Some _ _ _ E) as [_ El].
  assert (0 < length p) by (destruct p; cbn; [easy|lia]).
  apply split_fuel_enough; try easy; rewrite skipn_length; lia.
Qed.
Lemma split_join p s : p <> [] -> join p (split p s) = s.
Proof.
  intros Hp. remember (length s) as n eqn:Hn.
  revert s Hn. induction n as [n IH] using lt_wf_ind. intros s ->.
  rewrite split_unfold by easy. destruct (find p s) as [i|] eqn:E; [|easy].
  pose proof (find_Some _ _ _ E) as [Hs El].
  assert (0 < length p) by (destruct p; cbn; [easy|lia]).
  assert (Hne : split p (skipn (i + length p) s) <> []).
  { rewrite split_unfold by easy. now destruct (find p (skipn _ _)). }
  assert (HI : join p (split p (skipn (i + length p) s)) = skipn (i + length p) s).
  { eapply IH; [|reflexivity]. rewrite skipn_length. lia. }
  destruct (split p (skipn (i + length p) s)) as [|h r]; [easy|].
  rewrite join_cons, HI. now symmetry.
Qed.
Lemma split_first p u v : p <> [] ->
  first_occ p (u ++ p ++ v) u v -> split p (u ++ p ++ v) = u :: split p v.
Proof.
  intros Hp [_ Hf]. rewrite split_unfold by easy. rewrite find_app_first by easy.
  rewrite firstn_app, firstn_all, Nat.sub_diag. cbn [firstn]. rewrite app_nil_r. f_equal.
  rewrite app_assoc, skipn_app.
  rewrite skipn_all2 by (rewrite app_length; lia).
  rewrite app_length, Nat.sub_diag. easy.
Qed.

(** ** strip *)
Lemma lstrip_by_suffix f s : exists u, s = u ++ lstrip_by f s /\ forallb f u = true.
Proof.
  induction s as [|x s IH]; cbn; [now exists []|].
  destruct (f x) eqn:E.
  - destruct IH as (u & Hu & Hf). exists (x :: u). cbn. rewrite E, Hf. split; [now f_equal|easy].
  - now exists [].
Qed.
Lemma rstrip_by_prefix f s : exists u, s = rstrip_by f s ++ u /\ forallb f u = true.
Proof.
  unfold rstrip_by. destruct (lstrip_by_suffix f (rev s)) as (u & Hu & Hf).
  exists (rev u). split.
  - rewrite <- rev_app_distr, <- Hu. now rewrite rev_involutive.
  - rewrite forallb_forall in *. intros x Hx. apply Hf. now apply in_rev.
Qed.
Lemma strip_by_spec f s : exists u v, s = u ++ strip_by f s ++ v /\ forallb f u = true /\ forallb f v = true.
Proof.
  unfold strip_by. destruct (lstrip_by_suffix f s) as (u & Hu & Hf).
  destruct (rstrip_by_prefix f (lstrip_by f s)) as (v & Hv & Hg).
  exists u, v. repeat split; try easy. now rewrite <- Hv.
Qed.
Lemma lstrip_by_head f s : match lstrip_by f s with [] => True | x :: _ => f x = false end.
Proof. induction s as [|x s IH]; cbn; [easy|]. now destruct (f x) eqn:E. Qed.
Lemma lstrip_by_id f s : match s with [] => True | x :: _ => f x = false end -> lstrip_by f s = s.
Proof. destruct s; cbn; [easy|]. now intros ->. Qed.
Lemma strip_by_In f s c : In c (strip_by f s) -> In c s.
Proof.
  destruct (strip_by_spec f s) as (u & v & H & _). intros Hin. rewrite H.
  apply in_or_app. right. apply in_or_app. now left.
Qed.
Lemma strip_In s c : In c (strip s) -> In c s.
Proof. apply strip_by_In. Qed.
Lemma strip_by_length f s : length (strip_by f s) <= length s.
Proof.
  destruct (strip_by_spec f s) as (u & v & H & _). rewrite H at 2. rewrite !app_length. lia.
Qed.
Lemma lstrip_by_app_ws f u s : forallb f u = true -> lstrip_by f (u ++ s) = lstrip_by f s.
Proof.
  induction u as [|x u IH]; cbn; [easy|]. intros H. apply andb_true_iff in H as [-> H]. now apply IH.
Qed.
(** a string with no strippable end is its own strip *)
Definition tight_by (f : char -> bool) (s : str) : bool :=
  match s with [] => true | x :: _ => negb (f x) && negb (f (last s x)) end.
Definition tight := tight_by is_ws.

Lemma rstrip_by_id f s x : f x = false -> rstrip_by f (s ++ [x]) = s ++ [x].
Proof.
  intros H. unfold rstrip_by. rewrite rev_app_distr. cbn. rewrite H. cbn.
  now rewrite rev_involutive.
Qed.
Lemma last_nonnil {A} (s : list A) d : s <> [] -> exists s', s = s' ++ [last s d].
Proof. intros H. exists (removelast s). now apply app_removelast_last. Qed.
Lemma strip_by_tight f s : tight_by f s = true -> strip_by f s = s.
Proof.
  destruct s as [|x s]; [easy|]. unfold tight_by. intros H.
  apply andb_true_iff in H as [H1 H2]. apply negb_true_iff in H1, H2.
  unfold strip_by. cbn [lstrip_by]. rewrite H1.
  destruct (last_nonnil (x :: s) x) as [s' Hs']; [easy|].
  rewrite Hs'. now apply rstrip_by_id.
Qed.
Lemma strip_by_pad f u s v : tight_by f s = true -> forallb f u = true -> forallb f v = true ->
  s <> [] -> strip_by f (u ++ s ++ v) = s.
Proof.
  intros Ht Hu Hv Hs. unfold strip_by. rewrite lstrip_by_app_ws by easy.
  destruct s as [|x s]; [easy|]. unfold tight_by in Ht.
  apply andb_true_iff in Ht as [H1 H2]. apply negb_true_iff in H1, H2.
  cbn [app lstrip_by]. rewrite H1.
  unfold rstrip_by. change (x :: s ++ v) with ((x :: s) ++ v).
  rewrite rev_app_distr, lstrip_by_app_ws.
  - destruct (last_nonnil (x :: s) x) as [s' Hs']; [easy|].
    rewrite Hs', rev_app_distr. cbn [rev app]. cbn [lstrip_by].
    rewrite H2. cbn [rev]. now rewrite rev_involutive.
  - rewrite forallb_forall in *. intros c Hc. apply Hv. now apply in_rev.
Qed.

(** ** lower *)
Lemma lower_app a b : lower (a ++ b) = lower a ++ lower b.
Proof. apply map_app. Qed.
Lemma lower_length a : length (lower a) = length a.
Proof. apply map_length. Qed.
Lemma lowerc_idem c : lowerc (lowerc c) = lowerc c.
Proof.
  unfold lowerc. destruct (N.leb_spec 65 c) as [H1|H1], (N.leb_spec c 90) as [H2|H2]; cbn [andb];
  repeat match goal with |- context [N.leb ?a ?b] => destruct (N.leb_spec a b) end;
  cbn [andb]; lia.
Qed.
Lemma lower_idem s : lower (lower s) = lower s.
Proof. unfold lower. rewrite map_map. apply map_ext, lowerc_idem. Qed.

(** ** ascii *)
Lemma ascii_only_app a b : ascii_only (a ++ b) = ascii_only a && ascii_only b.
Proof. apply forallb_app. Qed.
Lemma ascii_only_In s c : ascii_only s = true -> In c s -> (c < 128)%N.
Proof. unfold ascii_only. rewrite forallb_forall. intros H Hc. apply N.ltb_lt. now apply H. Qed.
Lemma forallb_firstn {A} (f : A -> bool) n l : forallb f l = true -> forallb f (firstn n l) = true.
Proof.
  rewrite !forallb_forall. intros H x Hx. apply H. rewrite <- (firstn_skipn n l).
  apply in_or_app. now left.
Qed.
Lemma forallb_skipn {A} (f : A -> bool) n l : forallb f l = true -> forallb f (skipn n l) = true.
Proof.
  rewrite !forallb_forall. intros H x Hx. apply H. rewrite <- (firstn_skipn n l).
  apply in_or_app. now right.
Qed.

(** ** lists *)
Lemma firstn_app_exact {A} (u v : list A) : firstn (length u) (u ++ v) = u.
Proof. rewrite firstn_app, firstn_all, Nat.sub_diag. cbn. apply app_nil_r. Qed.
Lemma skipn_app_exact {A} (u v : list A) : skipn (length u) (u ++ v) = v.
Proof. rewrite skipn_app, skipn_all, Nat.sub_diag. easy. Qed.
Lemma skipn_skipn' {A} n m (l : list A) : skipn n (skipn m l) = skipn (m + n) l.
Proof.
  revert l; induction m as [|m IH]; intros l; [easy|]. destruct l; cbn; [now rewrite skipn_nil|]. apply IH.
Qed.
Lemma app_eq_split {A} (a b c d : list A) : a ++ b = c ++ d -> length a <= length c ->
  exists e, c = a ++ e /\ b = e ++ d.
Proof.
  revert c; induction a as [|x a IH]; intros c H Hl.
  - exists c. easy.
  - destruct c as [|y c]; [cbn in Hl; lia|]. injection H as -> H.
    destruct (IH c H) as (e & -> & ->); [cbn in Hl; lia|]. now exists e.
Qed.

Lemma last_In {A} (s : list A) d : s <> [] -> In (last s d) s.
Proof.
  intros H. destruct (last_nonnil s d H) as [s' Hs']. rewrite Hs' at 2. apply in_or_app. right. now left.
Qed.
Lemma tight_by_all f s : (forall c, In c s -> f c = false) -> tight_by f s = true.
Proof.
  intros H. destruct s as [|c s]; [easy|]. cbn [tight_by]. rewrite (H c) by now left.
  now rewrite (H (last (c :: s) c)) by now apply last_In.
Qed.
