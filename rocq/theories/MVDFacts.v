(** * MultiValueDict refines plain maps: proofs *)
From Verif Require Import Py PyFacts PyDict MVDModel MVDSpec.

(** ** Heap and list lemmas *)
Lemma hset_length h a l : length (hset h a l) = length h.
Proof. revert a; induction h; intros [|a']; cbn; auto. Qed.
Lemma hget_hset_same h a l : a < length h -> hget (hset h a l) a = l.
Proof. unfold hget. revert a; induction h; intros [|a'] H; cbn in *; try lia; auto. apply IHh. lia. Qed.
Lemma hget_hset_other h a b l : a <> b -> hget (hset h a l) b = hget h b.
Proof.
  unfold hget. revert a b; induction h; intros [|a'] [|b'] H; cbn in *; auto; try easy.
Qed.
Lemma hget_app_old h l a : a < length h -> hget (h ++ [l]) a = hget h a.
Proof. intros H. unfold hget. now rewrite app_nth1. Qed.
Lemma hget_app_new h l : hget (h ++ [l]) (length h) = l.
Proof. unfold hget. rewrite app_nth2 by lia. now rewrite Nat.sub_diag. Qed.

Lemma set_nth_length {A} n (x : A) l : length (set_nth n x l) = length l.
Proof. revert n; induction l; intros [|n]; cbn; auto. Qed.
Lemma nth_set_same {A} n (x : A) l : n < length l -> nth_error (set_nth n x l) n = Some x.
Proof. revert n; induction l; intros [|n] H; cbn in *; try lia; auto. apply IHl. lia. Qed.
Lemma nth_set_other {A} n m (x : A) l : n <> m -> nth_error (set_nth n x l) m = nth_error l m.
Proof. revert n m; induction l; intros [|n] [|m] H; cbn; auto; easy. Qed.
Lemma nth_some_lt {A} (l : list A) i x : nth_error l i = Some x -> i < length l.
Proof. intros H. apply nth_error_Some. now rewrite H. Qed.
Lemma nth_some_ex {A} (l : list A) i : i < length l -> exists x, nth_error l i = Some x.
Proof. intros H. destruct (nth_error l i) eqn:E; [eauto|]. apply nth_error_None in E. lia. Qed.
Lemma nth_snoc {A} (l : list A) x i y : nth_error (l ++ [x]) i = Some y ->
  nth_error l i = Some y \/ (i = length l /\ y = x).
Proof.
  intros H. destruct (Nat.lt_ge_cases i (length l)) as [L|L].
  - left. now rewrite nth_error_app1 in H.
  - right. rewrite nth_error_app2 in H by easy. destruct (i - length l) eqn:E.
    + cbn in H. injection H as ->. split; [lia|easy].
    + cbn in H. now destruct n.
Qed.
Lemma set_nth_self {A} n (x : A) l : nth_error l n = Some x -> set_nth n x l = l.
Proof. revert n; induction l; intros [|n] H; cbn in *; try easy. - now injection H as ->. - f_equal. now apply IHl. Qed.
Lemma last_val_last l : l <> [] -> last_val l = last l VNone.
Proof. induction l as [|x l IH]; [easy|]. intros _. destruct l; [easy|]. cbn in *. now apply IH. Qed.

(** ** One dictionary *)
Definition view (h : heap) (d : mvd) : pmap := fun k => option_map (hget h) (dget k d).

Record ok (h : heap) (d : mvd) : Prop := {
  ok_bound : forall k a, dget k d = Some a -> a < length h;
  ok_inj : forall k1 k2 a, dget k1 d = Some a -> dget k2 d = Some a -> k1 = k2;
  ok_wf : wf d }.

(** [ext h d h' d']: [d'] keeps the addresses of [d] or uses new ones, and only
    lists owned by [d] have changed *)
Record ext (h : heap) (d : mvd) (h' : heap) (d' : mvd) : Prop := {
  ext_len : length h <= length h';
  ext_own : forall k a, dget k d' = Some a -> dget k d = Some a \/ length h <= a;
  ext_frame : forall a, a < length h -> (forall k, dget k d <> Some a) -> hget h' a = hget h a;
  ext_ok : ok h' d' }.

Lemma ext_refl h d : ok h d -> ext h d h d.
Proof. intros H. split; auto. Qed.

Lemma ext_trans h d h1 d1 h2 d2 : ext h d h1 d1 -> ext h1 d1 h2 d2 -> ext h d h2 d2.
Proof.
  intros [L1 O1 F1 K1] [L2 O2 F2 K2]. split; [lia| | |easy].
  - intros k a H. destruct (O2 _ _ H) as [H1|H1]; [auto|right; lia].
  - intros a Ha Hn. rewrite F2; [auto|lia|]. intros k Hk.
    destruct (O1 _ _ Hk) as [H|H]; [now apply (Hn k)|lia].
Qed.

Lemma ext_alloc h d l : ok h d -> ext h d (h ++ [l]) d.
Proof.
  intros [B I W]. split.
  - rewrite app_length. cbn. lia.
  - auto.
  - intros a Ha _. now apply hget_app_old.
  - split; [|easy|easy]. intros k a H. rewrite app_length. apply B in H. lia.
Qed.
Lemma view_alloc h d l k : ok h d -> view (h ++ [l]) d k = view h d k.
Proof.
  intros [B _ _]. unfold view. destruct (dget k d) eqn:E; [|easy]. cbn. f_equal.
  apply hget_app_old. eauto.
Qed.

Lemma ext_alloc_set h d k l : ok h d -> ext h d (h ++ [l]) (dset k (length h) d).
Proof.
  intros [B I W]. split.
  - rewrite app_length. cbn. lia.
  - intros k' a. rewrite dget_dset. destruct (seqb k' k); [|auto]. intros [= <-]. now right.
  - intros a Ha _. now apply hget_app_old.
  - split.
    + intros k' a. rewrite dget_dset, app_length. cbn. destruct (seqb k' k); [intros [= <-]; lia|].
      intros H. apply B in H. lia.
    + intros k1 k2 a. rewrite !dget_dset. destruct (seqb k1 k) eqn:E1, (seqb k2 k) eqn:E2.
      * apply seqb_eq in E1, E2. congruence.
      * intros [= <-] H. apply B in H. lia.
      * intros H [= <-]. apply B in H. lia.
      * apply I.
    + now apply wf_dset.
Qed.
Lemma view_alloc_set h d k l k' : ok h d ->
  view (h ++ [l]) (dset k (length h) d) k' = pset k (Some l) (view h d) k'.
Proof.
  intros H. unfold view, pset. rewrite dget_dset. destruct (seqb k' k).
  - cbn. now rewrite hget_app_new.
  - now apply view_alloc.
Qed.

Lemma ext_hset h d k a l : ok h d -> dget k d = Some a -> ext h d (hset h a l) d.
Proof.
  intros [B I W] Hk. split.
  - now rewrite hset_length.
  - auto.
  - intros b Hb Hn. apply hget_hset_other. intros ->. now apply (Hn k).
  - split; [|easy|easy]. intros k' b. rewrite hset_length. apply B.
Qed.
Lemma view_hset h d k a l k' : ok h d -> dget k d = Some a ->
  view (hset h a l) d k' = pset k (Some l) (view h d) k'.
Proof.
  intros [B I W] Hk. unfold view, pset. destruct (seqb k' k) eqn:E.
  - apply seqb_eq in E. subst. rewrite Hk. cbn. rewrite hget_hset_same; eauto.
  - destruct (dget k' d) as [b|] eqn:Eb; [|easy]. cbn. f_equal. apply hget_hset_other. intros ->.
    apply seqb_neq in E. apply E. eauto.
Qed.

Lemma ext_ddel h d k : ok h d -> ext h d h (ddel k d).
Proof.
  intros [B I W].
  assert (Hd : forall k' a, dget k' (ddel k d) = Some a -> dget k' d = Some a).
  { intros k' a H. destruct (str_eq_dec k' k) as [->|Hne].
    - now rewrite dget_ddel_same in H.
    - now rewrite dget_ddel_other in H. }
  split; [lia|auto|auto|]. split.
  - eauto.
  - intros k1 k2 a H1 H2. eauto.
  - now apply wf_ddel.
Qed.
Lemma view_ddel h d k k' : wf d -> view h (ddel k d) k' = pset k None (view h d) k'.
Proof.
  intros W. unfold view, pset. destruct (seqb k' k) eqn:E.
  - apply seqb_eq in E. subst. now rewrite dget_ddel_same.
  - apply seqb_neq in E. now rewrite dget_ddel_other.
Qed.

Lemma ext_clear h d : ext h d h [].
Proof. split; [lia|easy|auto|]. split; [easy|easy|constructor]. Qed.

(** ** The methods *)
Lemma setitem_spec k v h d : ok h d -> let (h', d') := mv_setitem k v h d in
  ext h d h' d' /\ forall k', view h' d' k' = pset k (Some [v]) (view h d) k'.
Proof.
  intros H. unfold mv_setitem, halloc. split; [now apply ext_alloc_set|]. intros. now apply view_alloc_set.
Qed.

Definition larg_list (h : heap) (p : larg) : list val :=
  match p with LNone => [] | LRef r => hget h r | LOne v => one_list v end.

Lemma setlist_spec k p h d : ok h d -> let (h', d') := mv_setlist k p h d in
  ext h d h' d' /\ forall k', view h' d' k' = pset k (Some (larg_list h p)) (view h d) k'.
Proof.
  intros H. unfold mv_setlist, halloc. destruct p; cbn [larg_list];
  (split; [now apply ext_alloc_set|]; intros; now apply view_alloc_set).
Qed.

Lemma dmem_view k h d : dmem k d = match view h d k with Some _ => true | None => false end.
Proof. unfold dmem, view. now destruct (dget k d). Qed.

Lemma getitem_spec k h d :
  match mv_getitem k h d with Ok v => OutVal v | Err e => OutErr e end = get_last (view h d) k.
Proof.
  unfold mv_getitem, get_last, view. destruct (dget k d) as [a|]; cbn; [|easy].
  destruct (hget h a) eqn:E; [easy|]. rewrite last_val_last by easy. easy.
Qed.

Lemma setlistdefault_spec k p h d : ok h d ->
  match mv_setlistdefault k p h d with
  | (a, (h', d')) =>
      ext h d h' d' /\ dget k d' = Some a /\
      (forall b, b < length h -> hget h' b = hget h b) /\
      (forall k', k' <> k -> dget k' d' = dget k' d) /\
      (forall b, dget k d = Some b -> b = a) /\
      forall k', view h' d' k' =
        match view h d k with
        | Some _ => view h d k'
        | None => pset k (Some (larg_list h p)) (view h d) k'
        end
  end.
Proof.
  intros H. unfold mv_setlistdefault. rewrite (dmem_view k h). unfold view at 1 3.
  destruct (dget k d) as [a|] eqn:E; cbn [option_map].
  - rewrite E. split; [now apply ext_refl|]. split; [easy|]. split; [easy|]. split; [easy|].
    split; [congruence|]. easy.
  - assert (Hgen : forall hh l, length h <= length hh -> ok hh d ->
        (forall b, b < length h -> hget hh b = hget h b) -> (forall k', view hh d k' = view h d k') ->
        ext h d hh d -> match (hh ++ [l], dset k (length hh) d) with
        | (h', d') => match dget k d' with
                      | Some a => (a, (h', d'))
                      | None => (length h', (h' ++ [[]], d'))
                      end
        end = (length hh, (hh ++ [l], dset k (length hh) d)) /\
        ext h d (hh ++ [l]) (dset k (length hh) d) /\
        (forall b, b < length h -> hget (hh ++ [l]) b = hget h b) /\
        (forall k', k' <> k -> dget k' (dset k (length hh) d) = dget k' d) /\
        (forall k', view (hh ++ [l]) (dset k (length hh) d) k' = pset k (Some l) (view h d) k')).
    { intros hh l Hlen Hok Hsame Hview Hext. rewrite dget_dset_same. split; [easy|].
      split; [eapply ext_trans; [eassumption|]; now apply ext_alloc_set|].
      split. { intros b Hb. rewrite hget_app_old by lia. auto. }
      split. { intros k' Hk. now apply dget_dset_other. }
      intros k'. rewrite view_alloc_set by easy. unfold pset. destruct (seqb k' k); auto. }
    destruct p as [|r|v]; cbn [mv_setlist halloc larg_list].
    + unfold halloc. rewrite hget_app_new.
      destruct (Hgen (h ++ [[]]) []) as (E1 & E2 & E3 & E4 & E5).
      * rewrite app_length; cbn; lia.
      * apply (ext_ok _ _ _ _ (ext_alloc h d [] H)).
      * intros; now apply hget_app_old.
      * intros; now apply view_alloc.
      * now apply ext_alloc.
      * rewrite dget_dset_same. split; [easy|].
        split; [apply dget_dset_same|]. split; [easy|]. split; [easy|]. split; [easy|]. easy.
    + destruct (Hgen h (hget h r)) as (E1 & E2 & E3 & E4 & E5); auto; try lia; [now apply ext_refl|].
      rewrite dget_dset_same. split; [assumption|]. split; [first [assumption|apply dget_dset_same|reflexivity]|]. split; [easy|]. split; [easy|]. easy.
    + destruct (Hgen h (one_list v)) as (E1 & E2 & E3 & E4 & E5); auto; try lia; [now apply ext_refl|].
      rewrite dget_dset_same. split; [assumption|]. split; [first [assumption|apply dget_dset_same|reflexivity]|]. split; [easy|]. split; [easy|]. easy.
Qed.

(** [setlistdefault(k).extend(l)] *)
Lemma extend_spec k h d l : ok h d ->
  match mv_setlistdefault k LNone h d with
  | (a, (h1, d1)) =>
      let h2 := hset h1 a (hget h1 a ++ l) in
      ext h d h2 d1 /\
      (forall b, b < length h -> dget k d <> Some b -> hget h2 b = hget h b) /\
      (forall k', k' <> k -> dget k' d1 = dget k' d) /\
      (forall b, dget k d = Some b -> dget k d1 = Some b) /\
      forall k', view h2 d1 k' = pset k (Some (plist (view h d) k ++ l)) (view h d) k'
  end.
Proof.
  intros H. pose proof (setlistdefault_spec k LNone h d H) as Hs.
  destruct (mv_setlistdefault k LNone h d) as (a & h1 & d1).
  destruct Hs as (E & Ha & Hsame & Hd & Hold & Hv). cbn zeta.
  pose proof (ext_ok _ _ _ _ E) as Hok1.
  assert (Hpl : hget h1 a = plist (view h d) k).
  { specialize (Hv k). unfold view at 1 in Hv. rewrite Ha in Hv. cbn in Hv. unfold plist.
    destruct (view h d k) as [l0|] eqn:E0; [congruence|].
    unfold pset in Hv. rewrite seqb_refl in Hv. cbn in Hv. congruence. }
  split; [eapply ext_trans; [eassumption|]; eapply ext_hset; eauto|].
  split.
  { intros b Hb Hne. destruct (Nat.eq_dec a b) as [->|Hab].
    - destruct (ext_own _ _ _ _ E _ _ Ha) as [Ho|Ho]; [easy|lia].
    - rewrite hget_hset_other by easy. auto. }
  split; [easy|]. split.
  { intros b Hb. rewrite Ha. f_equal. symmetry. auto. }
  intros k'. rewrite (view_hset _ _ k) by easy. unfold pset. destruct (seqb k' k) eqn:Ek.
  - now rewrite Hpl.
  - rewrite Hv. destruct (view h d k); [easy|]. unfold pset. now rewrite Ek.
Qed.

Lemma appendlist_spec k v h d : ok h d -> let (h', d') := mv_appendlist k v h d in
  ext h d h' d' /\ forall k', view h' d' k' = pset k (Some (plist (view h d) k ++ [v])) (view h d) k'.
Proof.
  intros H. unfold mv_appendlist. pose proof (extend_spec k h d [v] H) as He.
  destruct (mv_setlistdefault k LNone h d) as (a & h1 & d1). cbn zeta in He. tauto.
Qed.

Lemma update_pairs_spec : forall l h d, ok h d -> let (h', d') := mv_update_pairs l h d in
  ext h d h' d' /\ forall k', view h' d' k' =
    pextend (view h d) k' (match key_values k' l with [] => None | vs => Some vs end).
Proof.
  induction l as [|[k v] l IH]; intros h d H; cbn [mv_update_pairs].
  { split; [now apply ext_refl|]. easy. }
  pose proof (extend_spec k h d [v] H) as He.
  destruct (mv_setlistdefault k LNone h d) as (a & h1 & d1). cbn zeta in He.
  destruct He as (E & _ & _ & _ & Hv).
  specialize (IH _ _ (ext_ok _ _ _ _ E)).
  destruct (mv_update_pairs l _ d1) as [h' d']. destruct IH as [IH1 IH2].
  split; [eapply ext_trans; eassumption|]. intros k'. rewrite IH2.
  unfold key_values in *. cbn [filter fst]. unfold pextend, plist. rewrite Hv. unfold pset.
  destruct (seqb k' k) eqn:E1.
  - apply seqb_eq in E1. subst. rewrite seqb_refl. cbn [map snd].
    destruct (map snd (filter _ l)); [easy|]. unfold plist. now rewrite <- app_assoc.
  - destruct (seqb k k') eqn:E2; [|easy]. apply seqb_eq in E2. subst. now rewrite seqb_refl in E1.
Qed.

Lemma update_lists_spec : forall items h d, ok h d -> wf items ->
  (forall k r, dget k items = Some r -> r < length h /\ forall k', dget k' d = Some r -> k' = k) ->
  let (h', d') := mv_update_lists items h d in
  ext h d h' d' /\ forall k', view h' d' k' = pextend (view h d) k' (view h items k').
Proof.
  induction items as [|[k r] items IH]; intros h d H Hw Hi; cbn [mv_update_lists].
  { split; [now apply ext_refl|]. easy. }
  pose proof (extend_spec k h d (hget h r) H) as He.
  pose proof (setlistdefault_spec k LNone h d H) as Hs.
  destruct (mv_setlistdefault k LNone h d) as (a & h1 & d1). cbn zeta in He.
  destruct Hs as (_ & Ha & Hsame & _ & _ & _).
  destruct (Hi k r) as [Hr Hr2]. { cbn. now rewrite seqb_refl. }
  rewrite (Hsame r Hr).
  destruct He as (E & Hf & Hd & Hold & Hv).
  inversion Hw as [|? ? Hk1 Hw']; subst.
  assert (Hnot : dget k items = None) by now apply dget_None_notin.
  assert (Hi' : forall k0 r0, dget k0 items = Some r0 -> k0 <> k /\ r0 < length h /\ dget k d <> Some r0
                    /\ forall k', dget k' d = Some r0 -> k' = k0).
  { intros k0 r0 H0. assert (Hnk : k0 <> k) by (intros ->; congruence).
    destruct (Hi k0 r0) as [H1 H2]. { cbn. apply seqb_neq in Hnk. now rewrite Hnk. }
    split; [easy|]. split; [easy|]. split; [|easy]. intros Hx. apply H2 in Hx. congruence. }
  set (h2 := hset h1 a (hget h1 a ++ hget h r)) in *.
  specialize (IH h2 d1 (ext_ok _ _ _ _ E) Hw').
  assert (Hpre : forall k0 r0, dget k0 items = Some r0 ->
            r0 < length h2 /\ forall k', dget k' d1 = Some r0 -> k' = k0).
  { intros k0 r0 H0. destruct (Hi' _ _ H0) as (N1 & N2 & N3 & N4).
    pose proof (ext_len _ _ _ _ E). split; [lia|]. intros k' Hk'.
    destruct (ext_own _ _ _ _ E _ _ Hk') as [Ho|Ho]; [auto|lia]. }
  specialize (IH Hpre). destruct (mv_update_lists items h2 d1) as [h' d']. destruct IH as [IH1 IH2].
  split; [eapply ext_trans; eassumption|]. intros k'. rewrite IH2.
  unfold pextend, plist. rewrite Hv. unfold pset.
  assert (Hvi : view h2 items k' = view h items k').
  { unfold view. destruct (dget k' items) as [r0|] eqn:E0; [|easy]. cbn. f_equal.
    destruct (Hi' _ _ E0) as (N1 & N2 & N3 & N4). now apply Hf. }
  rewrite Hvi.
  assert (Hc : view h ((k, r) :: items) k' = if seqb k' k then Some (hget h r) else view h items k').
  { unfold view. cbn [dget]. now destruct (seqb k' k). }
  rewrite Hc. destruct (seqb k' k) eqn:E1.
  - apply seqb_eq in E1. subst. unfold view at 1. rewrite Hnot. reflexivity.
  - easy.
Qed.

Lemma copy_spec : forall items h acc, ok h acc -> wf items ->
  (forall k r, dget k items = Some r -> r < length h /\ dget k acc = None) ->
  let (h', c) := mv_copy_lists items h acc in
  length h <= length h' /\ (forall a, a < length h -> hget h' a = hget h a) /\
  ok h' c /\
  (forall k a, dget k c = Some a -> dget k acc = Some a \/ length h <= a) /\
  forall k', view h' c k' = match dget k' items with Some r => Some (hget h r) | None => view h acc k' end.
Proof.
  induction items as [|[k r] items IH]; intros h acc H Hw Hi; cbn [mv_copy_lists].
  { split; [lia|]. split; [easy|]. split; [easy|]. split; [auto|]. easy. }
  unfold halloc. inversion Hw as [|? ? Hk1 Hw']; subst.
  destruct (Hi k r) as [Hr Hr2]. { cbn. now rewrite seqb_refl. }
  assert (Hnot : dget k items = None) by now apply dget_None_notin.
  pose proof (ext_alloc_set h acc k (hget h r) H) as E.
  specialize (IH (h ++ [hget h r]) (dset k (length h) acc) (ext_ok _ _ _ _ E) Hw').
  assert (Hpre : forall k0 r0, dget k0 items = Some r0 ->
       r0 < length (h ++ [hget h r]) /\ dget k0 (dset k (length h) acc) = None).
  { intros k0 r0 H0. assert (Hnk : k0 <> k) by (intros ->; congruence).
    destruct (Hi k0 r0) as [H1 H2]. { cbn. apply seqb_neq in Hnk. now rewrite Hnk. }
    rewrite app_length. split; [lia|]. rewrite dget_dset_other; auto. }
  specialize (IH Hpre). destruct (mv_copy_lists items _ _) as [h' c].
  destruct IH as (I1 & I2 & I3 & I4 & I5). rewrite app_length in I1, I2. cbn in I1, I2.
  split; [lia|]. split.
  { intros a Ha. rewrite I2 by lia. now apply hget_app_old. }
  split; [easy|]. split.
  { intros k' a Hk'. destruct (I4 _ _ Hk') as [J|J].
    - rewrite dget_dset in J. destruct (seqb k' k); [injection J as <-; now right|now left].
    - rewrite app_length in J. right. lia. }
  intros k'. rewrite I5. rewrite view_alloc_set by easy. unfold pset. cbn [dget].
  destruct (seqb k' k) eqn:E1.
  - apply seqb_eq in E1. subst. now rewrite Hnot.
  - destruct (dget k' items) eqn:E2; [|easy]. f_equal. apply hget_app_old.
    destruct (Hi k' n); [|easy]. cbn. now rewrite E1.
Qed.

(** ** Worlds *)
Inductive place := PD (i : nat) (k : str) | PV (j : nat).
Definition loc (w : world) (p : place) : option nat :=
  match p with
  | PD i k => match nth_error (w_dicts w) i with Some d => dget k d | None => None end
  | PV j => nth_error (w_vars w) j
  end.

(** no list object is reachable in two ways *)
Record inv (w : world) : Prop := {
  inv_bound : forall p a, loc w p = Some a -> a < length (w_heap w);
  inv_inj : forall p q a, loc w p = Some a -> loc w q = Some a -> p = q;
  inv_wf : forall i d, nth_error (w_dicts w) i = Some d -> wf d }.

Lemma inv_ok w i d : inv w -> nth_error (w_dicts w) i = Some d -> ok (w_heap w) d.
Proof.
  intros [B I W] Hd. split.
  - intros k a H. apply (B (PD i k)). cbn. now rewrite Hd.
  - intros k1 k2 a H1 H2. assert (PD i k1 = PD i k2) as [= ->]; [|easy].
    apply (I _ _ a); cbn; now rewrite Hd.
  - eauto.
Qed.

Lemma inv_empty : inv empty_world.
Proof. split; cbn; [intros [[|i] k|[|j]] a H; easy|intros [[|i] k|[|j]] q a H; easy|intros [|i] d H; easy]. Qed.

(** dictionary [i] takes a step, possibly handing one list over to the caller *)
Lemma put_spec w i d h' d' : inv w -> nth_error (w_dicts w) i = Some d -> ext (w_heap w) d h' d' ->
  inv (put i (h', d') w) /\
  (forall j d0, j <> i -> nth_error (w_dicts w) j = Some d0 -> forall k, view h' d0 k = view (w_heap w) d0 k) /\
  map (hget h') (w_vars w) = map (hget (w_heap w)) (w_vars w).
Proof.
  intros Hinv Hd [L O F K]. destruct Hinv as [B I W].
  assert (Hi : i < length (w_dicts w)) by now apply nth_some_lt in Hd.
  assert (Hown : forall p a, (forall k, p <> PD i k) -> loc w p = Some a -> forall k, dget k d <> Some a).
  { intros p a Hp Hl k Hk. apply (Hp k). apply (I p (PD i k) a); [easy|]. cbn. now rewrite Hd. }
  split.
  - split.
    + intros [j k|j] a Hp; cbn [put loc w_dicts w_vars w_heap fst snd] in *.
      * destruct (Nat.eq_dec i j) as [->|Hne].
        -- rewrite nth_set_same in Hp by easy. eapply ok_bound; eauto.
        -- rewrite nth_set_other in Hp by easy. pose proof (B (PD j k) a Hp). lia.
      * pose proof (B (PV j) a Hp). lia.
    + assert (Hmix : forall p k a, (forall k, p <> PD i k) -> loc w p = Some a -> dget k d' = Some a -> False).
      { intros p k a Hp Hl Hk. destruct (O _ _ Hk) as [Ho|Ho].
        - now apply (Hown _ _ Hp Hl k).
        - pose proof (B _ _ Hl). lia. }
      intros [j1 k1|j1] [j2 k2|j2] a H1 H2; cbn [put loc w_dicts w_vars w_heap fst snd] in *.
      * destruct (Nat.eq_dec i j1) as [<-|N1], (Nat.eq_dec i j2) as [<-|N2];
          rewrite ?nth_set_same in H1 by easy; rewrite ?nth_set_other in H1 by easy;
          rewrite ?nth_set_same in H2 by easy; rewrite ?nth_set_other in H2 by easy.
        -- f_equal. eapply ok_inj; eauto.
        -- exfalso. apply (Hmix (PD j2 k2) k1 a); [congruence|easy|easy].
        -- exfalso. apply (Hmix (PD j1 k1) k2 a); [congruence|easy|easy].
        -- now apply (I (PD j1 k1) (PD j2 k2) a).
      * destruct (Nat.eq_dec i j1) as [<-|N1];
          rewrite ?nth_set_same in H1 by easy; rewrite ?nth_set_other in H1 by easy.
        -- exfalso. apply (Hmix (PV j2) k1 a); [congruence|easy|easy].
        -- now apply (I (PD j1 k1) (PV j2) a).
      * destruct (Nat.eq_dec i j2) as [<-|N2];
          rewrite ?nth_set_same in H2 by easy; rewrite ?nth_set_other in H2 by easy.
        -- exfalso. apply (Hmix (PV j1) k2 a); [congruence|easy|easy].
        -- now apply (I (PV j1) (PD j2 k2) a).
      * now apply (I (PV j1) (PV j2) a).
    + intros j d0 Hj. cbn in Hj. destruct (Nat.eq_dec i j) as [<-|N].
      * rewrite nth_set_same in Hj by easy. injection Hj as <-. now apply (ok_wf _ _ K).
      * rewrite nth_set_other in Hj by easy. eauto.
  - split.
    + intros j d0 Hne Hj k. unfold view. destruct (dget k d0) as [a|] eqn:E; [|easy]. cbn. f_equal.
      assert (Hl : loc w (PD j k) = Some a) by (cbn; now rewrite Hj).
      apply F; [apply (B _ _ Hl)|]. apply (Hown (PD j k)); [congruence|easy].
    + apply map_ext_in. intros a Ha. apply In_nth_error in Ha. destruct Ha as [j Hj].
      apply F; [apply (B (PV j) _ Hj)|]. apply (Hown (PV j)); [congruence|easy].
Qed.

(** a fresh list handed to the caller *)
Lemma var_spec w l : inv w -> inv (mkW (w_heap w ++ [l]) (w_dicts w) (w_vars w ++ [length (w_heap w)])).
Proof.
  intros [B I W].
  assert (Hloc : forall p a, loc (mkW (w_heap w ++ [l]) (w_dicts w) (w_vars w ++ [length (w_heap w)])) p = Some a ->
     loc w p = Some a \/ (p = PV (length (w_vars w)) /\ a = length (w_heap w))).
  { intros [i k|j] a H; cbn in *; [now left|]. apply nth_snoc in H. destruct H as [H|[-> ->]]; auto. }
  split; cbn [w_heap w_dicts].
  - intros p a H. rewrite app_length. cbn. apply Hloc in H. destruct H as [H|[-> ->]]; [apply B in H|]; lia.
  - intros p q a H1 H2. apply Hloc in H1, H2. destruct H1 as [H1|[-> ->]], H2 as [H2|[-> H2]]; auto.
    + eauto.
    + subst. apply B in H1. lia.
    + apply B in H2. lia.
  - easy.
Qed.

Lemma view_old h h' d : (forall k a, dget k d = Some a -> hget h' a = hget h a) -> forall k, view h' d k = view h d k.
Proof. intros H k. unfold view. destruct (dget k d) eqn:E; [|easy]. cbn. f_equal. eauto. Qed.

(** ** Simulation *)
Definition sim (w : world) (s : sworld) : Prop := inv w /\ same_view w s.

Lemma sim_nth w s i : sim w s -> nth_error (w_dicts w) i = None -> nth_error (s_dicts s) i = None.
Proof. intros [_ [L _]] H. apply nth_error_None in H. apply nth_error_None. lia. Qed.
Lemma sim_nth_some w s i d : sim w s -> nth_error (w_dicts w) i = Some d ->
  exists m, nth_error (s_dicts s) i = Some m /\ forall k, view (w_heap w) d k = m k.
Proof.
  intros [_ (L & V & _)] H. destruct (nth_some_ex (s_dicts s) i) as [m Hm].
  - rewrite <- L. eapply nth_some_lt; eauto.
  - exists m. split; [easy|]. intros k. now apply (V i).
Qed.

(** a method of dictionary [i] whose effect on the view is [m'] *)
Lemma sim_put w s i d h' d' m' : sim w s -> nth_error (w_dicts w) i = Some d -> ext (w_heap w) d h' d' ->
  (forall k, view h' d' k = m' k) -> sim (put i (h', d') w) (sput i m' s).
Proof.
  intros [Hinv (L & V & VV)] Hd HE Hm. destruct (put_spec w i d h' d' Hinv Hd HE) as (P1 & P2 & P3).
  split; [easy|]. unfold same_view, put, sput. cbn [w_dicts s_dicts w_heap w_vars s_vars fst snd].
  rewrite !set_nth_length. split; [easy|]. split.
  - intros j d0 m0 k Hd0 Hm0. assert (Hi : i < length (w_dicts w)) by (eapply nth_some_lt; eauto).
    destruct (Nat.eq_dec i j) as [<-|N].
    + rewrite nth_set_same in Hd0 by lia. rewrite nth_set_same in Hm0 by lia. injection Hd0 as <-. injection Hm0 as <-. apply Hm.
    + rewrite nth_set_other in Hd0 by easy. rewrite nth_set_other in Hm0 by easy. change (view h' d0 k = m0 k).
      rewrite (P2 j d0) by (congruence || easy). now apply (V j).
  - now rewrite P3.
Qed.

Lemma sim_refl_put w s i d m : sim w s -> nth_error (w_dicts w) i = Some d -> nth_error (s_dicts s) i = Some m ->
  put i (w_heap w, d) w = w /\ sput i m s = s.
Proof.
  intros _ Hd Hm. unfold put, sput. cbn. rewrite !set_nth_self by easy. now destruct w, s.
Qed.

(** a list handed to the caller *)
Lemma sim_var w s l : sim w s ->
  sim (mkW (w_heap w ++ [l]) (w_dicts w) (w_vars w ++ [length (w_heap w)])) (mkSW (s_dicts s) (s_vars s ++ [l])).
Proof.
  intros [Hinv (L & V & VV)]. split; [now apply var_spec|]. unfold same_view. cbn.
  split; [easy|]. split.
  - intros i d m k Hd Hm. rewrite <- (V i d m k Hd Hm).
    change (view (w_heap w ++ [l]) d k = view (w_heap w) d k). apply view_alloc. eapply inv_ok; eauto.
  - rewrite map_app. cbn. rewrite hget_app_new. f_equal. rewrite <- VV. apply map_ext_in. intros a Ha.
    apply hget_app_old. apply In_nth_error in Ha. destruct Ha as [j Hj]. now apply (inv_bound _ Hinv (PV j)).
Qed.

Lemma larg_sim p w s : sim w s ->
  match larg_of p w with
  | Some q => sarg_of p s = Some (larg_list (w_heap w) q)
  | None => sarg_of p s = None
  end.
Proof.
  intros [_ (_ & _ & VV)]. destruct p as [|j|v]; cbn; [easy| |now destruct v].
  rewrite <- VV. destruct (nth_error (w_vars w) j) eqn:E; cbn.
  - now rewrite nth_error_map, E.
  - now rewrite nth_error_map, E.
Qed.

Lemma sim_step o w s : sim w s ->
  match step o w, sstep o s with
  | Some (w', x), Some (s', x') => sim w' s' /\ x = x'
  | None, None => True
  | _, _ => False
  end.
Proof.
  intros S. pose proof S as [Hinv (L & V & VV)].
  assert (Hok : forall i d, nth_error (w_dicts w) i = Some d -> ok (w_heap w) d) by (intros; eapply inv_ok; eauto).
  Ltac pick w s S i d m Hd Hm Hv :=
    let E := fresh "E" in
    destruct (nth_error (w_dicts w) i) as [d|] eqn:Hd;
    [destruct (sim_nth_some w s i d S Hd) as (m & Hm & Hv); rewrite Hm
    |pose proof (sim_nth w s i S Hd) as E; rewrite E; exact I].
  destruct o as [|i|i k v|i k p|i k|i k v|i k v|i k p|i i'|i l|i k|i k|i|i k|i k v|l|j f]; cbn [step sstep].
  - (* NewDict *)
    split; [|easy]. split.
    + destruct Hinv as [B J W].
      assert (Hloc : forall p a, loc (mkW (w_heap w) (w_dicts w ++ [[]]) (w_vars w)) p = Some a -> loc w p = Some a).
      { intros [i k|j] a H; cbn in *; [|easy]. destruct (nth_error (w_dicts w ++ [[]]) i) eqn:E; [|easy].
        apply nth_snoc in E. destruct E as [E|[-> ->]]; [now rewrite E|easy]. }
      split; cbn [w_heap w_dicts].
      * intros p a H. eauto.
      * intros p q a H1 H2. eauto.
      * intros i d H. apply nth_snoc in H. destruct H as [H|[-> ->]]; [eauto|apply wf_nil].
    + unfold same_view. cbn. rewrite !app_length, L. split; [easy|]. split; [|easy].
      intros i d m k Hd Hm. apply nth_snoc in Hd, Hm.
      destruct Hd as [Hd|[-> ->]], Hm as [Hm|[Hi ->]]; auto.
      * eauto.
      * apply nth_some_lt in Hd. lia.
      * apply nth_some_lt in Hm. lia.
  - (* CopyDict *)
    pick w s S i d m Hd Hm Hv.
    pose proof (copy_spec d (w_heap w) [] ltac:(split; [easy|easy|constructor]) (inv_wf _ Hinv _ _ Hd)) as Hc.
    assert (Hpre : forall k r, dget k d = Some r -> r < length (w_heap w) /\ dget k ([] : mvd) = None).
    { intros k r H. split; [eapply ok_bound; eauto|easy]. }
    specialize (Hc Hpre). unfold mv_copy. destruct (mv_copy_lists d (w_heap w) []) as [h' c].
    destruct Hc as (C1 & C2 & C3 & C4 & C5). split; [|easy].
    assert (Hfresh : forall k a, dget k c = Some a -> length (w_heap w) <= a).
    { intros k a H. now destruct (C4 k a H). }
    split.
    + destruct Hinv as [B J W].
      assert (Hloc : forall p a, loc (mkW h' (w_dicts w ++ [c]) (w_vars w)) p = Some a ->
         loc w p = Some a \/ exists k, p = PD (length (w_dicts w)) k /\ dget k c = Some a).
      { intros [i0 k|j] a H; cbn in *; [|now left]. destruct (nth_error (w_dicts w ++ [c]) i0) eqn:E; [|easy].
        apply nth_snoc in E. destruct E as [E|[-> ->]]; [rewrite E; now left|right; eauto]. }
      split; cbn [w_heap w_dicts].
      * intros p a H. apply Hloc in H. destruct H as [H|(k & -> & H)]; [apply B in H; lia|].
        eapply ok_bound; eauto.
      * intros p q a H1 H2. apply Hloc in H1, H2.
        destruct H1 as [H1|(k1 & -> & H1)], H2 as [H2|(k2 & -> & H2)].
        -- eauto.
        -- apply B in H1. apply Hfresh in H2. lia.
        -- apply B in H2. apply Hfresh in H1. lia.
        -- f_equal. eapply ok_inj; eauto.
      * intros i0 d0 H. apply nth_snoc in H. destruct H as [H|[-> ->]]; [eauto|]. now apply (ok_wf _ _ C3).
    + unfold same_view. cbn. rewrite !app_length, L. split; [easy|]. split.
      * intros i0 d0 m0 k Hd0 Hm0. apply nth_snoc in Hd0, Hm0.
        destruct Hd0 as [Hd0|[-> ->]], Hm0 as [Hm0|[Hi ->]].
        -- rewrite <- (V i0 d0 m0 k Hd0 Hm0). apply (view_old (w_heap w) h' d0).
           intros k0 a Ha. apply C2. eapply ok_bound; eauto.
        -- apply nth_some_lt in Hd0. lia.
        -- apply nth_some_lt in Hm0. lia.
        -- change (view h' c k = m k). rewrite C5, <- Hv. unfold view. now destruct (dget k d).
      * rewrite <- VV. apply map_ext_in. intros a Ha. apply C2.
        apply In_nth_error in Ha. destruct Ha as [j Hj]. now apply (inv_bound _ Hinv (PV j)).
  - (* SetItem *)
    pick w s S i d m Hd Hm Hv. pose proof (setitem_spec k v (w_heap w) d (Hok _ _ Hd)) as Hs.
    destruct (mv_setitem k v (w_heap w) d) as [h' d']. destruct Hs as [E1 E2]. split; [|easy].
    eapply sim_put; eauto. intros k'. rewrite E2. unfold pset. destruct (seqb k' k); auto.
  - (* SetList *)
    pick w s S i d m Hd Hm Hv. pose proof (larg_sim p w s S) as Hp.
    destruct (larg_of p w) as [q|]; rewrite Hp; [|exact I].
    pose proof (setlist_spec k q (w_heap w) d (Hok _ _ Hd)) as Hs.
    destruct (mv_setlist k q (w_heap w) d) as [h' d']. destruct Hs as [E1 E2]. split; [|easy].
    eapply sim_put; eauto. intros k'. rewrite E2. unfold pset. destruct (seqb k' k); auto.
  - (* GetList *)
    pick w s S i d m Hd Hm Hv. unfold mv_getlist.
    assert (Hp : plist m k = match dget k d with Some a => hget (w_heap w) a | None => [] end).
    { unfold plist. rewrite <- Hv. unfold view. now destruct (dget k d). }
    rewrite Hp. destruct (dget k d) as [a|]; cbn [halloc].
    + rewrite hget_app_new. split; [now apply sim_var|easy].
    + rewrite hget_app_new. split; [now apply sim_var|easy].
  - (* AppendList *)
    pick w s S i d m Hd Hm Hv. pose proof (appendlist_spec k v (w_heap w) d (Hok _ _ Hd)) as Hs.
    destruct (mv_appendlist k v (w_heap w) d) as [h' d']. destruct Hs as [E1 E2]. split; [|easy].
    eapply sim_put; eauto. intros k'. rewrite E2. unfold pset, plist. rewrite <- Hv. destruct (seqb k' k); auto.
  - (* SetDefault *)
    pick w s S i d m Hd Hm Hv. unfold mv_setdefault. rewrite (dmem_view k (w_heap w)). rewrite (Hv k).
    destruct (m k) as [l|] eqn:Ek.
    + pose proof (getitem_spec k (w_heap w) d) as Hg.
      assert (Hgl : get_last (view (w_heap w) d) k = get_last m k) by (unfold get_last; now rewrite Hv).
      destruct (sim_refl_put w s i d m S Hd Hm) as [R1 R2].
      destruct (mv_getitem k (w_heap w) d); rewrite R1; (split; [easy|]); congruence.
    + pose proof (setitem_spec k v (w_heap w) d (Hok _ _ Hd)) as Hs.
      destruct (mv_setitem k v (w_heap w) d) as [h' d'] eqn:Es. destruct Hs as [E1 E2].
      pose proof (getitem_spec k h' d') as Hg. unfold get_last in Hg. rewrite E2 in Hg.
      unfold pset in Hg. rewrite seqb_refl in Hg. cbn in Hg.
      destruct (mv_getitem k h' d'); [|easy]. split; [|congruence].
      eapply sim_put; eauto. intros k'. rewrite E2. unfold pset. destruct (seqb k' k); auto.
  - (* SetListDefault *)
    pick w s S i d m Hd Hm Hv. pose proof (larg_sim p w s S) as Hp.
    destruct (larg_of p w) as [q|]; rewrite Hp; [|exact I].
    pose proof (setlistdefault_spec k q (w_heap w) d (Hok _ _ Hd)) as Hs.
    destruct (mv_setlistdefault k q (w_heap w) d) as [a [h' d']]. destruct Hs as (E1 & E2 & E3 & E4 & E5 & E6).
    cbn [fst]. assert (Ha : view h' d' k = Some (hget h' a)) by (unfold view; now rewrite E2).
    rewrite E6, Hv in Ha. destruct (m k) as [l|] eqn:Ek.
    + split; [|congruence]. destruct (sim_refl_put w s i d m S Hd Hm) as [_ R2]. rewrite <- R2.
      eapply sim_put; eauto. intros k'. rewrite E6, Hv, Ek. auto.
    + split.
      * eapply sim_put; eauto. intros k'. rewrite E6, Hv, Ek. unfold pset. destruct (seqb k' k); auto.
      * unfold pset in Ha. rewrite seqb_refl in Ha. congruence.
  - (* UpdateMVD *)
    pick w s S i d m Hd Hm Hv. pick w s S i' d' m' Hd' Hm' Hv'.
    pose proof (update_lists_spec d' (w_heap w) d (Hok _ _ Hd) (inv_wf _ Hinv _ _ Hd')) as Hu.
    assert (Hpre : forall k r, dget k d' = Some r -> r < length (w_heap w) /\ forall k', dget k' d = Some r -> k' = k).
    { intros k r H. split; [eapply ok_bound; [eapply (Hok i'); eauto|eauto]|].
      intros k' H'. assert (PD i k' = PD i' k) as [= _ ->]; [|easy].
      apply (inv_inj _ Hinv _ _ r); cbn; [now rewrite Hd|now rewrite Hd']. }
    specialize (Hu Hpre). destruct (mv_update_lists d' (w_heap w) d) as [h1 d1]. destruct Hu as [E1 E2].
    split; [|easy]. eapply sim_put; eauto. intros k. rewrite E2. unfold pextend, plist. now rewrite !Hv, Hv'.
  - (* UpdateDict *)
    pick w s S i d m Hd Hm Hv. pose proof (update_pairs_spec l (w_heap w) d (Hok _ _ Hd)) as Hs.
    destruct (mv_update_pairs l (w_heap w) d) as [h' d']. destruct Hs as [E1 E2]. split; [|easy].
    eapply sim_put; eauto. intros k'. rewrite E2. unfold pextend, plist. now rewrite !Hv.
  - (* Pop *)
    pick w s S i d m Hd Hm Hv. rewrite <- (Hv k). unfold view at 1. destruct (dget k d) as [a|] eqn:Ek; cbn [option_map].
    2:{ split; easy. }
    split; [|easy].
    assert (Hp : sim (put i (w_heap w, ddel k d) w) (sput i (pset k None m) s)).
    { eapply sim_put; [eassumption|eassumption|now apply ext_ddel; eauto|].
      intros k'. rewrite view_ddel by (eapply inv_wf; eauto). unfold pset. destruct (seqb k' k); auto. }
    destruct Hp as [Pinv (PL & PV' & PVV)]. unfold put, sput in *. cbn [w_heap w_dicts w_vars s_dicts s_vars fst snd] in *.
    assert (Hi : i < length (w_dicts w)) by (eapply nth_some_lt; eauto).
    assert (Hla : loc w (PD i k) = Some a) by (cbn; now rewrite Hd).
    split.
    + destruct Pinv as [B J W].
      set (w1 := {| w_heap := w_heap w; w_dicts := set_nth i (ddel k d) (w_dicts w); w_vars := w_vars w |}) in *.
      assert (Hno : forall p, loc w1 p = Some a -> False).
      { intros p Hp. assert (Hp' : loc w p = Some a /\ p <> PD i k).
        { destruct p as [i0 k0|j]; cbn in *; [|easy]. destruct (Nat.eq_dec i i0) as [<-|N].
          - rewrite nth_set_same in Hp by easy. rewrite Hd. destruct (str_eq_dec k0 k) as [->|Hne].
            + rewrite dget_ddel_same in Hp; [easy|]. eapply inv_wf; eauto.
            + rewrite dget_ddel_other in Hp by easy. split; [easy|congruence].
          - rewrite nth_set_other in Hp by easy. split; [easy|congruence]. }
        destruct Hp' as [H1 H2]. apply H2. eapply inv_inj; eauto. }
      assert (Hloc : forall p b, loc (mkW (w_heap w) (set_nth i (ddel k d) (w_dicts w)) (w_vars w ++ [a])) p = Some b ->
         loc w1 p = Some b \/ (p = PV (length (w_vars w)) /\ b = a)).
      { intros [i0 k0|j] b H; cbn in *; [now left|]. apply nth_snoc in H. destruct H as [H|[-> ->]]; auto. }
      split; cbn [w_heap w_dicts].
      * intros p b H. apply Hloc in H. destruct H as [H|[-> ->]]; [now apply B in H|].
        now apply (inv_bound _ Hinv) in Hla.
      * intros p q b H1 H2. apply Hloc in H1, H2. destruct H1 as [H1|[-> ->]], H2 as [H2|[-> H2]].
        -- eauto.
        -- subst. exfalso. eauto.
        -- exfalso. eauto.
        -- easy.
      * apply W.
    + unfold same_view. cbn. split; [easy|]. split; [easy|]. rewrite map_app. cbn. now rewrite PVV.
  - (* DelItem *)
    pick w s S i d m Hd Hm Hv. rewrite <- (Hv k). unfold view at 1. destruct (dget k d) as [a|] eqn:Ek; cbn [option_map].
    2:{ split; easy. }
    split; [|easy]. eapply sim_put; [eassumption|eassumption|now apply ext_ddel; eauto|].
    intros k'. rewrite view_ddel by (eapply inv_wf; eauto). unfold pset. destruct (seqb k' k); auto.
  - (* Clear *)
    pick w s S i d m Hd Hm Hv. split; [|easy]. eapply sim_put; [eassumption|eassumption|apply ext_clear|]. easy.
  - (* GetItem *)
    pick w s S i d m Hd Hm Hv. split; [easy|]. rewrite getitem_spec. unfold get_last. now rewrite Hv.
  - (* Get *)
    pick w s S i d m Hd Hm Hv. split; [easy|]. f_equal. unfold mv_get, mv_getitem. rewrite <- Hv. unfold view.
    destruct (dget k d) as [a|]; cbn; [|easy]. destruct (hget (w_heap w) a) as [|x l] eqn:E; [easy|].
    rewrite last_val_last by easy. destruct (last (x :: l) VNone) as [| |[|]]; easy.
  - (* NewList *)
    cbn [halloc]. split; [now apply sim_var|easy].
  - (* Mutate *)
    rewrite <- VV, nth_error_map. destruct (nth_error (w_vars w) j) as [a|] eqn:Ej; cbn [option_map]; [|exact I].
    split; [|easy].
    assert (Ha : a < length (w_heap w)) by now apply (inv_bound _ Hinv (PV j)).
    assert (Hoth : forall p b, loc w p = Some b -> p <> PV j -> a <> b).
    { intros p b Hp Hne ->. apply Hne. eapply inv_inj; eauto. }
    split.
    + destruct Hinv as [B J W]. split; cbn [w_heap w_dicts].
      * intros p b H. rewrite hset_length. now apply (B p).
      * intros p q b H1 H2. now apply (J p q b).
      * easy.
    + unfold same_view. cbn. split; [easy|]. split.
      * intros i d m k Hd Hm. rewrite <- (V i d m k Hd Hm). apply (view_old (w_heap w)).
        intros k0 b Hb. apply hget_hset_other. apply (Hoth (PD i k0)); [cbn; now rewrite Hd|easy].
      * assert (Hgen : forall (vs : list nat) n, (forall j0 b, nth_error vs j0 = Some b -> j0 <> n -> a <> b) ->
           nth_error vs n = Some a ->
           map (hget (hset (w_heap w) a (f (hget (w_heap w) a)))) vs =
           set_nth n (f (hget (w_heap w) a)) (map (hget (w_heap w)) vs)).
        { induction vs as [|b vs IH]; intros [|n] Hno Hn; cbn in *; try easy.
          - injection Hn as ->. rewrite hget_hset_same by easy. f_equal. apply map_ext_in. intros c Hc.
            apply hget_hset_other. apply In_nth_error in Hc. destruct Hc as [j0 Hj0]. now apply (Hno (Datatypes.S j0)).
          - f_equal.
            + apply hget_hset_other. now apply (Hno 0).
            + apply IH; [|easy]. intros j0 c Hc Hne. apply (Hno (Datatypes.S j0)); [easy|congruence]. }
        apply Hgen; [|easy]. intros j0 b Hb Hne. apply (Hoth (PV j0)); [easy|congruence].
Qed.

Lemma sim_run : forall os w s, sim w s ->
  match run os w, srun os s with
  | Some (w', xs), Some (s', xs') => sim w' s' /\ xs = xs'
  | None, None => True
  | _, _ => False
  end.
Proof.
  induction os as [|o os IH]; intros w s S; cbn [run srun]; [now split|].
  pose proof (sim_step o w s S) as H.
  destruct (step o w) as [[w1 x]|], (sstep o s) as [[s1 x']|]; try easy.
  destruct H as [S1 <-]. specialize (IH w1 s1 S1).
  destruct (run os w1) as [[w2 xs]|], (srun os s1) as [[s2 xs']|]; cbn; try easy.
  destruct IH as [IH ->]. easy.
Qed.

Lemma sim_empty : sim empty_world empty_sworld.
Proof. split; [apply inv_empty|]. unfold same_view. cbn. split; [easy|]. split; [|easy]. now intros [|i]. Qed.
