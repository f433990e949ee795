(** * Who can change a list: proofs about programs that share lists *)
From Verif Require Import Py PyFacts PyDict MVDModel MVDSpec MVDFacts AliasModel.

Definition owns (d : mvd) (a : nat) : Prop := In a (map snd d).
Definition bnd (n : nat) (d : mvd) : Prop := forall a, owns d a -> a < n.

Lemma owns_dget k a d : dget k d = Some a -> owns d a.
Proof.
  induction d as [|[k' x] d IH]; cbn [dget]; [easy|]. unfold owns. cbn [map snd In].
  destruct (seqb k k'); [intros [= ->]; now left|]. intros H. right. now apply IH.
Qed.
Lemma owns_dset k a d x : owns (dset k a d) x -> x = a \/ owns d x.
Proof.
  unfold owns. induction d as [|[k' y] d IH]; cbn [dset].
  - intros [H|[]]. now left.
  - destruct (seqb k k'); cbn [map snd In]; intros [H|H]; auto. destruct (IH H); auto.
Qed.
Lemma owns_ddel k d x : owns (ddel k d) x -> owns d x.
Proof.
  unfold owns. induction d as [|[k' y] d IH]; cbn [ddel map snd In]; [easy|].
  destruct (seqb k k'); cbn [map snd In]; [now right|]. intros [H|H]; auto.
Qed.

(** [d] may become [d'] and only lists of [d] have changed *)
Record wext (h : heap) (d : mvd) (h' : heap) (d' : mvd) : Prop := {
  we_len : length h <= length h';
  we_own : forall a, owns d' a -> owns d a \/ length h <= a;
  we_bnd : bnd (length h') d';
  we_frame : forall a, a < length h -> ~ owns d a -> hget h' a = hget h a;
  we_wf : wf d -> wf d' }.

Lemma wext_refl h d : bnd (length h) d -> wext h d h d.
Proof. intros H. split; auto. Qed.
Lemma wext_trans h d h1 d1 h2 d2 : wext h d h1 d1 -> wext h1 d1 h2 d2 -> wext h d h2 d2.
Proof.
  intros [L1 O1 B1 F1 W1] [L2 O2 B2 F2 W2]. split; [lia| |easy| |auto].
  - intros a H. destruct (O2 _ H) as [H1|H1]; [auto|right; lia].
  - intros a Ha Hn. rewrite F2; [auto|lia|]. intros Hk. destruct (O1 _ Hk); [easy|lia].
Qed.
Lemma wext_alloc h d l : bnd (length h) d -> wext h d (h ++ [l]) d.
Proof.
  intros B. split; auto.
  - rewrite app_length. cbn. lia.
  - intros a Ha. rewrite app_length. apply B in Ha. lia.
  - intros a Ha _. now apply hget_app_old.
Qed.
Lemma wext_alloc_set h d k l : bnd (length h) d -> wext h d (h ++ [l]) (dset k (length h) d).
Proof.
  intros B. split.
  - rewrite app_length. cbn. lia.
  - intros a Ha. apply owns_dset in Ha as [->|Ha]; [right; lia|now left].
  - intros a Ha. rewrite app_length. cbn. apply owns_dset in Ha as [->|Ha]; [lia|]. apply B in Ha. lia.
  - intros a Ha _. now apply hget_app_old.
  - apply wf_dset.
Qed.
Lemma wext_hset h d a l : bnd (length h) d -> owns d a -> wext h d (hset h a l) d.
Proof.
  intros B Ha. split; auto.
  - now rewrite hset_length.
  - intros b Hb. rewrite hset_length. now apply B.
  - intros b _ Hn. apply hget_hset_other. now intros ->.
Qed.
Lemma wext_ddel h d k : bnd (length h) d -> wext h d h (ddel k d).
Proof.
  intros B. split; auto.
  - intros a Ha. left. now apply owns_ddel in Ha.
  - intros a Ha. apply B. now apply owns_ddel in Ha.
  - apply wf_ddel.
Qed.
Lemma wext_clear h d : wext h d h [].
Proof. split; auto; try easy. intros _. constructor. Qed.

Lemma w_setitem k v h d : bnd (length h) d -> let (h', d') := mv_setitem k v h d in wext h d h' d'.
Proof. intros B. unfold mv_setitem, halloc. now apply wext_alloc_set. Qed.
Lemma w_setlist k p h d : bnd (length h) d -> let (h', d') := mv_setlist k p h d in wext h d h' d'.
Proof. intros B. unfold mv_setlist, halloc. destruct p; now apply wext_alloc_set. Qed.
Lemma w_setlistdefault k p h d : bnd (length h) d ->
  match mv_setlistdefault k p h d with (a, (h', d')) => wext h d h' d' /\ owns d' a end.
Proof.
  intros B. unfold mv_setlistdefault, dmem. destruct (dget k d) as [a|] eqn:E.
  - rewrite E. split; [now apply wext_refl|]. now apply owns_dget in E.
  - assert (Ho : forall a, owns (dset k a d) a).
    { intros a. apply (owns_dget k). apply dget_dset_same. }
    destruct p as [|r|v]; unfold mv_setlist, halloc; rewrite dget_dset_same; (split; [|apply Ho]).
    + eapply wext_trans; [apply (wext_alloc h d [] B)|]. apply wext_alloc_set.
      now apply (we_bnd _ _ _ _ (wext_alloc h d [] B)).
    + now apply wext_alloc_set.
    + now apply wext_alloc_set.
Qed.
Lemma w_extend k l h d : bnd (length h) d ->
  match mv_setlistdefault k LNone h d with (a, (h', d')) => wext h d (hset h' a l) d' end.
Proof.
  intros B. pose proof (w_setlistdefault k LNone h d B) as H. destruct (mv_setlistdefault k LNone h d) as (a & h' & d').
  destruct H as [H1 H2]. eapply wext_trans; [exact H1|]. apply wext_hset; [|easy]. apply (we_bnd _ _ _ _ H1).
Qed.
Lemma w_appendlist k v h d : bnd (length h) d -> let (h', d') := mv_appendlist k v h d in wext h d h' d'.
Proof.
  intros B. unfold mv_appendlist. pose proof (fun l => w_extend k l h d B) as H.
  destruct (mv_setlistdefault k LNone h d) as (a & h' & d'). apply H.
Qed.
Lemma w_update_pairs : forall l h d, bnd (length h) d -> let (h', d') := mv_update_pairs l h d in wext h d h' d'.
Proof.
  induction l as [|[k v] l IH]; intros h d B; cbn [mv_update_pairs]; [now apply wext_refl|].
  pose proof (fun l => w_extend k l h d B) as H. destruct (mv_setlistdefault k LNone h d) as (a & h1 & d1).
  specialize (H (hget h1 a ++ [v])). specialize (IH _ _ (we_bnd _ _ _ _ H)).
  destruct (mv_update_pairs l _ d1) as [h' d']. eapply wext_trans; eassumption.
Qed.
Lemma w_update_lists : forall items h d, bnd (length h) d ->
  let (h', d') := mv_update_lists items h d in wext h d h' d'.
Proof.
  induction items as [|[k r] l IH]; intros h d B; cbn [mv_update_lists]; [now apply wext_refl|].
  pose proof (fun l => w_extend k l h d B) as H. destruct (mv_setlistdefault k LNone h d) as (a & h1 & d1).
  specialize (H (hget h1 a ++ hget h1 r)). specialize (IH _ _ (we_bnd _ _ _ _ H)).
  destruct (mv_update_lists l _ d1) as [h' d']. eapply wext_trans; eassumption.
Qed.

(** ** Copies own new lists only, and have the content of the original *)
Definition fresh_copy (h : heap) (d : mvd) (h' : heap) (c : mvd) : Prop :=
  length h <= length h' /\ (forall a, owns c a -> length h <= a < length h') /\
  (forall a, a < length h -> hget h' a = hget h a) /\ wf c /\ (forall k, view h' c k = view h d k).

Lemma w_copy : forall items h0 h acc, length h0 <= length h -> (forall a, a < length h0 -> hget h a = hget h0 a) ->
  (forall a, owns acc a -> length h0 <= a < length h) -> wf acc -> wf items -> bnd (length h0) items ->
  (forall k, In k (map fst items) -> dget k acc = None) ->
  let (h', c) := mv_copy_lists items h acc in
  length h0 <= length h' /\ (forall a, owns c a -> length h0 <= a < length h') /\
  (forall a, a < length h0 -> hget h' a = hget h0 a) /\ wf c /\
  (forall k, view h' c k = match dget k items with Some r => Some (hget h0 r) | None => view h acc k end).
Proof.
  induction items as [|[k r] items IH]; intros h0 h acc Hl Hh Ho Hw Hi Hb Hk; cbn [mv_copy_lists].
  - split; [easy|]. split; [easy|]. split; [easy|]. split; [easy|]. reflexivity.
  - unfold halloc. cbv beta iota.
    inversion Hi as [|? ? Hki Hi']; subst.
    specialize (IH h0 (h ++ [hget h r]) (dset k (length h) acc)).
    assert (A1 : length h0 <= length (h ++ [hget h r])) by (rewrite app_length; cbn; lia).
    specialize (IH A1).
    assert (A2 : forall a, a < length h0 -> hget (h ++ [hget h r]) a = hget h0 a).
    { intros a Ha. rewrite hget_app_old by lia. auto. }
    specialize (IH A2).
    assert (A3 : forall a, owns (dset k (length h) acc) a -> length h0 <= a < length (h ++ [hget h r])).
    { intros a Ha. rewrite app_length. cbn. apply owns_dset in Ha as [->|Ha]; [lia|]. apply Ho in Ha. lia. }
    specialize (IH A3 (wf_dset _ _ _ Hw) Hi').
    assert (A4 : bnd (length h0) items). { intros a Ha. apply Hb. now right. }
    specialize (IH A4).
    assert (A5 : forall k', In k' (map fst items) -> dget k' (dset k (length h) acc) = None).
    { intros k' Hk'. rewrite dget_dset_other; [apply Hk; now right|]. intros ->. easy. }
    specialize (IH A5). destruct (mv_copy_lists items _ _) as [h' c].
    destruct IH as (I1 & I2 & I3 & I4 & I5). split; [easy|]. split; [easy|]. split; [easy|]. split; [easy|].
    intros k'. rewrite I5. cbn [dget]. destruct (seqb k' k) eqn:E.
    + apply seqb_eq in E. subst k'.
      assert (Hn : dget k items = None) by now apply dget_None_notin. rewrite Hn.
      unfold view. rewrite dget_dset_same. cbn [option_map]. rewrite hget_app_new. f_equal. apply Hh. apply Hb. now left.
    + destruct (dget k' items) as [x|]; [easy|]. unfold view. apply seqb_neq in E. rewrite dget_dset_other by easy.
      destruct (dget k' acc) as [y|] eqn:Ey; [|easy]. cbn [option_map]. f_equal. apply hget_app_old.
      apply owns_dget in Ey. apply Ho in Ey. lia.
Qed.

Lemma mv_copy_fresh h d : bnd (length h) d -> wf d -> let (h', c) := mv_copy h d in fresh_copy h d h' c.
Proof.
  intros B W. unfold mv_copy. pose proof (w_copy d h h [] (Nat.le_refl _)) as H.
  specialize (H ltac:(auto) ltac:(intros a []) ltac:(constructor) W B ltac:(easy)).
  destruct (mv_copy_lists d h []) as [h' c]. destruct H as (H1 & H2 & H3 & H4 & H5).
  split; [easy|]. split; [easy|]. split; [easy|]. split; [easy|]. intros k. rewrite H5. unfold view.
  now destruct (dget k d).
Qed.

Lemma w_deepcopy : forall items memo h0 h acc, length h0 <= length h -> (forall a, a < length h0 -> hget h a = hget h0 a) ->
  (forall a, owns acc a -> length h0 <= a < length h) -> wf acc -> wf items -> bnd (length h0) items ->
  (forall r a, find_addr r memo = Some a -> length h0 <= a < length h /\ (r < length h0 -> hget h a = hget h0 r)) ->
  (forall k, In k (map fst items) -> dget k acc = None) ->
  let (h', c) := mv_deepcopy items memo h acc in
  length h0 <= length h' /\ (forall a, owns c a -> length h0 <= a < length h') /\
  (forall a, a < length h0 -> hget h' a = hget h0 a) /\ wf c /\
  (forall a, a < length h -> hget h' a = hget h a) /\
  (forall k, view h' c k = match dget k items with Some r => Some (hget h0 r) | None => view h acc k end).
Proof.
  induction items as [|[k r] items IH]; intros memo h0 h acc Hl Hh Ho Hw Hi Hb Hm Hk; cbn [mv_deepcopy].
  - split; [easy|]. split; [easy|]. split; [easy|]. split; [easy|]. split; reflexivity.
  - inversion Hi as [|? ? Hki Hi']; subst.
    assert (A4 : bnd (length h0) items). { intros a Ha. apply Hb. now right. }
    assert (Hr : r < length h0) by (apply Hb; now left).
    assert (Hn : dget k items = None) by now apply dget_None_notin.
    assert (G : forall memo' hh a, length h <= length hh -> (forall b, b < length h -> hget hh b = hget h b) ->
      length h0 <= a < length hh -> hget hh a = hget h0 r ->
      (forall r a, find_addr r memo' = Some a -> length h0 <= a < length hh /\ (r < length h0 -> hget hh a = hget h0 r)) ->
      let (h', c) := mv_deepcopy items memo' hh (dset k a acc) in
      length h0 <= length h' /\ (forall a, owns c a -> length h0 <= a < length h') /\
      (forall a, a < length h0 -> hget h' a = hget h0 a) /\ wf c /\
      (forall a, a < length h -> hget h' a = hget h a) /\
      (forall k', view h' c k' =
         match (if seqb k' k then Some r else dget k' items) with Some r => Some (hget h0 r) | None => view h acc k' end)).
    { intros memo' hh a Hlh Hhh Ha Hha Hm'.
      specialize (IH memo' h0 hh (dset k a acc)). specialize (IH ltac:(lia)).
      specialize (IH ltac:(intros b Hbb; rewrite Hhh by lia; auto)).
      assert (A3 : forall b, owns (dset k a acc) b -> length h0 <= b < length hh).
      { intros b Hbb. apply owns_dset in Hbb as [->|Hbb]; [lia|]. apply Ho in Hbb. lia. }
      specialize (IH A3 (wf_dset _ _ _ Hw) Hi' A4 Hm').
      assert (A5 : forall k', In k' (map fst items) -> dget k' (dset k a acc) = None).
      { intros k' Hk'. rewrite dget_dset_other; [apply Hk; now right|]. intros ->. easy. }
      specialize (IH A5). destruct (mv_deepcopy items _ _ _) as [h' c].
      destruct IH as (I1 & I2 & I3 & I4 & I5 & I6). split; [easy|]. split; [easy|]. split; [easy|]. split; [easy|].
      split; [intros b Hbb; rewrite I5 by lia; auto|].
      intros k'. rewrite I6. destruct (seqb k' k) eqn:E.
      - apply seqb_eq in E. subst k'. rewrite Hn. unfold view. rewrite dget_dset_same. cbn [option_map]. now rewrite Hha.
      - destruct (dget k' items) as [x|]; [easy|]. unfold view. apply seqb_neq in E. rewrite dget_dset_other by easy.
        destruct (dget k' acc) as [y|] eqn:Ey; [|easy]. cbn [option_map]. f_equal.
        apply Hhh. apply owns_dget in Ey. apply Ho in Ey. lia. }
    cbn [dget]. destruct (find_addr r memo) as [a|] eqn:E.
    + destruct (Hm _ _ E) as [M1 M2]. apply G; auto.
    + unfold halloc. cbv beta iota. apply G.
      * rewrite app_length. cbn. lia.
      * intros b Hbb. now apply hget_app_old.
      * rewrite app_length. cbn. lia.
      * rewrite hget_app_new. now apply Hh.
      * intros r' a'. cbn [find_addr]. rewrite app_length. cbn [length]. destruct (Nat.eqb_spec r r') as [->|Hne].
        -- intros [= <-]. split; [lia|]. intros _. rewrite hget_app_new. now apply Hh.
        -- intros H. destruct (Hm _ _ H) as [M1 M2]. split; [lia|]. intros Hr'. rewrite hget_app_old by lia. auto.
Qed.

Lemma mv_deepcopy_fresh h d : bnd (length h) d -> wf d -> let (h', c) := mv_deepcopy d [] h [] in fresh_copy h d h' c.
Proof.
  intros B W. pose proof (w_deepcopy d [] h h [] (Nat.le_refl _)) as H.
  specialize (H ltac:(auto) ltac:(intros a []) ltac:(constructor) W B ltac:(easy) ltac:(easy)).
  destruct (mv_deepcopy d [] h []) as [h' c]. destruct H as (H1 & H2 & H3 & H4 & _ & H5).
  split; [easy|]. split; [easy|]. split; [easy|]. split; [easy|]. intros k. rewrite H5. unfold view.
  now destruct (dget k d).
Qed.

(** ** Worlds *)
Definition good (w : world) : Prop :=
  (forall i d, nth_error (w_dicts w) i = Some d -> bnd (length (w_heap w)) d /\ wf d) /\
  (forall a, In a (w_vars w) -> a < length (w_heap w)).

(** operations that change or hand out lists only of the dictionaries [M] and of the
    caller's lists [V] *)
Definition safe_op (M V : nat -> Prop) (o : op) : Prop :=
  match o with
  | SetItem i _ _ | SetList i _ _ | AppendList i _ _ | SetDefault i _ _ | SetListDefault i _ _
  | UpdateMVD i _ | UpdateDict i _ | Pop i _ | DelItem i _ | Clear i => M i
  | Mutate j _ => V j
  | NewDict | CopyDict _ | GetList _ _ | GetItem _ _ | Get _ _ _ | NewList _ => True
  end.
Definition safe_op2 (M V : nat -> Prop) (o : op2) : Prop :=
  match o with
  | Base o => safe_op M V o
  | NewFrom l => forall k j, In (k, j) l -> V j
  | ListsOf i | ListDefault i _ _ => M i
  | GetListOr _ _ j => V j
  | DeepCopy _ | Pickle _ => True
  end.

(** the lists [P] are out of reach of the dictionaries [M] and the lists [V] *)
Definition apart (P M V : nat -> Prop) (w : world) : Prop :=
  good w /\ (forall a, P a -> a < length (w_heap w)) /\
  (forall i d a, M i -> nth_error (w_dicts w) i = Some d -> owns d a -> ~ P a) /\
  (forall j a, V j -> nth_error (w_vars w) j = Some a -> ~ P a).

Definition kept (P M : nat -> Prop) (w w' : world) : Prop :=
  (forall a, P a -> hget (w_heap w') a = hget (w_heap w) a) /\
  (forall i d, ~ M i -> nth_error (w_dicts w) i = Some d -> nth_error (w_dicts w') i = Some d) /\
  length (w_dicts w) <= length (w_dicts w') /\ length (w_vars w) <= length (w_vars w').

Lemma put_apart P M V w i d h' d' vs : apart P M V w -> M i -> nth_error (w_dicts w) i = Some d ->
  wext (w_heap w) d h' d' -> (forall a, In a vs -> (owns d a \/ length (w_heap w) <= a) /\ a < length h') ->
  let w' := mkW h' (set_nth i d' (w_dicts w)) (w_vars w ++ vs) in apart P M V w' /\ kept P M w w'.
Proof.
  intros ((G1 & G2) & A1 & A2 & A3) Hi Hd He Hvs w'. pose proof (nth_some_lt _ _ _ Hd) as Hil.
  split.
  - split; [split|split; [|split]]; cbn [w_heap w_dicts w_vars w'].
    + intros j dj Hj. destruct (Nat.eq_dec i j) as [<-|Hne].
      * rewrite nth_set_same in Hj by easy. injection Hj as <-. split; [apply (we_bnd _ _ _ _ He)|].
        apply (we_wf _ _ _ _ He). now apply (G1 i).
      * rewrite nth_set_other in Hj by easy. destruct (G1 _ _ Hj) as [B W]. split; [|easy].
        intros a Ha. apply B in Ha. pose proof (we_len _ _ _ _ He). lia.
    + intros a Ha. apply in_app_or in Ha as [Ha|Ha].
      * apply G2 in Ha. pose proof (we_len _ _ _ _ He). lia.
      * now apply Hvs.
    + intros a Ha. apply A1 in Ha. pose proof (we_len _ _ _ _ He). lia.
    + intros j dj a Hj Hdj Ha HP. destruct (Nat.eq_dec i j) as [<-|Hne].
      * rewrite nth_set_same in Hdj by easy. injection Hdj as <-.
        destruct (we_own _ _ _ _ He a Ha) as [Ho|Ho]; [now apply (A2 i d a)|]. apply A1 in HP. lia.
      * rewrite nth_set_other in Hdj by easy. now apply (A2 j dj a).
    + intros j a Hj Hja HP. destruct (Nat.lt_ge_cases j (length (w_vars w))) as [L|L].
      * rewrite nth_error_app1 in Hja by easy. now apply (A3 j a).
      * rewrite nth_error_app2 in Hja by easy. apply nth_error_In in Hja. apply Hvs in Hja as [[Ho|Ho] _].
        -- now apply (A2 i d a).
        -- apply A1 in HP. lia.
  - split; [|split; [|split]]; cbn [w_heap w_dicts w_vars w'].
    + intros a Ha. apply (we_frame _ _ _ _ He); [now apply A1|]. intros Ho. now apply (A2 i d a).
    + intros j dj Hj Hdj. rewrite nth_set_other; [easy|]. now intros ->.
    + rewrite set_nth_length. lia.
    + rewrite app_length. lia.
Qed.

Lemma add_apart P M V w h' ds vs : apart P M V w ->
  length (w_heap w) <= length h' -> (forall a, P a -> hget h' a = hget (w_heap w) a) ->
  (forall d, In d ds -> (bnd (length h') d /\ wf d) /\ forall a, owns d a -> ~ P a) ->
  (forall a, In a vs -> a < length h' /\ ~ P a) ->
  let w' := mkW h' (w_dicts w ++ ds) (w_vars w ++ vs) in apart P M V w' /\ kept P M w w'.
Proof.
  intros ((G1 & G2) & A1 & A2 & A3) Hl Hh Hds Hvs w'. split.
  - split; [split|split; [|split]]; cbn [w_heap w_dicts w_vars w'].
    + intros j dj Hj. destruct (Nat.lt_ge_cases j (length (w_dicts w))) as [L|L].
      * rewrite nth_error_app1 in Hj by easy. destruct (G1 _ _ Hj) as [B W]. split; [|easy].
        intros a Ha. apply B in Ha. lia.
      * rewrite nth_error_app2 in Hj by easy. apply nth_error_In in Hj. now apply Hds.
    + intros a Ha. apply in_app_or in Ha as [Ha|Ha]; [apply G2 in Ha; lia|now apply Hvs].
    + intros a Ha. apply A1 in Ha. lia.
    + intros j dj a Hj Hdj Ha. destruct (Nat.lt_ge_cases j (length (w_dicts w))) as [L|L].
      * rewrite nth_error_app1 in Hdj by easy. now apply (A2 j dj a).
      * rewrite nth_error_app2 in Hdj by easy. apply nth_error_In in Hdj. now apply (Hds dj).
    + intros j a Hj Hja. destruct (Nat.lt_ge_cases j (length (w_vars w))) as [L|L].
      * rewrite nth_error_app1 in Hja by easy. now apply (A3 j a).
      * rewrite nth_error_app2 in Hja by easy. apply nth_error_In in Hja. now apply Hvs.
  - split; [|split; [|split]]; cbn [w_heap w_dicts w_vars w']; try (rewrite app_length; lia); [easy|].
    intros j dj Hj Hdj. rewrite nth_error_app1; [easy|]. now apply nth_some_lt in Hdj.
Qed.

Lemma kept_refl P M w : kept P M w w.
Proof. split; [|split; [|split]]; auto. Qed.
Lemma kept_trans P M w1 w2 w3 : kept P M w1 w2 -> kept P M w2 w3 -> kept P M w1 w3.
Proof.
  intros (A1 & A2 & A3 & A4) (B1 & B2 & B3 & B4). split; [|split; [|split]]; try lia.
  - intros a Ha. rewrite B1 by easy. auto.
  - intros i d Hi Hd. auto.
Qed.

Lemma mkW_eta w : mkW (w_heap w) (w_dicts w) (w_vars w) = w.
Proof. now destruct w. Qed.

Lemma step_apart P M V o w w' x : apart P M V w -> safe_op M V o -> step o w = Some (w', x) ->
  apart P M V w' /\ kept P M w w'.
Proof.
  intros HA Hs H. pose proof HA as ((G1 & G2) & A1 & A2 & A3).
  assert (PUT : forall i d h' d', M i -> nth_error (w_dicts w) i = Some d -> wext (w_heap w) d h' d' ->
    apart P M V (put i (h', d') w) /\ kept P M w (put i (h', d') w)).
  { intros i d h' d' Hi Hd He. unfold put. cbn [fst snd].
    pose proof (put_apart P M V w i d h' d' [] HA Hi Hd He ltac:(intros a [])) as X. cbn zeta in X.
    now rewrite app_nil_r in X. }
  assert (NEWV : forall l, apart P M V (mkW (w_heap w ++ [l]) (w_dicts w) (w_vars w ++ [length (w_heap w)])) /\
    kept P M w (mkW (w_heap w ++ [l]) (w_dicts w) (w_vars w ++ [length (w_heap w)]))).
  { intros l. pose proof (add_apart P M V w (w_heap w ++ [l]) [] [length (w_heap w)] HA) as X.
    rewrite app_nil_r in X. apply X.
    - rewrite app_length. lia.
    - intros a Ha. apply hget_app_old. now apply A1.
    - intros d [].
    - intros a [<-|[]]. rewrite app_length. cbn. split; [lia|]. intros HP. apply A1 in HP. lia. }
  destruct o as [|i|i k v|i k p|i k|i k v|i k v|i k p|i i'|i l|i k|i k|i|i k|i k v|l|j f]; cbn [step safe_op] in *;
    try (destruct (nth_error (w_dicts w) i) as [d|] eqn:Ed; [|easy]);
    try (assert (Bd : bnd (length (w_heap w)) d) by now apply (G1 i));
    try (assert (Wd : wf d) by now apply (G1 i)).
  - injection H as <- <-. pose proof (add_apart P M V w (w_heap w) [[]] [] HA) as X. rewrite app_nil_r in X.
    apply X; auto; try easy. intros d [<-|[]]. split; [split; [easy|constructor]|easy].
  - pose proof (mv_copy_fresh _ _ Bd Wd) as Hf. destruct (mv_copy (w_heap w) d) as [h' c].
    injection H as <- <-. destruct Hf as (F1 & F2 & F3 & F4 & F5).
    pose proof (add_apart P M V w h' [c] [] HA F1) as X. rewrite app_nil_r in X. apply X; try easy.
    + intros a Ha. apply F3. now apply A1.
    + intros d0 [<-|[]]. split; [split; [intros a Ha; now apply F2 in Ha|easy]|].
      intros a Ha HP. apply A1 in HP. apply F2 in Ha. lia.
  - injection H as <- <-. pose proof (w_setitem k v _ _ Bd) as W. destruct (mv_setitem k v (w_heap w) d) as [h' d'].
    now apply (PUT i d).
  - destruct (larg_of p w) as [q|]; [|easy]. injection H as <- <-. pose proof (w_setlist k q _ _ Bd) as W.
    destruct (mv_setlist k q (w_heap w) d) as [h' d']. now apply (PUT i d).
  - unfold mv_getlist in H. destruct (dget k d) as [a|]; unfold halloc in H; cbn beta iota in H; injection H as <- <-; apply NEWV.
  - injection H as <- <-. pose proof (w_appendlist k v _ _ Bd) as W. destruct (mv_appendlist k v (w_heap w) d) as [h' d'].
    now apply (PUT i d).
  - unfold mv_setdefault in H. destruct (dmem k d).
    + destruct (mv_getitem k (w_heap w) d); injection H as <- <-; apply (PUT i d); auto; now apply wext_refl.
    + pose proof (w_setitem k v _ _ Bd) as W. destruct (mv_setitem k v (w_heap w) d) as [h' d'].
      destruct (mv_getitem k h' d'); injection H as <- <-; now apply (PUT i d).
  - destruct (larg_of p w) as [q|]; [|easy]. pose proof (w_setlistdefault k q _ _ Bd) as W.
    destruct (mv_setlistdefault k q (w_heap w) d) as (a & h' & d'). injection H as <- <-. now apply (PUT i d).
  - destruct (nth_error (w_dicts w) i') as [d2|] eqn:Ed2; [|easy]. injection H as <- <-.
    pose proof (w_update_lists d2 _ _ Bd) as W. destruct (mv_update_lists d2 (w_heap w) d) as [h' d'].
    now apply (PUT i d).
  - injection H as <- <-. pose proof (w_update_pairs l _ _ Bd) as W. destruct (mv_update_pairs l (w_heap w) d) as [h' d'].
    now apply (PUT i d).
  - destruct (dget k d) as [a|] eqn:Ea; injection H as <- <-; [|split; [exact HA|apply kept_refl]].
    apply (put_apart P M V w i d (w_heap w) (ddel k d) [a] HA Hs Ed).
    + now apply wext_ddel.
    + intros b [<-|[]]. apply owns_dget in Ea. split; [now left|now apply Bd].
  - destruct (dget k d) as [a|] eqn:Ea; injection H as <- <-; [|split; [exact HA|apply kept_refl]].
    apply (PUT i d); auto. now apply wext_ddel.
  - injection H as <- <-. apply (PUT i d); auto. apply wext_clear.
  - injection H as <- <-. split; [exact HA|apply kept_refl].
  - injection H as <- <-. split; [exact HA|apply kept_refl].
  - unfold halloc in H. cbn beta iota in H. injection H as <- <-. apply NEWV.
  - destruct (nth_error (w_vars w) j) as [a|] eqn:Ea; [|easy]. injection H as <- <-.
    assert (Ha : ~ P a) by now apply (A3 j a).
    split.
    + split; [split|split; [|split]]; cbn [w_heap w_dicts w_vars]; rewrite ?hset_length; auto.
    + split; [|split; [|split]]; cbn [w_heap w_dicts w_vars]; auto.
      intros b Hb. apply hget_hset_other. now intros ->.
Qed.

Lemma addrs_of_In w : forall l r, addrs_of w l = Some r -> forall k a, In (k, a) r ->
  exists j, In (k, j) l /\ nth_error (w_vars w) j = Some a.
Proof.
  induction l as [|[k j] l IH]; intros r H; cbn [addrs_of] in H; [now injection H as <-|].
  destruct (nth_error (w_vars w) j) as [a|] eqn:Ea; [|easy]. destruct (addrs_of w l) as [r'|]; [|easy].
  injection H as <-. intros k' a' [[= <- <-]|Hin]; [exists j; split; [now left|easy]|].
  destruct (IH r' eq_refl k' a' Hin) as (j' & J1 & J2). exists j'. split; [now right|easy].
Qed.
Lemma mv_from_spec : forall l acc, wf acc -> wf (mv_from l acc) /\
  forall a, owns (mv_from l acc) a -> owns acc a \/ In a (map snd l).
Proof.
  induction l as [|[k x] l IH]; intros acc W; cbn [mv_from map snd]; [split; [easy|now left]|].
  destruct (IH (dset k x acc) (wf_dset _ _ _ W)) as [I1 I2]. split; [easy|]. intros a Ha.
  destruct (I2 a Ha) as [Ho|Ho]; [|right; now right]. apply owns_dset in Ho as [->|Ho]; [right; now left|now left].
Qed.

Lemma step2_apart P M V o w w' x : apart P M V w -> safe_op2 M V o -> step2 o w = Some (w', x) ->
  apart P M V w' /\ kept P M w w'.
Proof.
  intros HA Hs H. pose proof HA as ((G1 & G2) & A1 & A2 & A3).
  destruct o as [o|l|i|i k p|i k j|i|i]; cbn [step2 safe_op2] in *;
    try (destruct (nth_error (w_dicts w) i) as [d|] eqn:Ed; [|easy]);
    try (assert (Bd : bnd (length (w_heap w)) d) by now apply (G1 i));
    try (assert (Wd : wf d) by now apply (G1 i)).
  - now apply (step_apart P M V o w w' x).
  - destruct (addrs_of w l) as [r|] eqn:Er; [|easy]. injection H as <- <-.
    pose proof (add_apart P M V w (w_heap w) [mv_from r []] [] HA) as X. rewrite app_nil_r in X.
    destruct (mv_from_spec r [] ltac:(constructor)) as [F1 F2].
    assert (F3 : forall a, owns (mv_from r []) a -> exists j, V j /\ nth_error (w_vars w) j = Some a).
    { intros a Ha. destruct (F2 a Ha) as [[]|Hin]. apply in_map_iff in Hin as ([k b] & E & Hin). cbn in E. subst b.
      destruct (addrs_of_In w l r Er k a Hin) as (j & J1 & J2). exists j. split; [now apply (Hs k)|easy]. }
    apply X; auto; try easy. intros d [<-|[]]. split; [split; [|easy]|].
    + intros a Ha. destruct (F3 a Ha) as (j & _ & Hj). apply G2. now apply nth_error_In in Hj.
    + intros a Ha. destruct (F3 a Ha) as (j & Vj & Hj). now apply (A3 j a).
  - injection H as <- <-. pose proof (add_apart P M V w (w_heap w) [] (map snd d) HA) as X. rewrite app_nil_r in X.
    apply X; auto; try easy. intros a Ha. split; [now apply Bd|]. now apply (A2 i d a).
  - destruct (larg_of p w) as [q|]; [|easy]. pose proof (w_setlistdefault k q _ _ Bd) as W.
    destruct (mv_setlistdefault k q (w_heap w) d) as (a & h' & d'). injection H as <- <-. destruct W as [W1 W2].
    apply (put_apart P M V w i d h' d' [a] HA Hs Ed W1). intros b [<-|[]].
    split; [now apply (we_own _ _ _ _ W1)|now apply (we_bnd _ _ _ _ W1)].
  - destruct (dget k d) as [a|] eqn:Ea; destruct (nth_error (w_vars w) j) as [b|] eqn:Eb; try easy.
    + unfold halloc in H. cbv beta iota in H. injection H as <- <-.
      pose proof (add_apart P M V w (w_heap w ++ [hget (w_heap w) a]) [] [length (w_heap w)] HA) as X.
      rewrite app_nil_r in X. apply X.
      * rewrite app_length. lia.
      * intros c Hc. apply hget_app_old. now apply A1.
      * intros c [].
      * intros c [<-|[]]. rewrite app_length. cbn. split; [lia|]. intros HP. apply A1 in HP. lia.
    + injection H as <- <-. pose proof (add_apart P M V w (w_heap w) [] [b] HA) as X. rewrite app_nil_r in X.
      apply X; auto; try easy. intros c [<-|[]]. split; [apply G2; now apply nth_error_In in Eb|now apply (A3 j b)].
  - pose proof (mv_deepcopy_fresh _ _ Bd Wd) as Hf. destruct (mv_deepcopy d [] (w_heap w) []) as [h' c].
    injection H as <- <-. destruct Hf as (F1 & F2 & F3 & F4 & F5).
    pose proof (add_apart P M V w h' [c] [] HA F1) as X. rewrite app_nil_r in X. apply X; try easy.
    + intros a Ha. apply F3. now apply A1.
    + intros d0 [<-|[]]. split; [split; [intros a Ha; now apply F2 in Ha|easy]|].
      intros a Ha HP. apply A1 in HP. apply F2 in Ha. lia.
  - injection H as <- <-. split; [exact HA|apply kept_refl].
Qed.

Lemma run2_apart P M V : forall os w w', apart P M V w -> Forall (safe_op2 M V) os -> run2 os w = Some w' ->
  apart P M V w' /\ kept P M w w'.
Proof.
  induction os as [|o os IH]; intros w w' HA HF H; cbn [run2] in H.
  - injection H as <-. split; [exact HA|apply kept_refl].
  - inversion HF as [|? ? Ho HF']; subst. destruct (step2 o w) as [[w1 x]|] eqn:E; [|easy].
    destruct (step2_apart P M V o w w1 x HA Ho E) as [B1 B2]. destruct (IH w1 w' B1 HF' H) as [C1 C2].
    split; [exact C1|]. now apply (kept_trans P M w w1 w').
Qed.

Lemma good_empty : good empty_world.
Proof. split; [intros [|i] d; easy|easy]. Qed.
Lemma run2_good os w w' : good w -> run2 os w = Some w' -> good w'.
Proof.
  intros G H. destruct (run2_apart (fun _ => False) (fun _ => True) (fun _ => True) os w w') as [[G' _] _]; auto.
  - split; [exact G|]. split; [easy|]. split; easy.
  - apply Forall_forall. intros o _. destruct o as [o| | | | | | ]; cbn; auto. now destruct o.
Qed.
