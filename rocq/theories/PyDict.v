(** * Python dictionaries with string keys, as association lists.
    The order of the list is the order of first insertion; Python 2 dictionaries
    have no specified order, so no theorem depends on the order of distinct keys. *)
From Verif Require Import Py PyFacts.

Definition dict (V : Type) := list (str * V).

Section Dict.
  Context {V : Type}.
  Fixpoint dget (k : str) (d : dict V) : option V :=
    match d with
    | [] => None
    | (k', v) :: r => if seqb k k' then Some v else dget k r
    end.
  Definition dmem (k : str) (d : dict V) : bool :=
    match dget k d with Some _ => true | None => false end.
  Fixpoint dset (k : str) (v : V) (d : dict V) : dict V :=
    match d with
    | [] => [(k, v)]
    | (k', v') :: r => if seqb k k' then (k, v) :: r else (k', v') :: dset k v r
    end.
  Fixpoint ddel (k : str) (d : dict V) : dict V :=
    match d with
    | [] => []
    | (k', v') :: r => if seqb k k' then r else (k', v') :: ddel k r
    end.
  Definition dkeys (d : dict V) : list str := map fst d.
  Definition dvals (d : dict V) : list V := map snd d.

  Definition wf (d : dict V) : Prop := NoDup (dkeys d).

  Lemma dget_dset k k' v d : dget k (dset k' v d) = if seqb k k' then Some v else dget k d.
  Proof.
    induction d as [|[k1 v1] d IH]; cbn; [easy|].
    destruct (seqb k' k1) eqn:E1; cbn.
    - apply seqb_eq in E1. subst. destruct (seqb k k1); easy.
    - rewrite IH. destruct (seqb k k1) eqn:E2; [|easy].
      apply seqb_eq in E2. subst. destruct (seqb k1 k') eqn:E3; [|easy].
      apply seqb_eq in E3. subst. now rewrite seqb_refl in E1.
  Qed.
  Lemma dget_dset_same k v d : dget k (dset k v d) = Some v.
  Proof. rewrite dget_dset. now rewrite seqb_refl. Qed.
  Lemma dget_dset_other k k' v d : k <> k' -> dget k (dset k' v d) = dget k d.
  Proof. intros H. rewrite dget_dset. apply seqb_neq in H. now rewrite H. Qed.
  Lemma dget_None_notin k d : dget k d = None <-> ~ In k (dkeys d).
  Proof.
    induction d as [|[k1 v1] d IH]; cbn; [easy|].
    destruct (seqb k k1) eqn:E; split; intros H; try easy.
    - apply seqb_eq in E. subst. tauto.
    - intros [->|Hin]; [now rewrite seqb_refl in E|]. now apply IH.
    - apply IH. tauto.
  Qed.
  Lemma dget_Some_In k v d : dget k d = Some v -> In (k, v) d.
  Proof.
    induction d as [|[k1 v1] d IH]; cbn; [easy|].
    destruct (seqb k k1) eqn:E.
    - apply seqb_eq in E. subst. intros [= ->]. now left.
    - right. now apply IH.
  Qed.
  Lemma dget_In k v d : wf d -> In (k, v) d -> dget k d = Some v.
  Proof.
    unfold wf. induction d as [|[k1 v1] d IH]; cbn; [easy|]. intros Hw. inversion_clear Hw as [|? ? H1 H2].
    intros [[= -> ->]|Hin]; [now rewrite seqb_refl|].
    destruct (seqb k k1) eqn:E; [|now apply IH].
    apply seqb_eq in E. subst. exfalso. apply H1. apply in_map_iff. now exists (k1, v).
  Qed.
  Lemma dmem_In k d : dmem k d = true <-> In k (dkeys d).
  Proof.
    unfold dmem. pose proof (dget_None_notin k d) as H. destruct (dget k d) eqn:E.
    - split; [|easy]. intros _. apply dget_Some_In in E. apply in_map_iff. now exists (k, v).
    - split; [easy|]. intros Hin. exfalso. now apply H.
  Qed.
  Lemma dkeys_dset k v d : dkeys (dset k v d) = if dmem k d then dkeys d else dkeys d ++ [k].
  Proof.
    unfold dmem. induction d as [|[k1 v1] d IH]; cbn; [easy|].
    destruct (seqb k k1) eqn:E; cbn.
    - apply seqb_eq in E. now subst.
    - unfold dkeys in *. rewrite IH. now destruct (dget k d).
  Qed.
  Lemma wf_nil : wf [].
  Proof. constructor. Qed.
  Lemma wf_dset k v d : wf d -> wf (dset k v d).
  Proof.
    unfold wf. rewrite dkeys_dset. destruct (dmem k d) eqn:E; [easy|]. intros H.
    assert (Hn : ~ In k (dkeys d)).
    { intros Hin. apply dmem_In in Hin. congruence. }
    clear E. induction (dkeys d) as [|x l IH]; cbn.
    - constructor; easy.
    - inversion_clear H as [|? ? H1 H2]. constructor.
      + intros Hin. apply in_app_or in Hin as [Hin|[->|[]]]; [easy|]. apply Hn. now left.
      + apply IH; [easy|]. intros Hin. apply Hn. now right.
  Qed.
  Lemma dget_ddel_same k d : wf d -> dget k (ddel k d) = None.
  Proof.
    unfold wf. induction d as [|[k1 v1] d IH]; cbn; [easy|]. intros Hw. inversion_clear Hw as [|? ? H1 H2].
    destruct (seqb k k1) eqn:E.
    - apply seqb_eq in E. subst. now apply dget_None_notin.
    - cbn. rewrite E. now apply IH.
  Qed.
  Lemma dget_ddel_other k k' d : k <> k' -> dget k (ddel k' d) = dget k d.
  Proof.
    intros Hne. induction d as [|[k1 v1] d IH]; cbn; [easy|].
    destruct (seqb k' k1) eqn:E.
    - apply seqb_eq in E. subst. apply seqb_neq in Hne. now rewrite Hne.
    - cbn. destruct (seqb k k1); [easy|]. exact IH.
  Qed.
  Lemma dkeys_ddel_In k k' d : In k (dkeys (ddel k' d)) -> In k (dkeys d).
  Proof.
    induction d as [|[k1 v1] d IH]; cbn; [easy|]. destruct (seqb k' k1); cbn; tauto.
  Qed.
  Lemma wf_ddel k d : wf d -> wf (ddel k d).
  Proof.
    unfold wf. induction d as [|[k1 v1] d IH]; cbn; [easy|]. intros Hw. inversion_clear Hw as [|? ? H1 H2].
    destruct (seqb k k1); [easy|]. cbn. constructor; [|now apply IH].
    intros Hin. apply H1. eapply dkeys_ddel_In. exact Hin.
  Qed.
End Dict.
