(** * Pieces that are skipped, from any position (claims C23, C118) *)
From Coq Require Import Lia List.
From Verif Require Import Py PyFacts PyDict Spec CodecModel QueryModel Base64Model HeaderModel
  BoundaryModel BoundarySpec BoundaryFacts UploadModel MultipartModel MultipartSem MultipartFacts MultipartSpec
  BodySpec HeadLineFacts.

Lemma snoc_or_nil (l : str) : l = [] \/ exists l' x, l = l' ++ [x].
Proof. destruct l as [|x l] using rev_ind; [now left|right; eauto]. Qed.
Lemma trim_eol_skipn u k : k <= length (trim_eol u) -> trim_eol (skipn k u) = skipn k (trim_eol u).
Proof.
  intros Hk. destruct (Nat.le_gt_cases (k + 2) (length u)) as [H|H].
  - rewrite <- (firstn_skipn k u) at 2. rewrite trim_eol_app by (rewrite skipn_length; lia).
    assert (E : length (firstn k u) = k) by (rewrite firstn_length; lia).
    rewrite skipn_app, E, Nat.sub_diag, (skipn_all2 (firstn k u)) by lia. reflexivity.
  - destruct (trim_eol_prefix u) as (w & Hw). pose proof (f_equal (@length N) Hw) as HL. rewrite app_length in HL.
    assert (HK : trim_eol (skipn k (trim_eol u) ++ w) = skipn k (trim_eol u)); [|now rewrite Hw at 1; rewrite skipn_app; replace (k - length (trim_eol u)) with 0 by lia].
    destruct (snoc_or_nil u) as [->|(u1 & c & ->)].
    { cbn in *. destruct w; [|easy]. now rewrite skipn_nil. }
    destruct (N.eq_dec c LF) as [->|H1]; [|destruct (N.eq_dec c CR) as [->|H2]].
    + destruct (snoc_or_nil u1) as [->|(u2 & d & ->)].
      * cbn in *. subst w. now rewrite skipn_nil.
      * destruct (N.eq_dec d CR) as [->|H2].
        -- rewrite <- app_assoc in *. change ([CR] ++ [LF]) with [CR; LF] in *. rewrite trim_eol_snoc_crlf in *.
           apply app_inv_head in Hw as <-. apply trim_eol_snoc_crlf.
        -- rewrite <- app_assoc in *. rewrite trim_eol_snoc_lf_only in * by easy. rewrite app_assoc in Hw. apply app_inv_head in Hw as <-.
           rewrite !app_length in *. cbn [length] in *. assert (k = length u2 \/ k = length u2 + 1) as [->| ->] by lia.
           ++ rewrite skipn_app_exact. rewrite <- (app_nil_l ([d] ++ [LF])). now apply trim_eol_snoc_lf_only.
           ++ rewrite skipn_all2 by (rewrite app_length; cbn; lia). reflexivity.
    + rewrite trim_eol_snoc_cr in *. apply app_inv_head in Hw as <-. apply trim_eol_snoc_cr.
    + rewrite trim_eol_snoc_other in * by easy. assert (w = []) as -> by (rewrite <- (app_nil_r (u1 ++ [c])) in Hw at 1; now apply app_inv_head in Hw).
      rewrite app_nil_r. rewrite !app_length in *. cbn [length] in *. assert (k = length u1 \/ k = length u1 + 1) as [->| ->] by lia.
      * rewrite skipn_app_exact. rewrite <- (app_nil_l [c]). now apply trim_eol_snoc_other.
      * rewrite skipn_all2 by (rewrite app_length; cbn; lia). reflexivity.
Qed.
(** a part of which the beginning has been passed ends at the same delimiter *)
Lemma block_skipn D r t af k : block D r t af -> k <= length t -> block D (skipn k r) (skipn k t) af.
Proof.
  intros Hb Hk. destruct Hb as [u v [Hr Hf]|Hn].
  - rewrite <- trim_eol_skipn by easy. constructor.
    destruct (trim_eol_prefix u) as (w & Hw). pose proof (f_equal (@length N) Hw) as HL. rewrite app_length in HL.
    subst r. rewrite skipn_app. replace (k - length u) with 0 by lia. cbn [skipn]. split; [reflexivity|].
    intros u' v' E. assert (G : length u <= length (firstn k u ++ u')).
    { apply (Hf _ v'). rewrite <- (firstn_skipn k u) at 1. rewrite <- !app_assoc. now rewrite E. }
    rewrite app_length, firstn_length in G. rewrite skipn_length. lia.
  - apply block_none. intros Ho. apply Hn. apply (occurs_trans _ _ _ Ho). apply occurs_skipn.
Qed.
Lemma ignorable_skipn j k : ignorable j -> ignorable (skipn k j).
Proof.
  intros [H1 H2]. split.
  - intros Ho. apply H1. apply (occurs_trans _ _ _ Ho). apply occurs_lower. apply occurs_skipn.
  - intros Hi. apply H2. rewrite <- (firstn_skipn k j). apply in_or_app. now right.
Qed.
(** what the header limit leaves over of a skipped piece is skipped as well, from any position *)
Definition skipped (t : str) : Prop :=
  forall reg name2cp k, head_size <= k -> item_of reg name2cp (skipn k t) KSkip.
Definition small (t : str) (it : item) : Prop := it = KSkip -> skipped t.
Lemma skipped_tail t : ignorable (skipn head_size t) -> skipped t.
Proof.
  intros H reg name2cp k Hk. replace k with (head_size + (k - head_size)) by lia. rewrite <- skipn_skipn'.
  apply ignorable_item. now apply ignorable_skipn.
Qed.
Lemma small_tail t it : ignorable (skipn head_size t) -> small t it.
Proof. intros H _. now apply skipped_tail. Qed.
Lemma small_ignorable j : ignorable j -> small j KSkip.
Proof. intros H. apply small_tail. now apply ignorable_skipn. Qed.
Lemma small_short t it : length t < head_size -> small t it.
Proof. intros H. apply small_tail. rewrite skipn_all2 by lia. split; [apply find_None; reflexivity|easy]. Qed.
Lemma skipped_skipn t k : skipped t -> head_size <= k -> skipped (skipn k t).
Proof. intros H Hk reg name2cp j Hj. rewrite skipn_skipn'. apply H. lia. Qed.
