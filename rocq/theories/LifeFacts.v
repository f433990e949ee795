(** * Facts about closing uploaded files *)
From Verif Require Import Py PyFacts PyDict LifeModel.

(** the files on disk that closing [l] has to remove *)
Definition open_path (f : lfile) : list str :=
  match lf_file f with OTemp p => if lf_closed f then [] else [p] | _ => [] end.
Definition open_paths (l : list lfile) : list str := flat_map open_path l.
Definition closed_copy (f : lfile) : lfile := mkLF (lf_name f) (lf_file f) true.

Definition without (ps : list str) (d d' : disk) : Prop :=
  forall q, dget q d' = if existsb (seqb q) ps then None else dget q d.

Lemma existsb_In q ps : existsb (seqb q) ps = true <-> In q ps.
Proof.
  rewrite existsb_exists. split.
  - intros (x & Hx & E). apply seqb_eq in E as ->. exact Hx.
  - intros H. exists q. split; [exact H|apply seqb_refl].
Qed.
Lemma without_app a b d d1 d2 : without a d d1 -> without b d1 d2 -> without (a ++ b) d d2.
Proof.
  intros H1 H2 q. rewrite H2, H1, existsb_app.
  destruct (existsb (seqb q) a); destruct (existsb (seqb q) b); reflexivity.
Qed.

(** closing one file whose file on disk is still there *)
Lemma u_close_ok d f : wf d -> Forall (fun p => dmem p d = true) (open_path f) ->
  exists d', u_close d f = (LOk tt, (d', closed_copy f)) /\ wf d' /\ without (open_path f) d d'.
Proof.
  intros Hw H. unfold u_close, inner_close, open_path, closed_copy in *. destruct f as [n [c|p|p] cl]; cbn [lf_file lf_closed lf_name] in *.
  - exists d. split; [reflexivity|]. split; [exact Hw|intros q; reflexivity].
  - destruct cl.
    + exists d. split; [reflexivity|]. split; [exact Hw|intros q; reflexivity].
    + inversion H as [|? ? Hp _]; subst. rewrite Hp. exists (ddel p d). split; [reflexivity|].
      split; [now apply wf_ddel|]. intros q. cbn [existsb]. rewrite orb_false_r.
      destruct (seqb q p) eqn:E.
      * apply seqb_eq in E as ->. now apply dget_ddel_same.
      * apply dget_ddel_other. intros ->. now rewrite seqb_refl in E.
  - exists d. split; [reflexivity|]. split; [exact Hw|intros q; reflexivity].
Qed.

Lemma still_there d d1 ps qs : without ps d d1 -> NoDup (ps ++ qs) ->
  Forall (fun p => dmem p d = true) qs -> Forall (fun p => dmem p d1 = true) qs.
Proof.
  intros Hw Hn H. apply Forall_forall. intros q Hq. pose proof (proj1 (Forall_forall _ _) H q Hq) as Hd.
  apply dmem_In. apply dmem_In in Hd.
  destruct (dget q d1) eqn:E.
  - apply dget_Some_In in E. apply (in_map fst) in E. exact E.
  - rewrite Hw in E. destruct (existsb (seqb q) ps) eqn:Ex.
    + apply existsb_In in Ex. exfalso. revert Hn Ex Hq. clear. induction ps as [|a ps IH]; intros Hn; [easy|].
      cbn in Hn. inversion Hn as [|? ? Ha Hn']; subst. intros [-> | Hin] Hq; [|now apply IH].
      apply Ha. apply in_or_app. now right.
    + apply dget_None_notin in E. easy.
Qed.

Lemma close_list_ok l : forall d, wf d -> Forall (fun p => dmem p d = true) (open_paths l) -> NoDup (open_paths l) ->
  exists d', close_list d l = (LOk tt, (d', map closed_copy l)) /\ wf d' /\ without (open_paths l) d d'.
Proof.
  induction l as [|f l IH]; intros d Hw H Hn.
  - exists d. split; [reflexivity|]. split; [exact Hw|intros q; reflexivity].
  - cbn [open_paths flat_map] in *. apply Forall_app in H as [Hf Hl].
    destruct (u_close_ok d f Hw Hf) as (d1 & E1 & Hw1 & W1).
    destruct (IH d1 Hw1) as (d2 & E2 & Hw2 & W2).
    { now apply (still_there d d1 (open_path f)). }
    { clear -Hn. induction (open_path f) as [|a l' IH]; [exact Hn|]. apply IH. now inversion Hn. }
    exists d2. cbn [close_list map]. rewrite E1, E2. split; [reflexivity|]. split; [exact Hw2|].
    now apply (without_app _ _ d d1).
Qed.

Definition all_files (fs : list (str * list lfile)) : list lfile := flat_map snd fs.

Lemma open_paths_app a b : open_paths (a ++ b) = open_paths a ++ open_paths b.
Proof. apply flat_map_app. Qed.
Lemma NoDup_app_r {A} (a b : list A) : NoDup (a ++ b) -> NoDup b.
Proof. induction a as [|x a IH]; [easy|]. intros H. apply IH. now inversion H. Qed.
Lemma NoDup_app_l {A} (a b : list A) : NoDup (a ++ b) -> NoDup a.
Proof.
  induction a as [|x a IH]; intros H; [constructor|]. inversion H as [|? ? Hx Hn]; subst. constructor; [|now apply IH].
  intros Hin. apply Hx. apply in_or_app. now left.
Qed.

Lemma close_fields_ok fs : forall d, wf d -> Forall (fun p => dmem p d = true) (open_paths (all_files fs)) ->
  NoDup (open_paths (all_files fs)) ->
  exists d', close_fields d fs = (LOk tt, (d', map (fun e => (fst e, map closed_copy (snd e))) fs)) /\
    without (open_paths (all_files fs)) d d'.
Proof.
  induction fs as [|[k l] fs IH]; intros d Hw H Hn.
  - exists d. split; [reflexivity|intros q; reflexivity].
  - unfold all_files in *. cbn [flat_map snd] in *. rewrite open_paths_app in *. apply Forall_app in H as [Hf Hl].
    destruct (close_list_ok l d Hw Hf (NoDup_app_l _ _ Hn)) as (d1 & E1 & Hw1 & W1).
    destruct (IH d1 Hw1) as (d2 & E2 & W2); [exact (still_there d d1 (open_paths l) _ W1 Hn Hl)|exact (NoDup_app_r _ _ Hn)|].
    exists d2. cbn [close_fields map fst snd]. rewrite E1, E2. split; [reflexivity|]. now apply (without_app _ _ d d1).
Qed.

(** a file moved away: the first one stops the closing *)
Lemma u_close_moved d f p : lf_file f = OTemp p -> lf_closed f = false -> dmem p d = false ->
  u_close d f = (LErr LOSError, (d, closed_copy f)).
Proof.
  intros E1 E2 E3. unfold u_close, inner_close, closed_copy. destruct f as [n x cl]; cbn [lf_file lf_closed lf_name] in *.
  subst. now rewrite E3.
Qed.

Lemma close_list_stop pre f post d p : wf d ->
  Forall (fun q => dmem q d = true) (open_paths pre) -> NoDup (open_paths pre) ->
  lf_file f = OTemp p -> lf_closed f = false -> dmem p d = false ->
  exists d', close_list d (pre ++ f :: post) = (LErr LOSError, (d', map closed_copy (pre ++ [f]) ++ post)) /\
    without (open_paths pre) d d'.
Proof.
  revert d. induction pre as [|g pre IH]; intros d Hw H Hn E1 E2 E3.
  - exists d. cbn [app close_list map]. rewrite (u_close_moved d f p E1 E2 E3). split; [reflexivity|intros q; reflexivity].
  - cbn [open_paths flat_map] in *. apply Forall_app in H as [Hf Hl].
    destruct (u_close_ok d g Hw Hf) as (d1 & F1 & Hw1 & W1).
    destruct (IH d1 Hw1) as (d2 & F2 & W2); try assumption.
    { now apply (still_there d d1 (open_path g)). }
    { now apply NoDup_app_r in Hn. }
    { destruct (dmem p d1) eqn:Em; [|reflexivity]. apply dmem_In in Em.
      destruct (dget p d1) eqn:Eg; [|now apply dget_None_notin in Eg].
      rewrite W1 in Eg. destruct (existsb (seqb p) (open_path g)); [discriminate|].
      apply dget_Some_In in Eg.
      assert (Em2 : dmem p d = true) by (apply dmem_In; exact (in_map fst _ _ Eg)). rewrite Em2 in E3. discriminate. }
    exists d2. cbn [app close_list map]. rewrite F1, F2. split; [reflexivity|]. now apply (without_app _ _ d d1).
Qed.

(** wherever a file has been moved away, closing fails *)
Lemma u_close_sub d f x d1 f1 p : u_close d f = (x, (d1, f1)) -> dget p d = None -> dget p d1 = None.
Proof.
  unfold u_close, inner_close. destruct f as [n [c|q|q] cl]; cbn [lf_file lf_closed lf_name].
  - now intros [= <- <- <-].
  - destruct cl; [now intros [= <- <- <-]|]. destruct (dmem q d) eqn:E; [|now intros [= <- <- <-]].
    intros [= <- <- <-] H. destruct (seqb p q) eqn:Eq.
    + apply seqb_eq in Eq as ->. apply dmem_In in E. apply dget_None_notin in H. easy.
    + rewrite dget_ddel_other; [exact H|]. intros ->. now rewrite seqb_refl in Eq.
  - now intros [= <- <- <-].
Qed.
Lemma u_close_errors d f e w : u_close d f = (LErr e, w) -> e = LOSError.
Proof.
  unfold u_close, inner_close. destruct f as [n [c|q|q] cl]; cbn [lf_file lf_closed lf_name]; try easy.
  destruct cl; [easy|]. destruct (dmem q d); [easy|]. now intros [= <- <-].
Qed.
Lemma close_list_sub l : forall d x d1 l1 p, close_list d l = (x, (d1, l1)) -> dget p d = None -> dget p d1 = None.
Proof.
  induction l as [|f l IH]; intros d x d1 l1 p; cbn [close_list]; [now intros [= <- <- <-]|].
  destruct (u_close d f) as [[u|e] [d2 f2]] eqn:E.
  - destruct (close_list d2 l) as [y [d3 l3]] eqn:E2. intros [= <- <- <-] H. apply (IH d2 y d3 l3 p E2). now apply (u_close_sub d f _ _ _ p E).
  - intros [= <- <- <-]. now apply (u_close_sub d f _ _ _ p E).
Qed.
Lemma close_list_errors l : forall d e w, close_list d l = (LErr e, w) -> e = LOSError.
Proof.
  induction l as [|f l IH]; intros d e w; cbn [close_list]; [easy|].
  destruct (u_close d f) as [[u|e'] [d2 f2]] eqn:E.
  - destruct (close_list d2 l) as [y [d3 l3]] eqn:E2. intros [= -> <-]. now apply (IH d2 e (d3, l3)).
  - intros [= -> <-]. now apply (u_close_errors d f e (d2, f2)).
Qed.
Lemma close_list_missing l : forall d p, In p (open_paths l) -> dget p d = None ->
  exists w, close_list d l = (LErr LOSError, w).
Proof.
  induction l as [|f l IH]; intros d p Hp Hd; [easy|]. cbn [close_list].
  destruct (u_close d f) as [[u|e] [d2 f2]] eqn:E.
  - cbn [open_paths flat_map] in Hp. apply in_app_or in Hp as [Hp|Hp].
    + exfalso. unfold open_path in Hp. destruct f as [n [c|q|q] cl]; cbn [lf_file lf_closed] in Hp; try easy.
      destruct cl; [easy|]. destruct Hp as [-> |[]].
      assert (Em : dmem p d = false).
      { destruct (dmem p d) eqn:Em; [|reflexivity]. apply dmem_In in Em. apply dget_None_notin in Hd. easy. }
      rewrite (u_close_moved d (mkLF n (OTemp p) false) p eq_refl eq_refl Em) in E.
      discriminate.
    + destruct (IH d2 p Hp) as [[d3 l3] E2]; [exact (u_close_sub d f _ _ _ p E Hd)|]. rewrite E2. eauto.
  - rewrite (u_close_errors d f e _ E). eauto.
Qed.
Lemma close_fields_missing fs : forall d p, In p (open_paths (all_files fs)) -> dget p d = None ->
  exists w, close_fields d fs = (LErr LOSError, w).
Proof.
  induction fs as [|[k l] fs IH]; intros d p Hp Hd; [easy|]. cbn [close_fields].
  destruct (close_list d l) as [[u|e] [d2 l2]] eqn:E.
  - unfold all_files in Hp. cbn [flat_map snd] in Hp. rewrite open_paths_app in Hp. apply in_app_or in Hp as [Hp|Hp].
    + destruct (close_list_missing l d p Hp Hd) as [w E2]. rewrite E2 in E. discriminate.
    + destruct (IH d2 p Hp) as [[d3 l3] E2]; [exact (close_list_sub l d _ _ _ p E Hd)|]. rewrite E2. eauto.
  - rewrite (close_list_errors l d e _ E). eauto.
Qed.
