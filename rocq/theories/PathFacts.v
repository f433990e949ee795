(** * Facts about paths: [normpath], [pjoin], [dirname] and locations *)
From Verif Require Import Py PyFacts PyDict UploadModel SettingsModel PathModel.

Definition walk (b : list str) (p : str) : list str := fold_left fs_step (splitc psep p) b.
Definition nosep (c : str) : Prop := ~ In psep c.
(** a name of a file or directory: not empty, not ["."], not [".."], no separator *)
Definition plain (c : str) : Prop := c <> [] /\ c <> dot1 /\ c <> dotdot /\ nosep c.
(** absolute and without redundant parts; POSIX gives two leading slashes a
    meaning of their own, so they are kept *)
Definition canonical (p : str) : Prop :=
  exists n names, (n = 1 \/ n = 2) /\ Forall plain names /\ p = repeat psep n ++ join slash1 names.

Lemma seqb_dec a b : seqb a b = true /\ a = b \/ seqb a b = false /\ a <> b.
Proof.
  destruct (seqb a b) eqn:E; [left; split; [easy|now apply seqb_eq]|right; split; [easy|]].
  intros ->. now rewrite seqb_refl in E.
Qed.

Lemma exists_last_or_nil {A} (l : list A) : l = [] \/ exists l' x, l = l' ++ [x].
Proof. destruct l as [|a l]; [now left|right]. destruct (exists_last (l := a :: l)) as (l' & x & E); [easy|eauto]. Qed.

(** ** the loop of normpath keeps the meaning *)
Definition okc (c : str) : Prop := c <> [] /\ c <> dot1 /\ nosep c.

Lemma np_step_ok i acc c : Forall okc acc -> nosep c -> Forall okc (np_step i acc c).
Proof.
  intros Ha Hc. unfold np_step.
  destruct (seqb_dec c []) as [[-> Hn]|[-> Hn]]; [easy|].
  destruct (seqb_dec c dot1) as [[-> Hd]|[-> Hd]]; [easy|]. cbn [orb].
  destruct (_ || _ || _); [constructor; [easy|easy]|].
  destruct acc; [easy|now inversion Ha].
Qed.
Lemma np_loop_ok i cs : forall acc, Forall okc acc -> Forall nosep cs -> Forall okc (fold_left (np_step i) cs acc).
Proof.
  induction cs as [|c cs IH]; intros acc Ha Hc; [easy|]. inversion Hc; subst. cbn [fold_left].
  apply IH; [now apply np_step_ok|easy].
Qed.

Lemma fs_step_dotdot l : fs_step l dotdot = removelast l.
Proof. reflexivity. Qed.
Lemma fs_step_name l c : okc c -> c <> dotdot -> fs_step l c = l ++ [c].
Proof.
  intros (H1 & H2 & _) H3. unfold fs_step.
  destruct (seqb_dec c []) as [[-> Hn]|[-> Hn]]; [easy|].
  destruct (seqb_dec c dot1) as [[-> Hd]|[-> Hd]]; [easy|].
  now destruct (seqb_dec c dotdot) as [[-> Hd2]|[-> Hd2]].
Qed.

Lemma np_step_walk (i : bool) b acc c : (i = true -> b = []) -> Forall okc acc ->
  fold_left fs_step (rev (np_step i acc c)) b = fs_step (fold_left fs_step (rev acc) b) c.
Proof.
  intros Hi Ha. unfold np_step.
  destruct (seqb_dec c []) as [[-> Hn]|[E1 Hn]]; [now subst c|].
  destruct (seqb_dec c dot1) as [[-> Hd]|[E2 Hd]]; [now subst c; rewrite E1|]. rewrite E1, E2. cbn [orb].
  destruct (seqb_dec c dotdot) as [[-> Hdd]|[-> Hdd]]; cbn [negb orb].
  2: { cbn [rev]. now rewrite fold_left_app. }
  subst c. destruct acc as [|t acc].
  - destruct i; cbn [negb andb orb]; [|easy]. now rewrite (Hi eq_refl).
  - rewrite andb_false_r. cbn [orb]. destruct (seqb_dec t dotdot) as [[-> Ht]|[-> Ht]].
    + cbn [rev]. now rewrite !fold_left_app.
    + cbn [rev]. rewrite fold_left_app. cbn [fold_left]. inversion Ha; subst.
      rewrite (fs_step_name _ t) by easy. now rewrite fs_step_dotdot, removelast_last.
Qed.

Lemma np_loop_walk (i : bool) b cs : (i = true -> b = []) -> forall acc, Forall okc acc -> Forall nosep cs ->
  fold_left fs_step (rev (fold_left (np_step i) cs acc)) b = fold_left fs_step cs (fold_left fs_step (rev acc) b).
Proof.
  intros Hi. induction cs as [|c cs IH]; intros acc Ha Hc; [easy|]. inversion Hc; subst. cbn [fold_left].
  rewrite IH by (try easy; now apply np_step_ok). f_equal. now apply np_step_walk.
Qed.

(** with an initial slash there is no [".."] left *)
Lemma np_loop_plain cs : forall acc, Forall plain acc -> Forall nosep cs -> Forall plain (fold_left (np_step true) cs acc).
Proof.
  induction cs as [|c cs IH]; intros acc Ha Hc; [easy|]. inversion Hc; subst. cbn [fold_left].
  apply IH; [|easy]. unfold np_step.
  destruct (seqb_dec c []) as [[-> Hn]|[-> Hn]]; [easy|].
  destruct (seqb_dec c dot1) as [[-> Hd]|[-> Hd]]; [easy|]. cbn [orb negb andb].
  destruct (seqb_dec c dotdot) as [[-> Hdd]|[-> Hdd]]; cbn [negb orb].
  - destruct acc as [|t acc]; [constructor|]. inversion Ha as [|? ? Ht Ha']; subst.
    destruct Ht as (_ & _ & Ht & _). destruct (seqb_dec t dotdot) as [[-> Ht2]|[-> Ht2]]; [easy|easy].
  - constructor; easy.
Qed.

(** ** splitting what normpath joins *)
Lemma fold_repeat_nil n cs b : fold_left fs_step (repeat [] n ++ cs) b = fold_left fs_step cs b.
Proof. induction n as [|n IH]; [easy|]. cbn. exact IH. Qed.

Lemma splitc_slashes n s : splitc psep (repeat psep n ++ s) = repeat [] n ++ splitc psep s.
Proof. induction n as [|n IH]; [easy|]. cbn [repeat app splitc]. rewrite N.eqb_refl. now rewrite IH. Qed.

Lemma walk_joined b n comps : Forall nosep comps ->
  walk b (repeat psep n ++ join slash1 comps) = fold_left fs_step comps b.
Proof.
  intros H. unfold walk. rewrite splitc_slashes, fold_repeat_nil.
  destruct comps as [|c cs]; [reflexivity|].
  change slash1 with [psep]. now rewrite splitc_join_inv.
Qed.

Lemma okc_nosep l : Forall okc l -> Forall nosep l.
Proof. apply Forall_impl. now intros a (_ & _ & H). Qed.
Lemma plain_nosep l : Forall plain l -> Forall nosep l.
Proof. apply Forall_impl. now intros a (_ & _ & _ & H). Qed.
Lemma plain_okc l : Forall plain l -> Forall okc l.
Proof. apply Forall_impl. intros a (H1 & H2 & _ & H). split; [easy|split; easy]. Qed.

Lemma isabs_cons p : isabs p = true <-> exists t, p = psep :: t.
Proof.
  unfold isabs, startswith, slash1. change !"/" with [psep]. destruct p as [|x t]; cbn [prefixb].
  - split; [easy|now intros [t Ht]].
  - destruct (N.eqb_spec psep x) as [<-|Hne]; cbn [andb].
    + split; [eauto|easy].
    + split; [easy|]. intros [t' [= -> _]]. easy.
Qed.
Lemma initial_abs p : isabs p = true -> initial_slashes p = 1 \/ initial_slashes p = 2.
Proof. intros H. unfold initial_slashes. unfold isabs in H. rewrite H. destruct (_ && _); auto. Qed.
Lemma initial_rel p : isabs p = false -> initial_slashes p = 0.
Proof. intros H. unfold initial_slashes. unfold isabs in H. now rewrite H. Qed.

Definition npc (p : str) : list str :=
  rev (fold_left (np_step (negb (Nat.eqb (initial_slashes p) 0))) (splitc psep p) []).

Lemma npc_okc p : Forall okc (npc p).
Proof.
  unfold npc. apply Forall_rev. apply np_loop_ok; [constructor|]. exact (splitc_pieces psep p).
Qed.

(** normpath keeps the location named by the path *)
Lemma normpath_walk p b : (isabs p = true -> b = []) -> walk b (normpath p) = walk b p.
Proof.
  intros Hb. destruct p as [|x t] eqn:Ep; [reflexivity|]. rewrite <- Ep.
  assert (E : normpath p = match repeat psep (initial_slashes p) ++ join slash1 (npc p) with [] => dot1 | r => r end).
  { rewrite Ep. unfold normpath, npc. destruct (_ ++ _); reflexivity. }
  assert (W : walk b (repeat psep (initial_slashes p) ++ join slash1 (npc p)) = walk b p).
  { rewrite walk_joined by apply okc_nosep, npc_okc. unfold npc. unfold walk.
    rewrite np_loop_walk; [reflexivity| |constructor|exact (splitc_pieces psep p)].
    intros Hn. apply Hb. rewrite Ep in *. destruct (isabs (x :: t)) eqn:Ea; [easy|]. now rewrite (initial_rel _ Ea) in Hn. }
  rewrite E. destruct (repeat psep (initial_slashes p) ++ join slash1 (npc p)) as [|y r] eqn:Er; [|exact W].
  rewrite <- W. reflexivity.
Qed.

Lemma normpath_canonical p : isabs p = true -> canonical (normpath p).
Proof.
  intros Ha. pose proof (initial_abs p Ha) as Hn. exists (initial_slashes p), (npc p).
  split; [exact Hn|]. split.
  - unfold npc. apply Forall_rev.
    assert (Hb : negb (Nat.eqb (initial_slashes p) 0) = true) by (destruct Hn as [-> | ->]; reflexivity).
    rewrite Hb. apply np_loop_plain; [constructor|exact (splitc_pieces psep p)].
  - apply isabs_cons in Ha as [t ->]. unfold normpath, npc.
    destruct Hn as [-> | ->]; reflexivity.
Qed.

Lemma canonical_abs p : canonical p -> isabs p = true.
Proof. intros (n & names & [-> | ->] & _ & ->); reflexivity. Qed.

Lemma canonical_loc n names : Forall plain names -> fs_loc (repeat psep n ++ join slash1 names) = names.
Proof.
  intros H. change (fs_loc ?p) with (walk [] p). rewrite walk_joined by now apply plain_nosep.
  assert (G : forall b, fold_left fs_step names b = b ++ names).
  { clear -H. induction H as [|c cs Hc H IH]; intros b; [now rewrite app_nil_r|]. cbn [fold_left].
    rewrite (fs_step_name b c); [|destruct Hc as (h1 & h2 & h3 & h4); split; [easy|split; easy]|now destruct Hc as (_ & _ & h3 & _)].
    rewrite IH, <- app_assoc. reflexivity. }
  now rewrite G.
Qed.

(** ** join and dirname *)
Lemma walk_app b p q : walk b (p ++ psep :: q) = walk (walk b p) q.
Proof.
  unfold walk. revert b; induction p as [|x p IH]; intros b.
  - cbn [app splitc]. rewrite N.eqb_refl. reflexivity.
  - cbn [app]. destruct (N.eqb_spec x psep) as [->|Hne].
    + cbn [splitc]. rewrite N.eqb_refl. cbn [fold_left]. now rewrite IH.
    + assert (S1 : forall s, exists h r, splitc psep s = h :: r /\ splitc psep (x :: s) = (x :: h) :: r).
      { intros s. pose proof (splitc_nonnil psep s). destruct (splitc psep s) as [|h r] eqn:E; [easy|].
        exists h, r. split; [easy|]. cbn [splitc]. rewrite E. destruct (N.eqb_spec x psep); easy. }
      destruct (S1 p) as (h & r & E1 & E2). destruct (S1 (p ++ psep :: q)) as (h' & r' & E1' & E2').
      rewrite E2, E2'. specialize (IH []) as IH0. cbn [fold_left].
      (* the first pieces agree *)
      assert (G : h' = h /\ r' = r ++ splitc psep q).
      { revert E1 E1'. clear. revert h r h' r'. induction p as [|y p IHp]; intros h r h' r'.
        - cbn [app splitc]. rewrite N.eqb_refl. intros [= <- <-] [= <- <-]. easy.
        - cbn [app splitc]. destruct (N.eqb_spec y psep).
          + intros [= <- <-] [= <- <-]. split; [easy|].
            destruct (splitc psep p) as [|a l] eqn:Ea; [now apply splitc_nonnil in Ea|].
            destruct (splitc psep (p ++ psep :: q)) as [|a' l'] eqn:Ea'; [now apply splitc_nonnil in Ea'|].
            destruct (IHp a l a' l' eq_refl eq_refl) as [-> ->]. reflexivity.
          + destruct (splitc psep p) as [|a l] eqn:Ea; [now apply splitc_nonnil in Ea|].
            destruct (splitc psep (p ++ psep :: q)) as [|a' l'] eqn:Ea'; [now apply splitc_nonnil in Ea'|].
            destruct (IHp a l a' l' eq_refl eq_refl) as [-> ->].
            intros [= <- <-] [= <- <-]. easy. }
      destruct G as [-> ->]. now rewrite fold_left_app.
Qed.

Lemma walk_nil b : walk b [] = b.
Proof. reflexivity. Qed.

(** joining: an absolute second path replaces the first *)
Lemma pjoin_walk b p q : walk b (pjoin p q) = if isabs q then walk b q else walk (walk b p) q.
Proof.
  unfold pjoin, isabs. destruct (startswith q slash1) eqn:Eq; [reflexivity|].
  destruct p as [|x p'] eqn:Ep; [reflexivity|]. rewrite <- Ep.
  destruct (endswith p slash1) eqn:Ee.
  - unfold endswith in Ee. change (rev slash1) with [psep] in Ee. destruct (rev p) as [|y l] eqn:Er; [easy|].
    cbn [prefixb] in Ee. destruct (N.eqb_spec psep y) as [<-|]; [|easy].
    assert (Hp : p = rev l ++ [psep]) by (rewrite <- (rev_involutive p), Er; reflexivity).
    rewrite Hp. rewrite <- app_assoc. cbn [app]. rewrite walk_app. f_equal.
    rewrite walk_app. reflexivity.
  - change (p ++ slash1 ++ q) with (p ++ psep :: q). apply walk_app.
Qed.

Lemma pjoin_abs p q : isabs p = true -> isabs (pjoin p q) = true.
Proof.
  intros H. unfold pjoin. destruct (startswith q slash1) eqn:Eq; [exact Eq|].
  apply isabs_cons in H as [t ->]. apply isabs_cons. destruct (endswith _ _); cbn [app]; eauto.
Qed.
Lemma fold_pjoin_abs ds : forall p, isabs p = true -> isabs (fold_left pjoin ds p) = true.
Proof. induction ds as [|d ds IH]; intros p H; [easy|]. cbn [fold_left]. apply IH. now apply pjoin_abs. Qed.

Lemma join_cons a l : l <> [] -> join slash1 (a :: l) = a ++ slash1 ++ join slash1 l.
Proof. now destruct l. Qed.
Lemma join_snoc l x : l <> [] -> join slash1 (l ++ [x]) = join slash1 l ++ psep :: x.
Proof.
  induction l as [|a l IH]; [easy|]. intros _. destruct l as [|b l]; [reflexivity|].
  change ((a :: b :: l) ++ [x]) with (a :: ((b :: l) ++ [x])).
  rewrite (join_cons a (b :: l)) by easy. rewrite join_cons by easy. rewrite IH by easy.
  now rewrite <- !app_assoc.
Qed.

Lemma dirname_canonical p : canonical p ->
  canonical (dirname p) /\ fs_loc (dirname p) = removelast (fs_loc p).
Proof.
  intros (n & names & Hn & Hp & ->).
  destruct (exists_last_or_nil names) as [-> | (ns & x & ->)].
  - cbn [join]. rewrite app_nil_r.
    destruct Hn as [-> | ->]; (split; [|reflexivity]); [exists 1, []|exists 2, []]; repeat split; auto.
  - apply Forall_app in Hp as [Hns Hx]. inversion Hx as [|? ? Hx' _]; subst.
    assert (Hsep : nosep x) by (now destruct Hx' as (_ & _ & _ & H)).
    rewrite canonical_loc by (apply Forall_app; split; [easy|constructor; easy]). rewrite removelast_last.
    destruct ns as [|a ns].
    + cbn [app join].
      assert (E : rfindc psep (repeat psep n ++ x) = Some (n - 1)).
      { destruct Hn as [-> | ->]; cbn [repeat app].
        - apply (rfindc_app psep [] x Hsep).
        - apply (rfindc_app psep [psep] x Hsep). }
      unfold dirname. rewrite E.
      assert (F : firstn (S (n - 1)) (repeat psep n ++ x) = repeat psep n).
      { destruct Hn as [-> | ->]; reflexivity. }
      rewrite F. assert (G : forallb (N.eqb psep) (repeat psep n) = true) by (destruct Hn as [-> | ->]; reflexivity).
      rewrite G. split; [|now destruct Hn as [-> | ->]]. exists n, []. split; [easy|]. split; [constructor|]. now rewrite app_nil_r.
    + rewrite join_snoc by easy. set (u := join slash1 (a :: ns)).
      assert (E : rfindc psep (repeat psep n ++ u ++ psep :: x) = Some (length (repeat psep n ++ u))).
      { rewrite app_assoc. now apply rfindc_app. }
      unfold dirname. rewrite E.
      assert (F : firstn (S (length (repeat psep n ++ u))) (repeat psep n ++ u ++ psep :: x) = repeat psep n ++ u ++ [psep]).
      { replace (repeat psep n ++ u ++ psep :: x) with ((repeat psep n ++ u ++ [psep]) ++ x) by now rewrite <- !app_assoc.
        replace (S (length (repeat psep n ++ u))) with (length (repeat psep n ++ u ++ [psep])) by (rewrite !app_length; cbn; lia).
        now rewrite firstn_app, firstn_all, Nat.sub_diag, app_nil_r. }
      rewrite F.
      (* u ends with a plain name, so it does not end with a slash *)
      assert (L : exists u' y, u = u' ++ [y] /\ y <> psep).
      { assert (Hl : forall l, l <> [] -> Forall plain l -> exists u' y, join slash1 l = u' ++ [y] /\ y <> psep).
        { clear. intros l. induction l as [|c l IH]; [easy|]. intros _ H. inversion H as [|? ? Hc Hl]; subst.
          destruct l as [|d l].
          - cbn [join]. destruct Hc as (H1 & _ & _ & H4). destruct (exists_last_or_nil c) as [->|(c' & y & ->)]; [easy|].
            exists c', y. split; [easy|]. intros ->. apply H4. apply in_or_app. right. now left.
          - destruct (IH ltac:(easy) Hl) as (u' & y & E & Hy). exists (c ++ slash1 ++ u'), y. split; [|easy].
            change (join slash1 (c :: d :: l)) with (c ++ slash1 ++ join slash1 (d :: l)). rewrite E. now rewrite <- !app_assoc. }
        apply Hl; [easy|exact Hns]. }
      destruct L as (u' & y & Eu & Hy).
      assert (G : forallb (N.eqb psep) (repeat psep n ++ u ++ [psep]) = false).
      { rewrite Eu, !forallb_app. cbn [forallb]. destruct (N.eqb_spec psep y) as [<-|]; [easy|]. now rewrite andb_false_r, !andb_false_r. }
      rewrite G. unfold rstrip_by.
      rewrite Eu, !rev_app_distr. cbn [rev app lstrip_by]. rewrite N.eqb_refl.
      destruct (N.eqb_spec psep y) as [<-|_]; [easy|].
      assert (R : rev (y :: rev u' ++ rev (repeat psep n)) = repeat psep n ++ u).
      { cbn [rev]. rewrite rev_app_distr, !rev_involutive, Eu, <- app_assoc. reflexivity. }
      rewrite R. split; [|now apply canonical_loc]. exists n, (a :: ns). easy.
Qed.
