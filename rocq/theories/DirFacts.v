(** * Facts about [get_abs_path] and the check of the upload directory *)
From Verif Require Import Py PyFacts PyDict UploadModel SettingsModel PathModel PathFacts.

(** the location a path names, seen from the directory [base] *)
Definition locate (base : list str) (p : str) : list str := if isabs p then walk [] p else walk base p.
(** the directory of the package: two levels above the file of [get_abs_path] *)
Definition package (pl : place) : list str :=
  removelast (removelast (locate (fs_loc (pl_cwd pl)) (pl_here pl))).
Definition TEST : str := !"acdr423x.tmp".

Lemma abspath_canonical cwd p : isabs cwd = true ->
  canonical (abspath cwd p) /\ fs_loc (abspath cwd p) = locate (fs_loc cwd) p.
Proof.
  intros Hc. unfold abspath, locate. destruct (isabs p) eqn:Ep.
  - split; [now apply normpath_canonical|]. apply (normpath_walk p []). easy.
  - split; [apply normpath_canonical; now apply pjoin_abs|].
    change (fs_loc ?x) with (walk [] x). rewrite normpath_walk by easy. now rewrite pjoin_walk, Ep.
Qed.

Lemma pjoin_nil_walk b p : walk b (pjoin p []) = walk b p.
Proof. rewrite pjoin_walk. reflexivity. Qed.

Lemma get_abs_path_one cwd here d : isabs cwd = true ->
  canonical (get_abs_path cwd here [d]) /\
  fs_loc (get_abs_path cwd here [d]) = locate (package (mkPlace cwd here)) d.
Proof.
  intros Hc. unfold get_abs_path. cbn [fold_left].
  pose proof (abspath_canonical cwd here Hc) as [Ha La].
  pose proof (dirname_canonical _ Ha) as [Hd Ld].
  set (c := dirname (abspath cwd here)) in *.
  assert (Hp : isabs (pjoin c !"../") = true) by (apply pjoin_abs; now apply canonical_abs).
  pose proof (normpath_canonical _ Hp) as Hn.
  assert (Ln : walk [] (normpath (pjoin c !"../")) = package (mkPlace cwd here)).
  { rewrite normpath_walk by easy. rewrite pjoin_walk. change (isabs !"../") with false. cbn iota.
    change (walk [] c) with (fs_loc c). rewrite Ld, La. unfold package. cbn [pl_cwd pl_here].
    reflexivity. }
  set (q := normpath (pjoin c !"../")) in *.
  assert (Hq : isabs (pjoin (pjoin q d) []) = true) by (apply pjoin_abs, pjoin_abs; now apply canonical_abs).
  split; [now apply normpath_canonical|].
  change (fs_loc ?x) with (walk [] x). rewrite normpath_walk by easy.
  rewrite pjoin_nil_walk, pjoin_walk. unfold locate. destruct (isabs d); [easy|]. now rewrite Ln.
Qed.

Lemma normpath_rel p : isabs p = false -> isabs (normpath p) = false.
Proof.
  intros H. unfold normpath. destruct p as [|x t] eqn:Ep; [reflexivity|]. rewrite <- Ep in *.
  rewrite (initial_rel _ H). cbn [repeat app Nat.eqb negb].
  assert (Hok : Forall okc (rev (fold_left (np_step false) (splitc psep p) []))).
  { apply Forall_rev. apply np_loop_ok; [constructor|exact (splitc_pieces psep p)]. }
  destruct (rev (fold_left (np_step false) (splitc psep p) [])) as [|c cs]; [reflexivity|].
  inversion Hok as [|? ? (Hn & _ & Hs) _]; subst. destruct c as [|y c]; [easy|].
  assert (Hy : y <> psep) by (intros ->; apply Hs; now left).
  assert (E : exists r, join slash1 ((y :: c) :: cs) = y :: r) by (destruct cs; cbn; eauto).
  assert (G : forall j : str, (exists r, j = y :: r) -> isabs (match j with [] => dot1 | _ => j end) = false).
  { intros j [r ->]. destruct (isabs (y :: r)) eqn:E2; [|reflexivity].
    apply isabs_cons in E2 as [t' [= -> _]]. easy. }
  exact (G _ E).
Qed.

Lemma locate_normpath base p : locate base (normpath p) = locate base p.
Proof.
  unfold locate. destruct (isabs p) eqn:E.
  - rewrite (canonical_abs _ (normpath_canonical _ E)). now apply normpath_walk.
  - rewrite (normpath_rel _ E). apply normpath_walk. congruence.
Qed.

(** two slashes at the start of a path, and no third *)
Definition two_slashes (p : str) : Prop := exists r, p = psep :: psep :: r /\ isabs r = false.

Lemma initial_two p : initial_slashes p = 2 <-> two_slashes p.
Proof.
  unfold initial_slashes, two_slashes. unfold startswith, slash1. change !"///" with [psep; psep; psep]. change !"//" with [psep; psep].
  change !"/" with [psep]. unfold isabs, startswith, slash1. change !"/" with [psep].
  destruct p as [|a [|b r]]; cbn [prefixb andb].
  - split; [easy|]. now intros (r & [=] & _).
  - destruct (psep =? a)%N; cbn [andb]; (split; [easy|]); now intros (r & [=] & _).
  - destruct (N.eqb_spec psep a) as [<-|Ha]; cbn [andb].
    + destruct (N.eqb_spec psep b) as [<-|Hb]; cbn [andb].
      * destruct (prefixb [psep] r) eqn:Er; cbn [prefixb] in Er.
        -- rewrite Er. cbn [negb]. split; [easy|]. intros (r' & [= ->] & E). cbn [prefixb] in E. congruence.
        -- rewrite Er. cbn [negb]. split; [|easy]. intros _. exists r. split; [reflexivity|]. exact Er.
      * split; [easy|]. intros (r' & [= -> ->] & _). easy.
    + split; [easy|]. intros (r' & [= -> -> ->] & _). easy.
Qed.

Lemma two_canonical n names : Forall plain names -> n = 1 \/ n = 2 ->
  (two_slashes (repeat psep n ++ join slash1 names) <-> n = 2).
Proof.
  intros Hp Hn. assert (Hr : isabs (join slash1 names) = false).
  { destruct (isabs (join slash1 names)) eqn:E; [|reflexivity]. apply isabs_cons in E as [t E].
    destruct Hp as [|c cs (h1 & _ & _ & h4) Hp]; [easy|]. destruct c as [|y c]; [easy|].
    destruct cs; cbn [join app] in E; injection E as -> _; elim h4; now left. }
  destruct Hn as [-> | ->]; cbn [repeat app].
  - split; [|easy]. intros (r & [= E] & _). rewrite E in Hr.
    assert (isabs (psep :: r) = true) by (apply isabs_cons; eauto). congruence.
  - split; [easy|]. intros _. eexists. split; [reflexivity|exact Hr].
Qed.

Lemma normpath_two p : isabs p = true -> (two_slashes (normpath p) <-> two_slashes p).
Proof.
  intros Ha. pose proof (normpath_canonical p Ha) as (n & names & Hn & Hp & E).
  rewrite <- (initial_two p).
  assert (Hb : negb (Nat.eqb (initial_slashes p) 0) = true) by (destruct (initial_abs p Ha) as [-> | ->]; reflexivity).
  assert (E2 : normpath p = repeat psep (initial_slashes p) ++ join slash1 (npc p)).
  { apply isabs_cons in Ha as [t ->]. unfold normpath, npc. destruct (initial_abs (psep :: t)) as [-> | ->]; reflexivity. }
  rewrite E2. apply two_canonical.
  - unfold npc. apply Forall_rev. rewrite Hb. apply np_loop_plain; [constructor|exact (splitc_pieces psep p)].
  - now apply initial_abs.
Qed.

Lemma pjoin_nil_two p : isabs p = true -> (two_slashes (pjoin p []) <-> two_slashes p).
Proof.
  intros Ha. unfold pjoin. cbn [startswith slash1].
  change (startswith [] slash1) with false. cbn iota.
  destruct p as [|x t] eqn:Ep; [easy|]. rewrite <- Ep in *.
  destruct (endswith p slash1) eqn:Ee; [now rewrite app_nil_r|].
  change (slash1 ++ []) with [psep].
  destruct p as [|a [|b r]].
  - easy.
  - apply isabs_cons in Ha as [t' Ea]. injection Ea as -> _. discriminate Ee.
  - apply isabs_cons in Ha as [t' Ea]. injection Ea as -> _.
    destruct r as [|c r].
    + cbn [app]. destruct (N.eqb_spec b psep) as [->|Hb]; [discriminate Ee|].
      split; intros (r' & [= -> _] & _); easy.
    + assert (G : forall z, isabs (c :: z) = isabs [c]) by (intros z; reflexivity).
      split; intros (r' & E & Hr); cbn [app] in E; injection E as -> <-; eexists; (split; [reflexivity|]); rewrite G in *; exact Hr.
Qed.

(** the directory computed by lines 121-129 *)
Definition chosen (pl : place) (f : fsys) (s : str) : str :=
  let d := normpath s in
  if negb (isabs d) || negb (fs_isdir f d) then get_abs_path (pl_cwd pl) (pl_here pl) [d] else d.

Lemma chosen_spec pl f s : isabs (pl_cwd pl) = true ->
  canonical (chosen pl f s) /\ fs_loc (chosen pl f s) = locate (package pl) s.
Proof.
  intros Hc. unfold chosen. destruct (negb (isabs (normpath s)) || negb (fs_isdir f (normpath s))) eqn:E.
  - pose proof (get_abs_path_one (pl_cwd pl) (pl_here pl) (normpath s) Hc) as [H1 H2]. split; [exact H1|].
    rewrite H2, locate_normpath. now destruct pl.
  - apply orb_false_iff in E as [E _]. apply negb_false_iff in E.
    assert (Hs : isabs s = true).
    { destruct (isabs s) eqn:Es; [easy|]. rewrite (normpath_rel _ Es) in E. easy. }
    split; [now apply normpath_canonical|]. unfold locate. rewrite Hs.
    change (fs_loc ?x) with (walk [] x). now apply normpath_walk.
Qed.

Lemma lseqb_eq a b : lseqb a b = true <-> a = b.
Proof.
  revert b; induction a as [|x a IH]; intros [|y b]; cbn [lseqb]; try (split; easy).
  rewrite andb_true_iff, IH, seqb_eq. split; [now intros [-> ->]|now intros [= -> ->]].
Qed.
Lemma lseqb_refl a : lseqb a a = true.
Proof. now apply lseqb_eq. Qed.
Lemma lseqb_neq a b : a <> b -> lseqb a b = false.
Proof. intros H. destruct (lseqb a b) eqn:E; [|easy]. apply lseqb_eq in E. easy. Qed.

Lemma test_loc d : fs_loc (pjoin d TEST) = fs_loc d ++ [TEST].
Proof.
  change (fs_loc ?x) with (walk [] x). rewrite pjoin_walk. change (isabs TEST) with false. cbn iota.
  reflexivity.
Qed.
Lemma snoc_neq {A} (l : list A) x : l ++ [x] <> l.
Proof. intros H. apply (f_equal (@length A)) in H. rewrite app_length in H. cbn in H. lia. Qed.

(** what the check needs: the directory exists, or can be created in its parent;
    its entries may be changed; the test file can be written *)
Definition creatable (f : fsys) (l : list str) : Prop :=
  fs_node f l = None /\ fs_node f (removelast l) = Some NDir /\ fs_perm f (removelast l) = true.
Definition test_writable (f : fsys) (l : list str) : Prop :=
  fs_full f = false /\
  match fs_node f (l ++ [TEST]) with
  | None => True
  | Some (NFile _) => fs_perm f (l ++ [TEST]) = true
  | Some NDir => False
  end.
Definition ready (f : fsys) (l : list str) : Prop :=
  (fs_node f l = Some NDir \/ creatable f l) /\ fs_perm f l = true /\ test_writable f l.
(** the file system afterwards *)
Definition checked (f f' : fsys) (l : list str) : Prop :=
  fs_node f' l = Some NDir /\ fs_node f' (l ++ [TEST]) = None /\
  (forall l', l' <> l -> l' <> l ++ [TEST] -> fs_node f' l' = fs_node f l') /\
  fs_perm f' = fs_perm f /\ fs_full f' = fs_full f.

(** the rest of the block once the directory is there *)
Definition test_block (f : fsys) (d : str) : dres unit * fsys :=
  let test := pjoin d TEST in
  dbind (fs_open_w f test) (fun _ f => dbind (fs_write f test !"Permissions Check!") (fun _ f => fs_remove f test)).

Lemma check_block_eq f d : check_block f d =
  dbind (if fs_isdir f d then (DOk tt, f) else fs_mkdir f d) (fun _ f => test_block f d).
Proof. reflexivity. Qed.

Lemma test_block_spec f d : fs_node f (fs_loc d) = Some NDir ->
  (fs_perm f (fs_loc d) = true /\ test_writable f (fs_loc d) /\
   exists f', test_block f d = (DOk tt, f') /\ checked f f' (fs_loc d)) \/
  (~ (fs_perm f (fs_loc d) = true /\ test_writable f (fs_loc d)) /\
   exists e f', test_block f d = (DErr e, f') /\ (exists x, e = DIOError x \/ e = DOSError EACCES)).
Proof.
  intros Hd. unfold test_block, fs_open_w, fs_write, fs_remove, fs_parent, test_writable.
  rewrite test_loc, removelast_last, Hd. set (l := fs_loc d) in *.
  assert (Hne : l <> l ++ [TEST]) by (apply not_eq_sym, snoc_neq).
  assert (Done : forall f1, fs_perm f1 = fs_perm f -> fs_full f1 = fs_full f ->
     (forall l', l' <> l ++ [TEST] -> fs_node f1 l' = fs_node f l') ->
     checked f (fs_put (l ++ [TEST]) None f1) l).
  { intros f1 Hp Hf Hn. repeat split; try assumption.
    - cbn [fs_put fs_node]. rewrite lseqb_neq by exact Hne. rewrite Hn by exact Hne. exact Hd.
    - cbn [fs_put fs_node]. now rewrite lseqb_refl.
    - intros l' _ H2. cbn [fs_put fs_node]. rewrite lseqb_neq by easy. now apply Hn. }
  destruct (fs_node f (l ++ [TEST])) as [[|c]|] eqn:Et.
  - right. split; [tauto|]. eexists _, _. split; [reflexivity|]. eauto.
  - destruct (fs_perm f (l ++ [TEST])) eqn:Ep.
    + cbn [dbind fs_put fs_full fs_perm]. destruct (fs_full f) eqn:Ef.
      * right. split; [intros (_ & H & _); discriminate|]. eexists _, _. split; [reflexivity|]. eauto.
      * cbn [dbind fs_put fs_full fs_perm]. destruct (fs_perm f l) eqn:El.
        -- left. split; [easy|]. split; [easy|]. eexists. split; [reflexivity|]. apply Done; [easy|cbn; easy|].
           intros l' H'. cbn [fs_put fs_node]. now rewrite lseqb_neq.
        -- right. split; [intros (H & _); discriminate|]. eexists _, _. split; [reflexivity|]. exists EACCES. now right.
    + right. split; [intros (_ & _ & H); discriminate|]. eexists _, _. split; [reflexivity|]. eauto.
  - destruct (fs_perm f l) eqn:El.
    + cbn [dbind fs_put fs_full fs_perm]. destruct (fs_full f) eqn:Ef.
      * right. split; [intros (_ & H & _); discriminate|]. eexists _, _. split; [reflexivity|]. eauto.
      * cbn [dbind fs_put fs_full fs_perm]. rewrite El.
        left. split; [easy|]. split; [easy|]. eexists. split; [reflexivity|]. apply Done; [easy|cbn; easy|].
        intros l' H'. cbn [fs_put fs_node]. now rewrite lseqb_neq.
    + right. split; [intros (H & _); discriminate|]. eexists _, _. split; [reflexivity|]. eauto.
Qed.

Lemma check_block_spec f d :
  (ready f (fs_loc d) /\ exists f', check_block f d = (DOk tt, f') /\ checked f f' (fs_loc d)) \/
  (~ ready f (fs_loc d) /\ exists e f', check_block f d = (DErr e, f') /\
     ((fs_node f (fs_loc d) = Some NDir \/ creatable f (fs_loc d)) /\ (exists x, e = DIOError x \/ e = DOSError EACCES) \/
      ~ (fs_node f (fs_loc d) = Some NDir \/ creatable f (fs_loc d)) /\ (exists x, e = DOSError x) /\ f' = f)).
Proof.
  rewrite check_block_eq. unfold fs_isdir, fs_mkdir, fs_parent, ready, creatable. set (l := fs_loc d).
  destruct (fs_node f l) as [[|c]|] eqn:En.
  - cbn [dbind]. pose proof (test_block_spec f d En) as HT; fold l in HT; destruct HT as [(H1 & H2 & f' & E & Hc)|(H & e & f' & E & He)].
    + left. split; [auto|]. eauto.
    + right. split; [tauto|]. exists e, f'. split; [easy|]. left. auto.
  - right. split; [intros ([H|(H & _)] & _); discriminate|]. eexists _, _. split; [reflexivity|]. right.
    split; [intros [H|(H & _)]; discriminate|]. eauto.
  - destruct (fs_node f (removelast l)) as [[|c]|] eqn:Ep.
    + destruct (fs_perm f (removelast l)) eqn:Epp.
      * cbn [dbind]. set (f1 := fs_put l (Some NDir) f).
        assert (N1 : fs_node f1 l = Some NDir) by (cbn [f1 fs_put fs_node]; now rewrite lseqb_refl).
        assert (N2 : fs_node f1 (l ++ [TEST]) = fs_node f (l ++ [TEST])).
        { cbn [f1 fs_put fs_node]. rewrite lseqb_neq; [easy|apply snoc_neq]. }
        assert (T : test_writable f1 l <-> test_writable f l).
        { unfold test_writable. now rewrite N2. }
        assert (C : creatable f l) by (unfold creatable; auto).
        pose proof (test_block_spec f1 d N1) as HT; fold l in HT; destruct HT as [(H1 & H2 & f' & E & Hc)|(H & e & f' & E & He)].
        -- left. split.
           { split; [right; auto|]. split; [exact H1|now apply T]. }
           exists f'. split; [exact E|]. destruct Hc as (C1 & C2 & C3 & C4 & C5). repeat split; try assumption.
           intros l' Hl Hl'. rewrite C3 by easy. cbn [f1 fs_put fs_node]. now rewrite lseqb_neq.
        -- right. split; [intros (_ & H1 & H2); apply H; split; [exact H1|now apply T]|].
           exists e, f'. split; [exact E|]. left. split; [right; auto|exact He].
      * right. split; [intros ([H|(_ & _ & H)] & _); discriminate|]. eexists _, _. split; [reflexivity|]. right.
        split; [intros [H|(_ & _ & H)]; discriminate|]. eauto.
    + right. split; [intros ([H|(_ & H & _)] & _); discriminate|]. eexists _, _. split; [reflexivity|]. right.
      split; [intros [H|(_ & H & _)]; discriminate|]. eauto.
    + right. split; [intros ([H|(_ & H & _)] & _); discriminate|]. eexists _, _. split; [reflexivity|]. right.
      split; [intros [H|(_ & H & _)]; discriminate|]. eauto.
Qed.

(** the outcome of [_check_upload_dir] *)
Lemma check_upload_dir_spec pl f s : isabs (pl_cwd pl) = true ->
  let l := locate (package pl) s in
  (ready f l /\ exists f', check_upload_dir pl f (SvStr s) true = (DOk (SvStr (chosen pl f s)), f') /\ checked f f' l) \/
  (~ ready f l /\ exists e f', check_upload_dir pl f (SvStr s) true = (DErr e, f') /\
     ((fs_node f l = Some NDir \/ creatable f l) /\ ((exists m, e = DInvalid m) \/ e = DOSError EACCES) \/
      ~ (fs_node f l = Some NDir \/ creatable f l) /\ (exists x, e = DOSError x) /\ f' = f)).
Proof.
  intros Hc l. destruct (chosen_spec pl f s Hc) as [_ Hl]. fold l in Hl.
  assert (E : check_upload_dir pl f (SvStr s) true =
    match check_block f (chosen pl f s) with
    | (DOk _, f1) => (DOk (SvStr (chosen pl f s)), f1)
    | (DErr (DIOError EACCES), f1) => (DErr (DInvalid (!"No write permissions to directory: " ++ chosen pl f s)), f1)
    | (DErr (DIOError _), f1) => (DErr (DInvalid (!"Error: Invalid directory: " ++ chosen pl f s)), f1)
    | (DErr e, f1) => (DErr e, f1)
    end) by reflexivity.
  rewrite E. clear E. pose proof (check_block_spec f (chosen pl f s)) as H. rewrite Hl in H.
  destruct H as [(Hr & f' & E & C)|(Hr & e & f' & E & H)]; rewrite E.
  - left. eauto.
  - right. split; [exact Hr|]. destruct H as [(H1 & x & [-> | ->])|(H1 & (x & ->) & ->)].
    + destruct x; (eexists _, _; split; [reflexivity|]; left; split; [exact H1|left; eauto]).
    + eexists _, _. split; [reflexivity|]. left. auto.
    + eexists _, _. split; [reflexivity|]. right. eauto.
Qed.
