(** * The refutations of C100-C102 for all inputs *)
From Verif Require Import Py PyFacts PyDict UploadModel SettingsModel PathModel PathFacts DirFacts PropsDir.

(** ** C100: a relative setting can name every location of the file system *)
(** ["../"] as often as the package is deep, then the names *)
Fixpoint climb (n : nat) (q : str) : str := match n with 0 => q | S n' => !"../" ++ climb n' q end.

Lemma walk_climb n : forall l q, walk l (climb n q) = walk (firstn (length l - n) l) q.
Proof.
  induction n as [|n IH]; intros l q; cbn [climb].
  - now rewrite Nat.sub_0_r, firstn_all.
  - change (!"../" ++ climb n q) with (dotdot ++ psep :: climb n q). rewrite walk_app.
    change (walk l dotdot) with (fs_step l dotdot). rewrite fs_step_dotdot, IH. f_equal.
    destruct (exists_last_or_nil l) as [->|(l' & x & ->)]; [now rewrite !firstn_nil|].
    rewrite removelast_last, app_length. cbn [length]. replace (length l' + 1 - S n) with (length l' - n) by lia.
    rewrite firstn_app. replace (length l' - n - length l') with 0 by lia. cbn [firstn]. now rewrite app_nil_r.
Qed.
Lemma names_relative names : Forall plain names -> names <> [] -> isabs (join slash1 names) = false.
Proof.
  intros Hp Hn. destruct Hp as [|c cs (H1 & _ & _ & H2) Hp]; [easy|]. destruct c as [|y c]; [easy|].
  destruct (isabs (join slash1 ((y :: c) :: cs))) eqn:E; [exfalso|easy]. apply isabs_cons in E as (t & E).
  destruct cs; cbn [join app] in E; injection E as -> _; apply H2; now left.
Qed.

Theorem C100_anywhere_refuted :
  forall pl f names, isabs (pl_cwd pl) = true -> Forall plain names -> names <> [] ->
    let s := climb (length (package pl)) (join slash1 names) in
    isabs s = false /\
    exists d, check_upload_dir pl f (SvStr s) false = (DOk (SvStr d), f) /\ canonical d /\ fs_loc d = names.
Proof.
  intros pl f names Hc Hp Hn s.
  assert (Hr : isabs s = false).
  { unfold s. destruct (length (package pl)); cbn [climb]; [now apply names_relative|reflexivity]. }
  split; [exact Hr|]. destruct (C101_unchecked pl f s) as (d & E). exists d. split; [exact E|].
  destruct (C100_directory pl f s false d f Hc E) as [H1 H2]. split; [exact H1|]. rewrite H2, Hr. unfold s.
  rewrite walk_climb, Nat.sub_diag. cbn [firstn]. exact (canonical_loc 0 names Hp).
Qed.
Print Assumptions C100_anywhere_refuted.
Example C100_anywhere_case :
  climb (length (package ex_place)) (join slash1 [!"etc"; !"cron.d"]) = !"../../etc/cron.d" /\
  check_upload_dir ex_place (ex_fs [] false) (SvStr !"../../etc/cron.d") false = (DOk (SvStr !"/etc/cron.d"), ex_fs [] false).
Proof. split; vm_compute; reflexivity. Qed.

(** ** C101: every file called acdr423x.tmp in a directory that passes the check is lost *)
Theorem C101_file_lost_all_refuted :
  forall pl f s v f' c, isabs (pl_cwd pl) = true -> check_upload_dir pl f (SvStr s) true = (DOk v, f') ->
  let l := if isabs s then walk [] s else walk (package pl) s in
  fs_node f (l ++ [!"acdr423x.tmp"]) = Some (NFile c) -> fs_node f' (l ++ [!"acdr423x.tmp"]) = None.
Proof. intros pl f s v f' c Hc H l _. now destruct (C101_effect pl f s v f' Hc H) as (_ & _ & E & _). Qed.
Print Assumptions C101_file_lost_all_refuted.
Example C101_file_lost_all_case :
  fs_node (ex_fs [] false) [!"tmp"; !"acdr423x.tmp"] = Some (NFile !"precious") /\
  match check_upload_dir ex_place (ex_fs [] false) (SvStr !"/tmp") true with (DOk _, _) => True | _ => False end.
Proof. split; vm_compute; [reflexivity|exact I]. Qed.

(** on a full disk the check refuses every directory and leaves its test file there,
    empty, also in the place of a file of that name *)
Theorem C101_left_behind_all_refuted :
  forall pl f s, isabs (pl_cwd pl) = true ->
  let l := if isabs s then walk [] s else walk (package pl) s in
  fs_node f l = Some NDir \/ (fs_node f l = None /\ fs_node f (removelast l) = Some NDir /\ fs_perm f (removelast l) = true) ->
  fs_full f = true ->
  match fs_node f (l ++ [!"acdr423x.tmp"]) with
  | None => fs_perm f l = true
  | Some (NFile _) => fs_perm f (l ++ [!"acdr423x.tmp"]) = true
  | Some NDir => False
  end ->
  exists m f', check_upload_dir pl f (SvStr s) true = (DErr (DInvalid m), f') /\
    fs_node f' (l ++ [!"acdr423x.tmp"]) = Some (NFile []).
Proof.
  intros pl f s Hc l Hd Hf Ht. destruct (chosen_spec pl f s Hc) as [_ Hl]. change (locate (package pl) s) with l in Hl.
  assert (E : exists f', check_block f (chosen pl f s) = (DErr (DIOError ENOSPC), f') /\ fs_node f' (l ++ [TEST]) = Some (NFile [])).
  { rewrite check_block_eq. unfold fs_isdir, fs_mkdir, fs_parent. rewrite Hl.
    assert (G : forall f1, fs_node f1 l = Some NDir -> fs_full f1 = true -> fs_perm f1 = fs_perm f ->
                fs_node f1 (l ++ [TEST]) = fs_node f (l ++ [TEST]) ->
                exists f', test_block f1 (chosen pl f s) = (DErr (DIOError ENOSPC), f') /\ fs_node f' (l ++ [TEST]) = Some (NFile [])).
    { intros f1 G1 G2 G3 G4. unfold test_block, fs_open_w, fs_write, fs_parent. rewrite test_loc, Hl, removelast_last, G1, G4, G3.
      change (lit "acdr423x.tmp") with TEST in Ht. destruct (fs_node f (l ++ [TEST])) as [[|c]|]; [easy| |]; rewrite Ht; cbn [dbind fs_put fs_full]; rewrite G2;
        (eexists; split; [reflexivity|]; cbn [dbind fs_put fs_node]; now rewrite lseqb_refl). }
    destruct Hd as [Hd|(H1 & H2 & H3)].
    - rewrite Hd. cbn [dbind]. now apply G.
    - rewrite H1, H2, H3. cbn [dbind]. apply G; [|exact Hf|reflexivity|].
      + cbn [fs_put fs_node]. now rewrite lseqb_refl.
      + cbn [fs_put fs_node]. rewrite lseqb_neq; [easy|apply snoc_neq]. }
  destruct E as (f' & E & N). exists (!"Error: Invalid directory: " ++ chosen pl f s), f'. split; [|exact N].
  transitivity (match check_block f (chosen pl f s) with
    | (DOk _, f1) => (DOk (SvStr (chosen pl f s)), f1)
    | (DErr (DIOError EACCES), f1) => (DErr (DInvalid (!"No write permissions to directory: " ++ chosen pl f s)), f1)
    | (DErr (DIOError _), f1) => (DErr (DInvalid (!"Error: Invalid directory: " ++ chosen pl f s)), f1)
    | (DErr e, f1) => (DErr e, f1)
    end); [reflexivity|]. now rewrite E.
Qed.
Print Assumptions C101_left_behind_all_refuted.
Example C101_left_behind_all_case :
  fs_node (ex_fs [] true) [!"tmp"] = Some NDir /\
  fs_node (ex_fs [] true) [!"tmp"; !"acdr423x.tmp"] = Some (NFile !"precious") /\
  fs_node (snd (check_upload_dir ex_place (ex_fs [] true) (SvStr !"/tmp") true)) [!"tmp"; !"acdr423x.tmp"] = Some (NFile []).
Proof. repeat split; vm_compute; reflexivity. Qed.

(** ** C102: with check_presence=True every unusable default directory makes the
    constructor fail, whatever directory is configured *)
Theorem C102_unused_all_refuted :
  forall pl f d v, isabs (pl_cwd pl) = true -> dget !"FILE_UPLOAD_TEMP_DIR" d = Some (SvStr v) ->
    ready f (if isabs v then walk [] v else walk (package pl) v) ->
    ~ ready f (package pl ++ [!"files"; !"file_uploads"]) ->
    (exists s dir f', settings_init_fs pl f (SaDict d) false = (DOk s, f') /\ built d dir s) /\
    (exists e f', settings_init_fs pl f (SaDict d) true = (DErr e, f')).
Proof.
  intros pl f d v Hc Hv Hr Hn. split.
  - destruct (C102_configured_directory pl f d v Hc Hv) as [H _]. destruct (H Hr) as (s & dir & f' & E & B & _). now exists s, dir, f'.
  - assert (Hd : d <> []) by (intros ->; discriminate). rewrite init_nonempty by exact Hd. unfold settings_default_fs.
    pose proof (check_upload_dir_spec pl f !"files/file_uploads" Hc) as G. cbn zeta in G.
    assert (El : locate (package pl) !"files/file_uploads" = package pl ++ [!"files"; !"file_uploads"]).
    { unfold locate. change (isabs !"files/file_uploads") with false. cbn iota.
      unfold walk. change (splitc psep !"files/file_uploads") with [!"files"; !"file_uploads"]. cbn [fold_left].
      change (package pl ++ [lit "files"; lit "file_uploads"]) with (package pl ++ [lit "files"] ++ [lit "file_uploads"]).
      rewrite app_assoc. reflexivity. }
    rewrite El in G. destruct G as [(G & _)|(_ & e & f' & E & _)]; [easy|]. rewrite E. cbn [dbind]. eauto.
Qed.
Print Assumptions C102_unused_all_refuted.
Example C102_unused_all_case :
  let f := ex_fs [[!"srv"; !"request_parser"; !"files"]] false in
  ready f [!"tmp"; !"up"] /\ ~ ready f (package ex_place ++ [!"files"; !"file_uploads"]).
Proof.
  split.
  - split; [right; repeat split|]. split; [reflexivity|split; [reflexivity|exact I]].
  - intros ([H|(_ & _ & H)] & _); vm_compute in H; discriminate.
Qed.
