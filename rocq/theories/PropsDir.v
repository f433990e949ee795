(** * Theorems about the upload directory: C100-C102 *)
From Verif Require Import Py PyFacts PyDict UploadModel SettingsModel PathModel PathFacts DirFacts.

(** ** C100: the directory used is the one the setting names *)
(** [walk b p]: where the path [p] leads from the location [b];
    [package pl]: the location of the package *)
Theorem C100_directory :
  forall pl f s check d f', isabs (pl_cwd pl) = true ->
  check_upload_dir pl f (SvStr s) check = (DOk (SvStr d), f') ->
  canonical d /\ fs_loc d = (if isabs s then walk [] s else walk (package pl) s).
Proof.
  intros pl f s check d f' Hc H.
  assert (E : d = chosen pl f s).
  { destruct check.
    - destruct (check_upload_dir_spec pl f s Hc) as [(_ & f1 & E & _)|(_ & e & f1 & E & _)]; rewrite E in H; congruence.
    - change (check_upload_dir pl f (SvStr s) false) with (DOk (SvStr (chosen pl f s)), f) in H. congruence. }
  subst d. exact (chosen_spec pl f s Hc).
Qed.
Print Assumptions C100_directory.

(** the spelling of the name: a path that starts with exactly two slashes may mean
    something of its own to the system (POSIX), so both are kept; one slash, or
    three and more, mean one *)
Theorem C100_leading_slashes :
  forall pl f s check d f', isabs s = true -> isabs (pl_cwd pl) = true ->
  check_upload_dir pl f (SvStr s) check = (DOk (SvStr d), f') ->
  ((exists r, d = psep :: psep :: r) <-> (exists r, s = psep :: psep :: r /\ isabs r = false)).
Proof.
  intros pl f s check d f' Ha Hc H.
  assert (E : d = chosen pl f s).
  { destruct check.
    - destruct (check_upload_dir_spec pl f s Hc) as [(_ & f1 & E & _)|(_ & e & f1 & E & _)]; rewrite E in H; congruence.
    - change (check_upload_dir pl f (SvStr s) false) with (DOk (SvStr (chosen pl f s)), f) in H. congruence. }
  change (exists r, s = psep :: psep :: r /\ isabs r = false) with (two_slashes s).
  assert (G : two_slashes d <-> two_slashes s).
  { rewrite E. unfold chosen. pose proof (canonical_abs _ (normpath_canonical _ Ha)) as Hn.
    rewrite Hn. cbn [negb orb]. destruct (fs_isdir f (normpath s)); cbn [negb].
    - now apply normpath_two.
    - unfold get_abs_path. cbn [fold_left]. unfold pjoin at 2. unfold isabs in Hn. rewrite Hn.
      rewrite normpath_two by now apply pjoin_abs. rewrite pjoin_nil_two by exact Hn. now apply normpath_two. }
  rewrite <- G. destruct (C100_directory pl f s check d f' Hc H) as [(n & names & Hn & Hp & Ed) _].
  split; [|intros (r & Er & _); eauto]. intros (r & Er). rewrite Ed.
  apply two_canonical; [exact Hp|exact Hn|]. destruct Hn as [-> |Hn]; [|exact Hn].
  exfalso. rewrite Ed in Er. cbn [repeat app] in Er. injection Er as Er.
  destruct Hp as [|c cs (h1 & _ & _ & h4) Hp]; [easy|]. destruct c as [|y c]; [easy|].
  destruct cs; cbn [join app] in Er; injection Er as -> _; elim h4; now left.
Qed.
Print Assumptions C100_leading_slashes.

Definition ex_place : place := mkPlace !"/home/u" !"/srv/request_parser/files/utils.py".
Definition ex_nodes : list (list str) := [[]; [!"srv"]; [!"srv"; !"request_parser"]; [!"srv"; !"request_parser"; !"files"]; [!"tmp"]].
Definition ex_fs (bad : list (list str)) (full : bool) : fsys :=
  mkFs (fun l => if existsb (lseqb l) ex_nodes then Some NDir
                 else if lseqb l [!"tmp"; !"acdr423x.tmp"] then Some (NFile !"precious") else None)
       (fun l => negb (existsb (lseqb l) bad)) full.

Example C100_case :
  isabs (pl_cwd ex_place) = true /\
  package ex_place = [!"srv"; !"request_parser"] /\
  fst (check_upload_dir ex_place (ex_fs [] false) (SvStr !"a/../files//file_uploads/.") true)
    = DOk (SvStr !"/srv/request_parser/files/file_uploads") /\
  fst (check_upload_dir ex_place (ex_fs [] false) (SvStr !"/tmp/./x/../y/") true) = DOk (SvStr !"/tmp/y") /\
  fst (check_upload_dir ex_place (ex_fs [] false) (SvStr !"../../tmp") false) = DOk (SvStr !"/tmp").
Proof. repeat split; vm_compute; reflexivity. Qed.

Example C100_leading_slashes_case :
  fst (check_upload_dir ex_place (ex_fs [] false) (SvStr !"//tmp/./x") true) = DOk (SvStr !"//tmp/x") /\
  fst (check_upload_dir ex_place (ex_fs [] false) (SvStr !"///tmp//x") true) = DOk (SvStr !"/tmp/x").
Proof. split; vm_compute; reflexivity. Qed.

(** a relative setting is not confined to the package *)
Theorem C100_outside_refuted :
  exists pl f s d f' rest, isabs s = false /\ check_upload_dir pl f (SvStr s) true = (DOk (SvStr d), f') /\
    package pl = [!"srv"; !"request_parser"] /\ fs_loc d = !"tmp" :: rest.
Proof.
  exists ex_place, (ex_fs [] false), !"../../tmp/up".
  eexists _, _, _. split; [reflexivity|]. split; [vm_compute; reflexivity|]. split; vm_compute; reflexivity.
Qed.
Print Assumptions C100_outside_refuted.

(** ** C101: the check of the directory *)
(** success exactly when the directory is there or can be made, its entries can
    be changed and a file can be written *)
Theorem C101_success_iff :
  forall pl f s, isabs (pl_cwd pl) = true ->
  ((exists v f', check_upload_dir pl f (SvStr s) true = (DOk v, f')) <->
   ready f (if isabs s then walk [] s else walk (package pl) s)).
Proof.
  intros pl f s Hc. pose proof (check_upload_dir_spec pl f s Hc) as H. cbn zeta in H. unfold locate in H.
  destruct H as [(Hr & f' & E & _)|(Hr & e & f' & E & _)].
  - split; [easy|]. intros _. eauto.
  - split; [|easy]. rewrite E. intros (v & f1 & [=]).
Qed.
Print Assumptions C101_success_iff.

(** and then the directory exists, and nothing else has changed except that
    there is no file of the name used for the test *)
Theorem C101_effect :
  forall pl f s v f', isabs (pl_cwd pl) = true -> check_upload_dir pl f (SvStr s) true = (DOk v, f') ->
  let l := if isabs s then walk [] s else walk (package pl) s in
  fs_node f' l = Some NDir /\ fs_perm f' l = true /\ fs_node f' (l ++ [!"acdr423x.tmp"]) = None /\
  (forall l', l' <> l -> l' <> l ++ [!"acdr423x.tmp"] -> fs_node f' l' = fs_node f l').
Proof.
  intros pl f s v f' Hc H l. pose proof (check_upload_dir_spec pl f s Hc) as G. cbn zeta in G.
  change (locate (package pl) s) with l in G. rewrite H in G.
  destruct G as [((_ & Hp & _) & f1 & [= -> <-] & (C1 & C2 & C3 & C4 & _))|(_ & e & f1 & [=] & _)].
  split; [exact C1|]. split; [now rewrite C4|]. split; [exact C2|exact C3].
Qed.
Print Assumptions C101_effect.

(** without the check the file system is only looked at, and nothing is refused *)
Theorem C101_unchecked :
  forall pl f s, exists d, check_upload_dir pl f (SvStr s) false = (DOk (SvStr d), f).
Proof. intros pl f s. eexists. reflexivity. Qed.
Print Assumptions C101_unchecked.

(** a directory that is not there and cannot be made is never reported as
    InvalidDirectory: the OSError of os.mkdir is not an IOError in Python 2 *)
Theorem C101_invalid_refuted :
  forall pl f s, isabs (pl_cwd pl) = true ->
  let l := if isabs s then walk [] s else walk (package pl) s in
  fs_node f l <> Some NDir ->
  ~ (fs_node f l = None /\ fs_node f (removelast l) = Some NDir /\ fs_perm f (removelast l) = true) ->
  exists e, check_upload_dir pl f (SvStr s) true = (DErr (DOSError e), f).
Proof.
  intros pl f s Hc l H1 H2. pose proof (check_upload_dir_spec pl f s Hc) as G. cbn zeta in G.
  change (locate (package pl) s) with l in G.
  destruct G as [(([H|H] & _) & _)|(_ & e & f1 & E & [([H|H] & _)|(_ & (x & ->) & ->)])]; [easy|easy|easy|easy|].
  eauto.
Qed.
Print Assumptions C101_invalid_refuted.

Example C101_invalid_case :
  fst (check_upload_dir ex_place (ex_fs [] false) (SvStr !"/missing/dir") true) = DErr (DOSError ENOENT) /\
  fst (check_upload_dir ex_place (ex_fs [[!"tmp"]] false) (SvStr !"/tmp/new") true) = DErr (DOSError EACCES) /\
  fst (check_upload_dir ex_place (ex_fs [] false) (SvStr !"/tmp/acdr423x.tmp") true) = DErr (DOSError EEXIST).
Proof. repeat split; vm_compute; reflexivity. Qed.

(** when the directory is there, or has been made, an error is InvalidDirectory,
    unless it comes from removing the test file *)
Theorem C101_invalid_partial :
  forall pl f s e f', isabs (pl_cwd pl) = true ->
  let l := if isabs s then walk [] s else walk (package pl) s in
  fs_node f l = Some NDir -> check_upload_dir pl f (SvStr s) true = (DErr e, f') ->
  (exists m, e = DInvalid m) \/ e = DOSError EACCES.
Proof.
  intros pl f s e f' Hc l H E. pose proof (check_upload_dir_spec pl f s Hc) as G. cbn zeta in G.
  change (locate (package pl) s) with l in G. rewrite E in G.
  destruct G as [(_ & f1 & [=] & _)|(_ & e1 & f1 & [= <- <-] & [(_ & G)|(G & _)])]; [exact G|tauto].
Qed.
Print Assumptions C101_invalid_partial.
Example C101_invalid_partial_case :
  fst (check_upload_dir ex_place (ex_fs [[!"srv"]] false) (SvStr !"/srv") true)
    = DErr (DInvalid !"No write permissions to directory: /srv").
Proof. vm_compute; reflexivity. Qed.

(** the check is not harmless: a file that has the name of the test file is
    destroyed, and on a full disk the test file stays *)
Theorem C101_file_lost_refuted :
  exists pl f s d f', check_upload_dir pl f (SvStr s) true = (DOk (SvStr d), f') /\
    exists l c, fs_node f l = Some (NFile c) /\ fs_node f' l = None.
Proof.
  exists ex_place, (ex_fs [] false), !"/tmp". eexists _, _. split; [vm_compute; reflexivity|].
  exists [!"tmp"; !"acdr423x.tmp"], !"precious". split; vm_compute; reflexivity.
Qed.
Print Assumptions C101_file_lost_refuted.
Theorem C101_left_behind_refuted :
  exists pl f s m f', check_upload_dir pl f (SvStr s) true = (DErr (DInvalid m), f') /\
    exists l, fs_node f l = None /\ fs_node f' l = Some (NFile []).
Proof.
  exists ex_place, (ex_fs [] true), !"/srv". eexists _, _. split; [vm_compute; reflexivity|].
  exists [!"srv"; !"acdr423x.tmp"]. split; vm_compute; reflexivity.
Qed.
Print Assumptions C101_left_behind_refuted.

Example C101_case :
  ready (ex_fs [] false) [!"srv"; !"request_parser"; !"files"; !"file_uploads"] /\ ~ ready (ex_fs [] false) [!"a"; !"b"].
Proof.
  split.
  - split; [right; repeat split|]. split; [reflexivity|split; [reflexivity|exact I]].
  - intros ([H|(_ & H & _)] & _); vm_compute in H; discriminate.
Qed.

(** ** C102: Settings and the directory *)
Definition other_options : list (str * str * sval) :=
  [(!"MAX_HEADER_SIZE", !"MAX_HEADER_SIZE", SvInt 16);
   (!"FILE_UPLOAD_MAX_MEMORY", !"FILE_UPLOAD_MAX_MEMORY_SIZE", SvInt 31457280);
   (!"DATA_UPLOAD_MAX_MEMORY", !"DATA_UPLOAD_MAX_MEMORY_SIZE", SvInt 5242880);
   (!"DATA_UPLOAD_MAX_FIELDS", !"DATA_UPLOAD_MAX_NUMBER_FIELDS", SvInt 4096);
   (!"DEFAULT_CHARSET", !"DEFAULT_CHARSET", SvStr !"ISO-8859-1")].

Definition built (d : dict sval) (dir : str) (s : dict sval) : Prop :=
  dget !"FILE_UPLOAD_TEMP_DIR" s = Some (SvStr dir) /\
  forall key attr dflt, In (key, attr, dflt) other_options ->
    dget attr s = Some (match dget key d with Some v => v | None => dflt end).

Lemma init_nonempty pl f d check : d <> [] -> settings_init_fs pl f (SaDict d) check =
  dbind (settings_default_fs pl f check) (fun dflt f =>
  dbind (match dget K_DIR d with
         | Some v => dbind (check_upload_dir pl f v true) (fun v' f => (DOk [(A_DIR, v')], f))
         | None => (DOk (opt_fs K_DIR A_DIR [] dflt []), f)
         end) (fun s f =>
  (DOk (opt_fs K_CHARSET A_CHARSET d dflt (opt_fs K_DNUM A_DNUM d dflt (opt_fs K_DMEM A_DMEM d dflt
         (opt_fs K_FMEM A_FMEM d dflt (opt_fs K_HDR A_HDR d dflt s))))), f))).
Proof. now destruct d. Qed.

Lemma opts_built d dflt dir dir0 :
  dflt = [(A_DIR, SvStr dir0); (A_HDR, SvInt 16); (A_FMEM, SvInt 31457280); (A_DMEM, SvInt 5242880); (A_DNUM, SvInt 4096);
          (A_CHARSET, SvStr !"ISO-8859-1")] ->
  built d dir (opt_fs K_CHARSET A_CHARSET d dflt (opt_fs K_DNUM A_DNUM d dflt (opt_fs K_DMEM A_DMEM d dflt
         (opt_fs K_FMEM A_FMEM d dflt (opt_fs K_HDR A_HDR d dflt [(A_DIR, SvStr dir)]))))).
Proof.
  intros ->. unfold opt_fs.
  change (dget A_HDR _) with (Some (SvInt 16)). change (dget A_FMEM _) with (Some (SvInt 31457280)).
  change (dget A_DMEM _) with (Some (SvInt 5242880)). change (dget A_DNUM _) with (Some (SvInt 4096)).
  change (dget A_CHARSET _) with (Some (SvStr !"ISO-8859-1")).
  split.
  - destruct (dget K_CHARSET d), (dget K_DNUM d), (dget K_DMEM d), (dget K_FMEM d), (dget K_HDR d); reflexivity.
  - intros key attr dflt [E|[E|[E|[E|[E|[]]]]]]; injection E as <- <- <-.
    + change (dget !"MAX_HEADER_SIZE" d) with (dget K_HDR d).
      destruct (dget K_CHARSET d), (dget K_DNUM d), (dget K_DMEM d), (dget K_FMEM d), (dget K_HDR d); reflexivity.
    + change (dget !"FILE_UPLOAD_MAX_MEMORY" d) with (dget K_FMEM d).
      destruct (dget K_CHARSET d), (dget K_DNUM d), (dget K_DMEM d), (dget K_FMEM d), (dget K_HDR d); reflexivity.
    + change (dget !"DATA_UPLOAD_MAX_MEMORY" d) with (dget K_DMEM d).
      destruct (dget K_CHARSET d), (dget K_DNUM d), (dget K_DMEM d), (dget K_FMEM d), (dget K_HDR d); reflexivity.
    + change (dget !"DATA_UPLOAD_MAX_FIELDS" d) with (dget K_DNUM d).
      destruct (dget K_CHARSET d), (dget K_DNUM d), (dget K_DMEM d), (dget K_FMEM d), (dget K_HDR d); reflexivity.
    + change (dget !"DEFAULT_CHARSET" d) with (dget K_CHARSET d).
      destruct (dget K_CHARSET d), (dget K_DNUM d), (dget K_DMEM d), (dget K_FMEM d), (dget K_HDR d); reflexivity.
Qed.

(** a dictionary without a directory, and no check: no access that changes
    anything; the directory is files/file_uploads in the package *)
Theorem C102_default_directory :
  forall pl f d, isabs (pl_cwd pl) = true -> d <> [] -> dget !"FILE_UPLOAD_TEMP_DIR" d = None ->
  exists s dir, settings_init_fs pl f (SaDict d) false = (DOk s, f) /\ built d dir s /\
    canonical dir /\ fs_loc dir = package pl ++ [!"files"; !"file_uploads"].
Proof.
  intros pl f d Hc Hd Hn. rewrite init_nonempty by exact Hd. unfold settings_default_fs.
  change (check_upload_dir pl f (SvStr !"files/file_uploads") false) with (DOk (SvStr (chosen pl f !"files/file_uploads")), f).
  set (dir := chosen pl f !"files/file_uploads"). cbn [dbind]. change K_DIR with (lit "FILE_UPLOAD_TEMP_DIR").
  rewrite Hn. cbn [dbind]. eexists _, dir. split; [reflexivity|]. split.
  - change (lit "FILE_UPLOAD_TEMP_DIR") with K_DIR.
    match goal with |- context [dset A_DIR (SvStr dir) ?x] =>
      change (opt_fs K_DIR A_DIR [] (dset A_DIR (SvStr dir) x) []) with [(A_DIR, SvStr dir)] end.
    apply (opts_built d _ dir dir). reflexivity.
  - destruct (chosen_spec pl f !"files/file_uploads" Hc) as [H1 H2]. split; [exact H1|].
    unfold dir. rewrite H2. unfold locate. change (isabs !"files/file_uploads") with false. cbn iota.
    unfold walk. change (splitc psep !"files/file_uploads") with [!"files"; !"file_uploads"]. cbn [fold_left].
    change (package pl ++ [lit "files"; lit "file_uploads"]) with (package pl ++ [lit "files"] ++ [lit "file_uploads"]).
    rewrite app_assoc. reflexivity.
Qed.
Print Assumptions C102_default_directory.

(** a configured directory is always checked, whatever check_presence says:
    the constructor succeeds exactly when it is usable *)
Theorem C102_configured_directory :
  forall pl f d v, isabs (pl_cwd pl) = true -> dget !"FILE_UPLOAD_TEMP_DIR" d = Some (SvStr v) ->
  let l := if isabs v then walk [] v else walk (package pl) v in
  (ready f l -> exists s dir f', settings_init_fs pl f (SaDict d) false = (DOk s, f') /\ built d dir s /\
      canonical dir /\ fs_loc dir = l /\ checked f f' l) /\
  (~ ready f l -> exists e f', settings_init_fs pl f (SaDict d) false = (DErr e, f')).
Proof.
  intros pl f d v Hc Hv l.
  assert (Hd : d <> []) by (intros ->; discriminate).
  rewrite init_nonempty by exact Hd. unfold settings_default_fs.
  change (check_upload_dir pl f (SvStr !"files/file_uploads") false) with (DOk (SvStr (chosen pl f !"files/file_uploads")), f).
  set (dir0 := chosen pl f !"files/file_uploads"). cbn [dbind]. change K_DIR with (lit "FILE_UPLOAD_TEMP_DIR").
  rewrite Hv. pose proof (check_upload_dir_spec pl f v Hc) as G. cbn zeta in G. change (locate (package pl) v) with l in G.
  split; intros Hr.
  - destruct G as [(_ & f' & E & C)|(G & _)]; [|easy]. rewrite E. cbn [dbind].
    eexists _, (chosen pl f v), f'. split; [reflexivity|]. split; [|split].
    + apply (opts_built d _ (chosen pl f v) dir0). reflexivity.
    + exact (proj1 (chosen_spec pl f v Hc)).
    + split; [exact (proj2 (chosen_spec pl f v Hc))|exact C].
  - destruct G as [(G & _)|(_ & e & f' & E & _)]; [easy|]. rewrite E. cbn [dbind]. eauto.
Qed.
Print Assumptions C102_configured_directory.

Example C102_case :
  let d := [(!"FILE_UPLOAD_TEMP_DIR", SvStr !"/tmp/up"); (!"MAX_HEADER_SIZE", SvInt 9)] in
  ready (ex_fs [] false) [!"tmp"; !"up"] /\
  match fst (settings_init_fs ex_place (ex_fs [] false) (SaDict d) false) with
  | DOk s => dget !"FILE_UPLOAD_TEMP_DIR" s = Some (SvStr !"/tmp/up") /\ dget !"MAX_HEADER_SIZE" s = Some (SvInt 9)
  | DErr _ => False
  end.
Proof.
  split; [|vm_compute; split; reflexivity].
  split; [right; repeat split|]. split; [reflexivity|split; [reflexivity|exact I]].
Qed.

(** with check_presence=True the default directory must be usable too, although
    it is not going to be used *)
Theorem C102_unused_directory_refuted :
  exists pl f d v, dget !"FILE_UPLOAD_TEMP_DIR" d = Some (SvStr v) /\
    ready f (if isabs v then walk [] v else walk (package pl) v) /\
    (exists e f', settings_init_fs pl f (SaDict d) true = (DErr e, f')) /\
    (exists s f', settings_init_fs pl f (SaDict d) false = (DOk s, f')).
Proof.
  exists ex_place, (ex_fs [[!"srv"; !"request_parser"; !"files"]] false), [(!"FILE_UPLOAD_TEMP_DIR", SvStr !"/tmp/up")], !"/tmp/up".
  split; [reflexivity|]. split.
  - split; [right; repeat split|]. split; [reflexivity|split; [reflexivity|exact I]].
  - split; eexists _, _; vm_compute; reflexivity.
Qed.
Print Assumptions C102_unused_directory_refuted.
