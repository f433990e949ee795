(** * Model of the paths and directories used by request_parser/conf/settings.py
    and request_parser/files/utils.py

    [os.path] is [posixpath]; its functions are modelled from CPython 2.7's
    Lib/posixpath.py. *)
From Verif Require Import Py PyDict UploadModel SettingsModel.

Definition dotdot : str := !"..".
Definition dot1 : str := !".".
Definition slash1 : str := !"/".

(** [os.path.isabs] *)
Definition isabs (p : str) : bool := startswith p slash1.

(** [os.path.join(a, b)] *)
Definition pjoin (a b : str) : str :=
  if startswith b slash1 then b
  else match a with
       | [] => a ++ b
       | _ => if endswith a slash1 then a ++ b else a ++ slash1 ++ b
       end.

(** one round of the loop of [os.path.normpath]; [acc] is the list [new_comps],
    last component first *)
Definition np_step (initial : bool) (acc : list str) (c : str) : list str :=
  if seqb c [] || seqb c dot1 then acc
  else if negb (seqb c dotdot)
          || (negb initial && match acc with [] => true | _ => false end)
          || match acc with t :: _ => seqb t dotdot | [] => false end
  then c :: acc
  else match acc with [] => acc | _ :: t => t end.

(** [os.path.normpath] *)
Definition initial_slashes (p : str) : nat :=
  if startswith p slash1
  then if startswith p !"//" && negb (startswith p !"///") then 2 else 1
  else 0.
Definition normpath (p : str) : str :=
  match p with
  | [] => dot1
  | _ =>
      let n := initial_slashes p in
      let comps := rev (fold_left (np_step (negb (Nat.eqb n 0))) (splitc psep p) []) in
      let r := repeat psep n ++ join slash1 comps in
      match r with [] => dot1 | _ => r end
  end.

(** [os.path.dirname] *)
Definition dirname (p : str) : str :=
  let head := match rfindc psep p with Some i => firstn (S i) p | None => [] end in
  if forallb (N.eqb psep) head then head else rstrip_by (N.eqb psep) head.

(** [os.path.abspath] in the working directory [cwd] *)
Definition abspath (cwd p : str) : str :=
  normpath (if isabs p then p else pjoin cwd p).

(** [get_abs_path]  files/utils.py:56-81.  [here] is the file name of the frame
    (line 66), [cwd] the working directory of the process *)
Definition get_abs_path (cwd here : str) (dirs : list str) : str :=
  let curr_path := dirname (abspath cwd here) in                             (* 67 *)
  let previous_path := pjoin curr_path !"../" in                             (* 68 *)
  let previous_path := normpath previous_path in                             (* 69 *)
  let curr_path := fold_left pjoin dirs previous_path in                     (* 72-74 *)
  let curr_path := pjoin curr_path [] in                                     (* 75 *)
  normpath curr_path.                                                        (* 76 *)

(** ** A file system

    Files and directories by location, the list of names from the root.  There
    are no links; every directory can be searched.  [fs_perm l] tells whether
    the process may write to the file, or change the entries of the directory,
    at [l]; [fs_full] whether writing data fails. *)
Inductive node := NDir | NFile (content : str).
Record fsys := mkFs {
  fs_node : list str -> option node;
  fs_perm : list str -> bool;
  fs_full : bool
}.
Fixpoint lseqb (a b : list str) : bool :=
  match a, b with
  | [], [] => true
  | x :: a', y :: b' => seqb x y && lseqb a' b'
  | _, _ => false
  end.
Definition fs_put (l : list str) (n : option node) (f : fsys) : fsys :=
  mkFs (fun l' => if lseqb l' l then n else fs_node f l') (fs_perm f) (fs_full f).

(** the location named by an absolute path: empty names and ["."] stay, [".."]
    goes to the parent *)
Definition fs_step (l : list str) (c : str) : list str :=
  if seqb c [] || seqb c dot1 then l else if seqb c dotdot then removelast l else l ++ [c].
Definition fs_loc (p : str) : list str := fold_left fs_step (splitc psep p) [].

(** [errno] values that occur *)
Inductive errno := EACCES | EEXIST | ENOENT | ENOTDIR | EISDIR | ENOSPC.
(** exceptions of [_check_upload_dir]: [OSError] comes from [os.mkdir] and
    [os.remove], [IOError] from [open] and [file.write]; they are unrelated
    classes in Python 2 *)
Inductive derr := DInvalid (msg : str) | DOSError (e : errno) | DIOError (e : errno) | DAttr.
Inductive dres (A : Type) := DOk (a : A) | DErr (e : derr).
Arguments DOk {A}. Arguments DErr {A}.

(** the parent of a location must be a directory *)
Definition fs_parent (f : fsys) (l : list str) : option errno :=
  match fs_node f (removelast l) with
  | Some NDir => None
  | Some (NFile _) => Some ENOTDIR
  | None => Some ENOENT
  end.

(** [os.path.isdir], [os.mkdir], [open(p, "w+")], [write] and [close], [os.remove] *)
Definition fs_isdir (f : fsys) (p : str) : bool :=
  match fs_node f (fs_loc p) with Some NDir => true | _ => false end.
Definition fs_mkdir (f : fsys) (p : str) : dres unit * fsys :=
  let l := fs_loc p in
  match fs_node f l with
  | Some _ => (DErr (DOSError EEXIST), f)
  | None => match fs_parent f l with
            | Some e => (DErr (DOSError e), f)
            | None => if fs_perm f (removelast l) then (DOk tt, fs_put l (Some NDir) f)
                      else (DErr (DOSError EACCES), f)
            end
  end.
Definition fs_open_w (f : fsys) (p : str) : dres unit * fsys :=
  let l := fs_loc p in
  match fs_parent f l with
  | Some e => (DErr (DIOError e), f)
  | None =>
      match fs_node f l with
      | Some NDir => (DErr (DIOError EISDIR), f)
      | Some (NFile _) => if fs_perm f l then (DOk tt, fs_put l (Some (NFile [])) f) else (DErr (DIOError EACCES), f)
      | None => if fs_perm f (removelast l) then (DOk tt, fs_put l (Some (NFile [])) f) else (DErr (DIOError EACCES), f)
      end
  end.
Definition fs_write (f : fsys) (p data : str) : dres unit * fsys :=
  if fs_full f then (DErr (DIOError ENOSPC), f)
  else (DOk tt, fs_put (fs_loc p) (Some (NFile data)) f).
Definition fs_remove (f : fsys) (p : str) : dres unit * fsys :=
  let l := fs_loc p in
  if fs_perm f (removelast l) then (DOk tt, fs_put l None f) else (DErr (DOSError EACCES), f).

(** sequencing *)
Definition dbind {A B} (r : dres A * fsys) (k : A -> fsys -> dres B * fsys) : dres B * fsys :=
  match r with
  | (DOk a, f) => k a f
  | (DErr e, f) => (DErr e, f)
  end.

(** where the code is, and where it runs *)
Record place := mkPlace { pl_cwd : str; pl_here : str }.

(** the [try] block  settings.py:134-142 *)
Definition check_block (f : fsys) (dir : str) : dres unit * fsys :=
  dbind (if fs_isdir f dir then (DOk tt, f) else fs_mkdir f dir) (fun _ f =>  (* 135-136 *)
  let test := pjoin dir !"acdr423x.tmp" in                                   (* 138 *)
  dbind (fs_open_w f test) (fun _ f =>                                       (* 139 *)
  dbind (fs_write f test !"Permissions Check!") (fun _ f =>                  (* 140-141 *)
  fs_remove f test))).                                                       (* 142 *)

(** [Settings._check_upload_dir]  settings.py:117-149.  [normpath] of anything
    but a string raises AttributeError *)
Definition check_upload_dir (pl : place) (f : fsys) (dir : sval) (check : bool) : dres sval * fsys :=
  match dir with
  | SvStr d =>
      let d := normpath d in                                                 (* 122 *)
      let d := if negb (isabs d) || negb (fs_isdir f d)
               then get_abs_path (pl_cwd pl) (pl_here pl) [d] else d in      (* 126-129 *)
      if check
      then match check_block f d with
           | (DOk _, f1) => (DOk (SvStr d), f1)
           | (DErr (DIOError EACCES), f1) =>
               (DErr (DInvalid (!"No write permissions to directory: " ++ d)), f1)   (* 143-145 *)
           | (DErr (DIOError _), f1) =>
               (DErr (DInvalid (!"Error: Invalid directory: " ++ d)), f1)            (* 146-147 *)
           | (DErr e, f1) => (DErr e, f1)
           end
      else (DOk (SvStr d), f)                                                (* 149 *)
  | _ => (DErr DAttr, f)
  end.

(** [Settings.default]  settings.py:85-115, on a file system *)
Definition settings_default_fs (pl : place) (f : fsys) (check : bool) : dres (dict sval) * fsys :=
  let s := [(A_DIR, SvStr !"files/file_uploads"); (A_HDR, SvInt 16); (A_FMEM, SvInt (30 * (2 ^ 10 * 2 ^ 10)));
            (A_DMEM, SvInt (5 * (2 ^ 10 * 2 ^ 10))); (A_DNUM, SvInt 4096); (A_CHARSET, SvStr !"ISO-8859-1")] in
  dbind (check_upload_dir pl f (SvStr !"files/file_uploads") check) (fun d f =>
  (DOk (dset A_DIR d s), f)).

(** an option of the dictionary, or the default  settings.py:56-83 *)
Definition opt_fs (key attr : str) (d dflt s : dict sval) : dict sval :=
  match dget key d with
  | Some v => dset attr v s
  | None => match dget attr dflt with Some v => dset attr v s | None => s end
  end.

(** [Settings.__init__]  settings.py:42-83, on a file system *)
Definition settings_init_fs (pl : place) (f : fsys) (a : sarg) (check : bool) : dres (dict sval) * fsys :=
  match a with
  | SaNone | SaOther | SaDict [] => (DOk [], f)                              (* 43-44 *)
  | SaDict d =>
      dbind (settings_default_fs pl f check) (fun dflt f =>                  (* 46 *)
      dbind (match dget K_DIR d with                                         (* 49-53 *)
             | Some v => dbind (check_upload_dir pl f v true) (fun v' f => (DOk [(A_DIR, v')], f))
             | None => (DOk (opt_fs K_DIR A_DIR [] dflt []), f)
             end) (fun s f =>
      (DOk (opt_fs K_CHARSET A_CHARSET d dflt
             (opt_fs K_DNUM A_DNUM d dflt
               (opt_fs K_DMEM A_DMEM d dflt
                 (opt_fs K_FMEM A_FMEM d dflt
                   (opt_fs K_HDR A_HDR d dflt s))))), f)))
  end.
