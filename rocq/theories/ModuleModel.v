(** * Model of module_has_submodule and module_dir
    (request_parser/utils/module_loading.py:68-103) *)
From Verif Require Import Py UploadModel PathModel.

(** what is asked about a module: [__name__], [__path__] and [__file__], when they exist *)
Record pymod := mkMod { md_name : str; md_path : option (list str); md_file : option str }.

(** [imp.find_module(name, path)] of Python 2.7, which takes no dotted names: it looks for
    files and directories whose name is [name]; [fs dir name]: there is such a module file or
    package directory in [dir].  [false]: ImportError *)
Definition find_module (fs : str -> str -> bool) (name : str) (path : list str) : bool :=
  existsb (fun dir => fs dir name) path.

(** [module_has_submodule]  68-86 *)
Definition module_has_submodule (fs : str -> str -> bool) (package : pymod) (module_name : str) : bool :=
  match md_path package with
  | None => false                                                            (* 73-75 *)
  | Some path => find_module fs (md_name package ++ !"." ++ module_name) path   (* 77-86 *)
  end.

(** [module_dir]  88-103 *)
Definition module_dir (m : pymod) : res str :=
  match md_path m, md_file m with
  | Some [p], _ => Ok p                                                      (* 96-98 *)
  | _, Some f => Ok (dirname f)                                              (* 100-102 *)
  | _, None => Err ValueError                                                (* 103 *)
  end.
