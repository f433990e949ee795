(** * Theorems C115-C117: what a File says about its file, force_text and iri_to_uri on any
    value, questions about modules *)
From Coq Require Import ZifyBool ZifyN ZifyNat.
From Verif Require Import Py PyFacts PyDict CodecModel CodecFacts PercentModel PercentFacts UploadModel PathModel
  FileApiModel ForceModel ModuleModel.

(** ** C115.  A File answers for the file behind it *)
(** the size of a file in memory; the position is where it was *)
Theorem C115_size_in_memory :
  forall fs data pos, file_size fs (RBytesIO data pos false) = (Ok (SInt (Z.of_nat (length data))), RBytesIO data pos false).
Proof. reflexivity. Qed.
Print Assumptions C115_size_in_memory.
(** the bytes a file holds: those on the disk and those not written out yet *)
Definition held (f : fraw) : option str :=
  match f with RBytesIO d _ _ => Some d | RFile _ _ d p _ _ => Some (d ++ p) | _ => None end.
Definition position (f : fraw) : option nat :=
  match f with RBytesIO _ p _ => Some p | RFile _ _ _ _ p _ => Some p | _ => None end.
(** a file on the disk, open or closed: the size is that of its bytes when its name still leads to
    it and everything is written out, or when its name leads nowhere; asking changes neither the
    content nor the position *)
Theorem C115_size_on_disk_partial :
  forall fs name mode data pending pos closed, let f := RFile name mode data pending pos closed in
    (dget name fs = Some data /\ pending = []) \/ (dget name fs = None /\ closed = false) ->
    exists f', file_size fs f = (Ok (SInt (Z.of_nat (length (data ++ pending)))), f') /\
      held f' = held f /\ position f' = position f.
Proof.
  intros fs name mode data pending pos closed f [[H ->]|[H ->]]; unfold f, file_size; rewrite H.
  - rewrite app_nil_r. eexists. split; [reflexivity|easy].
  - eexists. split; [reflexivity|]. cbn. now rewrite app_nil_r.
Qed.
Print Assumptions C115_size_on_disk_partial.
(** otherwise: bytes that are written and not flushed are not counted, for every file that has some *)
Theorem C115_unflushed_refuted :
  forall fs name mode data pending pos closed, dget name fs = Some data -> pending <> [] ->
    exists n, fst (file_size fs (RFile name mode data pending pos closed)) = Ok (SInt n) /\
      (n < Z.of_nat (length (data ++ pending)))%Z.
Proof.
  intros fs name mode data pending pos closed H Hp. cbn [file_size]. rewrite H. eexists. split; [reflexivity|].
  rewrite app_length. destruct pending; [easy|]. cbn [length]. lia.
Qed.
Print Assumptions C115_unflushed_refuted.
(** and when the name leads to another file by now, its size is returned *)
Theorem C115_other_file_refuted :
  forall fs name mode data pending pos closed other, dget name fs = Some other ->
    fst (file_size fs (RFile name mode data pending pos closed)) = Ok (SInt (Z.of_nat (length other))).
Proof. intros. cbn [file_size]. now rewrite H. Qed.
Print Assumptions C115_other_file_refuted.
(** a File around a File: the size is no number at all, and [closed] cannot be asked *)
Theorem C115_nested_refuted :
  forall fs f, fst (file_size fs (RPlain f)) = Ok SMethod /\ file_closed (RPlain f) = Err TypeError /\
    file_readable (RPlain f) = Err TypeError.
Proof. intros fs f. repeat split. Qed.
Print Assumptions C115_nested_refuted.
(** around an empty uploaded file: it counts as closed *)
Theorem C115_empty_upload_closed_refuted :
  forall f, file_closed (RUploaded (Some 0%Z) f) = Ok true /\ file_readable (RUploaded (Some 0%Z) f) = Ok false /\
    file_writable (RUploaded (Some 0%Z) f) = Ok false /\ file_seekable (RUploaded (Some 0%Z) f) = Ok false.
Proof. intros f. repeat split. Qed.
Print Assumptions C115_empty_upload_closed_refuted.

(** around an uploaded file: what that file says, which may be None *)
Theorem C115_size_of_upload :
  forall fs z f, file_size fs (RUploaded z f) = (Ok (match z with Some n => SInt n | None => SNone end), RUploaded z f).
Proof. intros fs [z|] f; reflexivity. Qed.
Print Assumptions C115_size_of_upload.

(** files that are not Files themselves *)
Definition direct (f : fraw) : Prop := match f with RPlain _ | RUploaded _ _ => False | _ => True end.
Definition is_open (f : fraw) : Prop :=
  match f with RBytesIO _ _ c => c = false | RFile _ _ _ _ _ c => c = false | _ => False end.
Theorem C115_closed :
  forall f, direct f ->
    (is_open f -> file_closed f = Ok false) /\
    (~ is_open f -> file_closed f = Ok true /\ file_readable f = Ok false /\ file_writable f = Ok false /\ file_seekable f = Ok false).
Proof.
  intros [|d p c|n m d p pos c|f|z f] Hd; try easy; cbn; destruct c; cbn; (split; [intros; congruence|intros H; try now elim H]); now repeat split.
Qed.
Print Assumptions C115_closed.
Theorem C115_memory_answers :
  forall d p, file_readable (RBytesIO d p false) = Ok true /\ file_writable (RBytesIO d p false) = Ok true /\
    file_seekable (RBytesIO d p false) = Ok true.
Proof. easy. Qed.
Print Assumptions C115_memory_answers.

(** the modes of [open]: 'r', 'w' or 'a', then some of 'b', 't', '+', 'U' *)
Definition valid_mode (m : str) : Prop :=
  exists c r, m = c :: r /\ In c !"rwa" /\ forall x, In x r -> In x !"bt+U".
Definition may_read (m : str) : Prop := hd 0%N m = 114%N \/ In 43%N m.
Definition may_write (m : str) : Prop := hd 0%N m = 119%N \/ hd 0%N m = 97%N \/ In 43%N m.
(** writable() is true only of files that can be written, readable() of all that can be read *)
Theorem C115_modes_partial :
  forall n m d p pos, valid_mode m ->
    (file_writable (RFile n m d p pos false) = Ok true -> may_write m) /\
    (file_writable (RFile n m d p pos false) = Ok true <-> hd 0%N m = 119%N) /\
    (may_read m -> file_readable (RFile n m d p pos false) = Ok true).
Proof.
  intros n m d p pos (c & r & -> & Hc & Hr).
  assert (HE : file_writable (RFile n (c :: r) d p pos false) = Ok true <-> c = 119%N).
  { cbn [file_writable file_closed raw_truth bind negb]. split.
    - intros H. assert (H' : mem 119%N (c :: r) = true) by congruence. apply mem_In in H' as [H'|H']; [easy|]. clear H. rename H' into H. apply Hr in H. cbn in H. repeat destruct H as [H|H]; easy.
    - intros ->. reflexivity. }
  split; [|split; [exact HE|reflexivity]]. intros H. apply HE in H. now left.
Qed.
Print Assumptions C115_modes_partial.
(** not the other way round: files opened for appending or updating are called not writable, files
    opened for writing only are called readable *)
Theorem C115_modes_refuted :
  forall n d p pos,
    (may_write !"ab" /\ file_writable (RFile n !"ab" d p pos false) = Ok false) /\
    (may_write !"r+b" /\ file_writable (RFile n !"r+b" d p pos false) = Ok false) /\
    (~ may_read !"wb" /\ file_readable (RFile n !"wb" d p pos false) = Ok true).
Proof.
  intros. split; [split; [right; now left|reflexivity]|]. split; [split; [right; right; cbn; tauto|reflexivity]|].
  split; [|reflexivity]. intros [H|H]; [easy|]. cbn in H. repeat destruct H as [H|H]; easy.
Qed.
Print Assumptions C115_modes_refuted.
(** repr of a plain File never succeeds; that of an uploaded file names class, file and type *)
Theorem C115_repr_refuted : forall name f, file_repr name f = Err TypeError.
Proof. reflexivity. Qed.
Print Assumptions C115_repr_refuted.
(** the parts can be told from each other, if the class has no colon and the name no parenthesis *)
Theorem C115_upload_repr :
  forall cls name ctype,
    upload_repr cls name ctype = !"<" ++ cls ++ !": " ++ name ++ !" (" ++ ctype ++ !")>" /\
    forall cls' name' ctype', ~ In 58%N cls -> ~ In 58%N cls' -> ~ In 40%N name -> ~ In 40%N name' ->
      upload_repr cls name ctype = upload_repr cls' name' ctype' -> cls = cls' /\ name = name' /\ ctype = ctype'.
Proof.
  assert (HA : forall (c : N) a a' b b', ~ In c a -> ~ In c a' -> a ++ c :: b = a' ++ c :: b' -> a = a' /\ b = b').
  { intros c. induction a as [|x a IH]; intros [|x' a'] b b' H1 H2 E; cbn in E.
    - injection E as E. easy.
    - injection E as E1 E2. subst x'. elim H2. now left.
    - injection E as E1 E2. subst x. elim H1. now left.
    - injection E as <- E. destruct (IH a' b b') as [-> ->]; [intros H; apply H1; now right|intros H; apply H2; now right|exact E|easy]. }
  intros cls name ctype. split; [reflexivity|]. intros cls' name' ctype' H1 H2 H3 H4 E. unfold upload_repr in E.
  cbn [app] in E. apply (f_equal (@tl N)) in E. cbn [tl] in E. apply HA in E as [-> E]; try easy. apply (f_equal (@tl N)) in E. cbn [tl] in E.
  change (name ++ [32%N] ++ 40%N :: ctype ++ !")>" = name' ++ [32%N] ++ 40%N :: ctype' ++ !")>") in E. rewrite (app_assoc name [32%N]) in E.
  assert (HN : forall n, ~ In 40%N n -> ~ In 40%N (n ++ [32%N])) by (intros n Hn H; apply in_app_or in H as [H|[H|[]]]; easy).
  rewrite (app_assoc name' [32%N]) in E. apply HA in E as [E1 E2]; [|now apply HN|now apply HN].
  apply app_inj_tail in E1 as [-> _]. apply app_inv_tail in E2. easy.
Qed.
Print Assumptions C115_upload_repr.
Example C115_case :
  file_size [(!"/t/a", !"abc")] (RFile !"/t/a" !"w+b" !"abc" !"de" 5 false) = (Ok (SInt 3), RFile !"/t/a" !"w+b" !"abc" !"de" 5 false) /\
  file_size [] (RFile !"/t/a" !"w+b" !"abc" !"de" 5 false) = (Ok (SInt 5), RFile !"/t/a" !"w+b" !"abcde" [] 5 false) /\
  valid_mode !"w+b" /\ file_writable (RFile !"/t/a" !"w+b" [] [] 0 false) = Ok true /\
  upload_repr !"InMemoryUploadedFile" !"a.txt" !"text/plain" = !"<InMemoryUploadedFile: a.txt (text/plain)>".
Proof.
  split; [reflexivity|]. split; [reflexivity|]. split; [|split; reflexivity].
  exists 119%N, !"+b". split; [reflexivity|]. split; [cbn; tauto|].
  intros x Hx. cbn in Hx |- *. destruct Hx as [<-|[<-|[]]]; tauto.
Qed.

(** ** C116.  force_text gives the text of a value *)
(** byte strings are handed back, whatever the encoding and the error handling *)
Theorem C116_bytes_unchanged :
  forall enc so err b, force_text enc so err (VStr (PB b)) = Ok (VStr (PB b)).
Proof. reflexivity. Qed.
Print Assumptions C116_bytes_unchanged.
(** ... so that nothing is decoded and nothing refused, for any bytes, also those that are not UTF-8 *)
Theorem C116_not_decoded_refuted :
  forall reg enc err b, decode reg enc b = Err UnicodeDecodeError ->
    force_text enc false err (VStr (PB b)) = Ok (VStr (PB b)).
Proof. reflexivity. Qed.
Print Assumptions C116_not_decoded_refuted.
Theorem C116_protected_kept :
  forall enc err v, is_protected v = true -> force_text enc true err v = Ok v.
Proof. intros enc err [[b|u]| |t|t] H; easy. Qed.
Print Assumptions C116_protected_kept.
(** None, numbers and dates: kept under strings_only, their text otherwise; other objects: what [str] says *)
Theorem C116_other_values :
  forall enc so err t e,
    force_text enc true err VNil = Ok VNil /\ force_text enc true err (VProt t) = Ok (VProt t) /\
    force_text enc false err VNil = Ok (VStr (PB !"None")) /\ force_text enc false err (VProt t) = Ok (VStr (PB t)) /\
    force_text enc so err (VObj (Ok t)) = Ok (VStr (PB t)) /\
    (e <> UnicodeDecodeError -> force_text enc so err (VObj (Err e)) = Err e).
Proof.
  intros enc so err t e. repeat split; try reflexivity; try (now destruct so).
  intros H. unfold force_text. cbn [is_protected native_text]. rewrite andb_false_r. destruct e; try reflexivity. easy.
Qed.
Print Assumptions C116_other_values.
(** an object whose text cannot be decoded: not the DjangoUnicodeDecodeError of the documentation *)
Theorem C116_decode_error_refuted :
  forall enc so err, force_text enc so err (VObj (Err UnicodeDecodeError)) = Err TypeError.
Proof. intros enc [|] err; reflexivity. Qed.
Print Assumptions C116_decode_error_refuted.
(** text with ASCII characters only is returned as bytes; every other unicode text is refused *)
Theorem C116_unicode :
  forall enc so err u,
    (ascii_only u = true -> force_text enc so err (VStr (PU u)) = Ok (VStr (PB u))) /\
    (ascii_only u = false -> force_text enc so err (VStr (PU u)) = Err UnicodeEncodeError).
Proof.
  intros enc so err u. unfold force_text, native_text, to_native. cbn [is_protected]. rewrite andb_false_r.
  split; intros ->; reflexivity.
Qed.
Print Assumptions C116_unicode.
Theorem C116_unicode_refuted :
  forall enc so err u c, In c u -> (128 <= c)%N -> force_text enc so err (VStr (PU u)) = Err UnicodeEncodeError.
Proof.
  intros enc so err u c Hin Hc. apply C116_unicode. apply not_true_iff_false. intros H.
  unfold ascii_only in H. rewrite forallb_forall in H. apply H in Hin. unfold is_ascii in Hin. lia.
Qed.
Print Assumptions C116_unicode_refuted.
(** iri_to_uri: None stays None; bytes, and ASCII text of either kind, give the same URI, which is ASCII *)
Theorem C116_iri_to_uri :
  iri_to_uri_any VNil = Ok None /\
  (forall b, iri_to_uri_any (VStr (PB b)) = Ok (Some (iri_to_uri b))) /\
  (forall u, ascii_only u = true -> iri_to_uri_any (VStr (PU u)) = Ok (Some (iri_to_uri u))).
Proof.
  split; [reflexivity|]. split; [reflexivity|]. intros u H. unfold iri_to_uri_any, native_text, to_native. now rewrite H.
Qed.
Print Assumptions C116_iri_to_uri.
(** the example of its documentation, and all other unicode text outside ASCII, is refused *)
Theorem C116_iri_refuted :
  forall u c, In c u -> (128 <= c)%N -> iri_to_uri_any (VStr (PU u)) = Err UnicodeEncodeError.
Proof.
  intros u c Hin Hc. unfold iri_to_uri_any, native_text, to_native.
  destruct (ascii_only u) eqn:E; [|reflexivity]. unfold ascii_only in E. rewrite forallb_forall in E. apply E in Hin.
  unfold is_ascii in Hin. lia.
Qed.
Print Assumptions C116_iri_refuted.
Example C116_case :
  iri_to_uri_any (VStr (PB (!"/I " ++ [226; 153; 165]%N ++ !" Django/"))) = Ok (Some !"/I%20%E2%99%A5%20Django/") /\
  iri_to_uri_any (VStr (PU (!"/I " ++ [9829]%N ++ !" Django/"))) = Err UnicodeEncodeError /\
  force_text !"utf-8" false !"strict" (VStr (PB [255]%N)) = Ok (VStr (PB [255]%N)) /\
  force_text !"utf-8" false !"strict" VNil = Ok (VStr (PB !"None")).
Proof. vm_compute. repeat split. Qed.

(** ** C117.  Questions about modules *)
(** [fs dir name]: there is a module or package called [name] in the directory [dir] *)
Definition has_sub (fs : str -> str -> bool) (m : pymod) (n : str) : Prop :=
  exists path dir, md_path m = Some path /\ In dir path /\ fs dir n = true.
(** no package, no submodules *)
Theorem C117_not_a_package : forall fs m n, md_path m = None -> module_has_submodule fs m n = false.
Proof. intros fs m n H. unfold module_has_submodule. now rewrite H. Qed.
Print Assumptions C117_not_a_package.
(** the answer is about files whose own name has the dots: *)
Theorem C117_looks_for :
  forall fs m n, module_has_submodule fs m n = true <-> has_sub fs m (md_name m ++ !"." ++ n).
Proof.
  intros fs m n. unfold module_has_submodule, has_sub, find_module. destruct (md_path m) as [path|].
  - rewrite existsb_exists. split; [intros (d & H1 & H2); now exists path, d|intros (p & d & [= <-] & H1 & H2); now exists d].
  - split; [easy|]. intros (p & d & H & _). easy.
Qed.
Print Assumptions C117_looks_for.
(** so that it is no for every submodule, wherever module names have no dots *)
Theorem C117_submodules_refuted :
  forall fs m n, (forall d x, fs d x = true -> ~ In 46%N x) -> module_has_submodule fs m n = false.
Proof.
  intros fs m n H. destruct (module_has_submodule fs m n) eqn:E; [|reflexivity].
  apply C117_looks_for in E as (p & d & _ & _ & E). apply H in E. elim E. apply in_or_app. right. now left.
Qed.
Print Assumptions C117_submodules_refuted.
Definition ex_mod_fs (dir name : str) : bool := seqb dir !"/srv/app" && seqb name !"views".
Definition ex_pkg : pymod := mkMod !"app" (Some [!"/srv/app"]) (Some !"/srv/app/__init__.py").
Example C117_case : has_sub ex_mod_fs ex_pkg !"views" /\ module_has_submodule ex_mod_fs ex_pkg !"views" = false /\
  (forall d x, ex_mod_fs d x = true -> ~ In 46%N x).
Proof.
  split; [exists [!"/srv/app"], !"/srv/app"; split; [reflexivity|]; split; [now left|reflexivity]|]. split; [reflexivity|].
  intros d x H. apply andb_true_iff in H as [_ H]. apply seqb_eq in H as ->. intros H.
  cbn in H. repeat destruct H as [H|H]; easy.
Qed.

(** the directory of a module: that of the package, or the one its file lies in *)
Lemma rstrip_slash d : last d 0%N <> 47%N -> d <> [] -> rstrip_by (N.eqb psep) (d ++ [psep]) = d.
Proof.
  intros H Hd. unfold rstrip_by. rewrite rev_app_distr. cbn [rev app lstrip_by]. rewrite N.eqb_refl.
  destruct (rev d) as [|c r] eqn:E.
  { apply (f_equal (@length N)) in E. rewrite rev_length in E. now destruct d. }
  assert (Ed : d = rev r ++ [c]) by now rewrite <- (rev_involutive d), E.
  rewrite Ed, last_last in H. cbn [lstrip_by]. destruct (N.eqb_spec psep c) as [<-|_]; [now elim H|].
  rewrite <- E. apply rev_involutive.
Qed.
Theorem C117_module_dir :
  (forall name d file, module_dir (mkMod name (Some [d]) file) = Ok d) /\
  (forall m d base, (forall p, md_path m <> Some [p]) -> md_file m = Some (d ++ !"/" ++ base) -> ~ In 47%N base ->
     d <> [] -> last d 0%N <> 47%N -> module_dir m = Ok d) /\
  (forall m, (forall p, md_path m <> Some [p]) -> md_file m = None -> module_dir m = Err ValueError).
Proof.
  assert (HM : forall m, (forall p, md_path m <> Some [p]) ->
            module_dir m = match md_file m with Some f => Ok (dirname f) | None => Err ValueError end).
  { intros m H. unfold module_dir. destruct (md_path m) as [[|p [|]]|]; try reflexivity. now elim (H p). }
  split; [reflexivity|]. split.
  - intros m d base H Hf Hb Hd Hl. rewrite HM by exact H. rewrite Hf. f_equal. unfold dirname.
    change (d ++ !"/" ++ base) with (d ++ psep :: base). rewrite rfindc_app by exact Hb.
    assert (EF : firstn (S (length d)) (d ++ psep :: base) = d ++ [psep]).
    { change (psep :: base) with ([psep] ++ base). rewrite app_assoc.
      replace (S (length d)) with (length (d ++ [psep])) by (rewrite app_length; cbn; lia). apply firstn_app_exact. }
    rewrite EF.
    destruct (forallb (N.eqb psep) (d ++ [psep])) eqn:E; [|now apply rstrip_slash].
    exfalso. rewrite forallb_app in E. apply andb_true_iff in E as [E _]. rewrite forallb_forall in E.
    destruct (last_nonnil d 0%N Hd) as [d' Hd']. apply Hl. symmetry. apply N.eqb_eq. apply E. rewrite Hd' at 2. apply in_or_app. right. now left.
  - intros m H Hf. rewrite HM by exact H. now rewrite Hf.
Qed.
Print Assumptions C117_module_dir.
(** the documentation promises a ValueError for packages that lie in several directories: not when
    they have a file *)
Theorem C117_split_package_refuted :
  forall name p q r f, module_dir (mkMod name (Some (p :: q :: r)) (Some f)) = Ok (dirname f).
Proof. reflexivity. Qed.
Print Assumptions C117_split_package_refuted.
Example C117_dir_case : module_dir (mkMod !"m" None (Some !"/srv/a/m.py")) = Ok !"/srv/a" /\
  module_dir (mkMod !"sys" None None) = Err ValueError /\
  module_dir (mkMod !"ns" (Some [!"/a/ns"; !"/b/ns"]) (Some !"/a/ns/__init__.py")) = Ok !"/a/ns".
Proof. vm_compute. repeat split. Qed.
