(** * Theorems about loading handlers and about closing and reopening files: C103-C105 *)
From Verif Require Import Py PyFacts PyDict LoadModel LifeModel LifeFacts.

(** ** C103: handlers are loaded by their dotted names *)
Lemma rsplit1_dot m a : ~ In ldot a -> rsplit1 ldot (m ++ ldot :: a) = Some (m, a).
Proof.
  intros H. unfold rsplit1. rewrite rfindc_app by exact H. rewrite firstn_app, firstn_all, Nat.sub_diag. cbn [firstn].
  rewrite app_nil_r. replace (S (length m)) with (length (m ++ [ldot])) by (rewrite app_length; cbn; lia).
  replace (m ++ ldot :: a) with ((m ++ [ldot]) ++ a) by now rewrite <- app_assoc.
  now rewrite skipn_app, skipn_all, Nat.sub_diag.
Qed.
Lemma rsplit1_inv p m a : rsplit1 ldot p = Some (m, a) -> p = m ++ ldot :: a /\ ~ In ldot a.
Proof.
  unfold rsplit1. destruct (rfindc ldot p) as [i|] eqn:E; [|discriminate]. intros [= <- <-].
  apply rfindc_Some in E as (H1 & H2 & H3). split; [exact H1|exact H2].
Qed.

Lemma starts_dot c m : startswith (c :: m) !"." = N.eqb c ldot.
Proof. unfold startswith. change !"." with [ldot]. cbn [prefixb]. rewrite andb_true_r. apply N.eqb_sym. Qed.

Theorem C103_resolves :
  forall (V : Type) (mods : str -> res (dict V)) p v,
  import_string mods p = Ok v <->
  exists m a attrs, p = m ++ !"." ++ a /\ ~ In 46%N a /\ m <> [] /\ startswith m !"." = false /\
    mods m = Ok attrs /\ dget a attrs = Some v.
Proof.
  intros V mods p v. unfold import_string. split.
  - destruct (rsplit1 ldot p) as [[m a]|] eqn:E; [|discriminate]. apply rsplit1_inv in E as [-> Ha].
    destruct m as [|c m]; [discriminate|]. cbn [import_module]. destruct (N.eqb_spec c ldot) as [->|Hc]; [discriminate|].
    destruct (mods (c :: m)) as [attrs|e] eqn:Em; cbn [bind]; [|discriminate].
    destruct (dget a attrs) as [w|] eqn:Eg; [|discriminate]. intros [= ->].
    exists (c :: m), a, attrs. repeat split; try assumption; [discriminate|].
    rewrite starts_dot. now apply N.eqb_neq.
  - intros (m & a & attrs & -> & Ha & Hm & Hs & Em & Eg). change !"." with [ldot]. cbn [app]. rewrite rsplit1_dot by exact Ha.
    destruct m as [|c m]; [easy|]. cbn [import_module]. rewrite starts_dot in Hs.
    rewrite Hs. rewrite Em. cbn [bind]. now rewrite Eg.
Qed.
Print Assumptions C103_resolves.

Definition ex_mods (name : str) : res (dict N) :=
  if seqb name !"request_parser.files.uploadhandler"
  then Ok [(!"MemoryFileUploadHandler", 1%N); (!"ConvenientFileUploadHandler", 3%N)] else Err ImportError.
Example C103_case :
  import_string ex_mods !"request_parser.files.uploadhandler.ConvenientFileUploadHandler" = Ok 3%N.
Proof. vm_compute. reflexivity. Qed.

(** the documented ImportError is raised only when importing the module raises
    it: a name without a dot and an unknown attribute are TypeErrors *)
Theorem C103_import_error :
  forall (V : Type) (mods : str -> res (dict V)) p,
  import_string mods p = Err ImportError <->
  exists m a, p = m ++ !"." ++ a /\ ~ In 46%N a /\ m <> [] /\ startswith m !"." = false /\ mods m = Err ImportError.
Proof.
  intros V mods p. unfold import_string. split.
  - destruct (rsplit1 ldot p) as [[m a]|] eqn:E; [|discriminate]. apply rsplit1_inv in E as [-> Ha].
    destruct m as [|c m]; [discriminate|]. cbn [import_module]. destruct (N.eqb_spec c ldot) as [->|Hc]; [discriminate|].
    destruct (mods (c :: m)) as [attrs|e] eqn:Em; cbn [bind]; [destruct (dget a attrs); discriminate|].
    intros [= ->]. exists (c :: m), a. repeat split; try assumption; [discriminate|].
    rewrite starts_dot. now apply N.eqb_neq.
  - intros (m & a & -> & Ha & Hm & Hs & Em). change !"." with [ldot]. cbn [app]. rewrite rsplit1_dot by exact Ha.
    destruct m as [|c m]; [easy|]. cbn [import_module]. rewrite starts_dot in Hs.
    rewrite Hs. now rewrite Em.
Qed.
Print Assumptions C103_import_error.
Theorem C103_import_error_refuted :
  (forall (V : Type) (mods : str -> res (dict V)) p, ~ In 46%N p -> import_string mods p = Err TypeError) /\
  (forall (V : Type) (mods : str -> res (dict V)) m a attrs, ~ In 46%N a -> m <> [] -> startswith m !"." = false ->
     mods m = Ok attrs -> dget a attrs = None -> import_string mods (m ++ !"." ++ a) = Err TypeError).
Proof.
  split.
  - intros V mods p H. unfold import_string, rsplit1. apply rfindc_None in H. change 46%N with ldot in H. now rewrite H.
  - intros V mods m a attrs Ha Hm Hs Em Eg. unfold import_string. change !"." with [ldot]. cbn [app].
    rewrite rsplit1_dot by exact Ha.
    destruct m as [|c m]; [easy|]. cbn [import_module]. rewrite starts_dot in Hs.
    rewrite Hs. rewrite Em. cbn [bind]. now rewrite Eg.
Qed.
Print Assumptions C103_import_error_refuted.

(** the handlers of a request: one object per name, in the order of the
    setting; the first name that cannot be loaded decides, and then the request
    has no handlers, so that the next access tries again; handlers that are
    there are never replaced *)
Theorem C103_handlers :
  forall (V H : Type) (mods : str -> res (dict V)) (call : V -> res H) paths,
  (forall hs, get_handlers mods call [] paths = (Ok hs, hs) <->
     Forall2 (fun p h => exists v, import_string mods p = Ok v /\ call v = Ok h) paths hs) /\
  (forall e, (exists cur, get_handlers mods call [] paths = (Err e, cur)) <->
     exists before p after, paths = before ++ p :: after /\
       (import_string mods p = Err e \/ exists v, import_string mods p = Ok v /\ call v = Err e) /\
       Forall (fun q => exists v h, import_string mods q = Ok v /\ call v = Ok h) before) /\
  (forall e cur, get_handlers mods call [] paths = (Err e, cur) -> cur = []) /\
  (forall cur, cur <> [] -> get_handlers mods call cur paths = (Ok cur, cur)).
Proof.
  intros V H mods call paths. unfold get_handlers.
  assert (L1 : forall ps hs, load_all mods call ps = Ok hs <->
      Forall2 (fun p h => exists v, import_string mods p = Ok v /\ call v = Ok h) ps hs).
  { induction ps as [|p ps IH]; intros hs; cbn [load_all].
    - split; [intros [= <-]; constructor|intros F; now inversion F].
    - unfold load_handler at 1. destruct (import_string mods p) as [v|e] eqn:Ei; cbn [bind].
      + destruct (call v) as [h|e] eqn:Ec; cbn [bind].
        * destruct (load_all mods call ps) as [hs'|e] eqn:El; cbn [bind]; split.
          -- intros [= <-]. constructor; [eauto|now apply IH].
          -- intros F. inversion F as [|? h' ? ? (v' & E1 & E2) F']; subst. apply IH in F'. congruence.
          -- discriminate.
          -- intros F. inversion F as [|? h' ? ? (v' & E1 & E2) F']; subst. apply IH in F'. congruence.
        * split; [discriminate|]. intros F. inversion F as [|? h' ? ? (v' & E1 & E2) F']; subst. congruence.
      + split; [discriminate|]. intros F. inversion F as [|? h' ? ? (v' & E1 & E2) F']; subst. congruence. }
  assert (L2 : forall ps e, load_all mods call ps = Err e <->
      exists before p after, ps = before ++ p :: after /\ load_handler mods call p = Err e /\
        Forall (fun q => exists h, load_handler mods call q = Ok h) before).
  { induction ps as [|p ps IH]; intros e; cbn [load_all].
    - split; [discriminate|]. intros (before & q & after & E & _). now destruct before.
    - destruct (load_handler mods call p) as [h|e'] eqn:El; cbn [bind].
      + destruct (load_all mods call ps) as [hs|e'] eqn:Ea; cbn [bind]; split.
        * discriminate.
        * intros ([|b before] & q & after & [= -> ->] & E & F); [congruence|]. inversion F; subst.
          assert (G : Ok hs = Err e) by (apply IH; exists before, q, after; auto). discriminate.
        * intros [= ->]. destruct (proj1 (IH e) eq_refl) as (before & q & after & -> & E & F).
          exists (p :: before), q, after. repeat split; [exact E|]. constructor; [eauto|exact F].
        * intros ([|b before] & q & after & [= -> ->] & E & F); [congruence|]. inversion F; subst.
          assert (G : Err e' = Err (A := list H) e) by (apply IH; exists before, q, after; auto). congruence.
      + split.
        * intros [= ->]. exists [], p, ps. repeat split; [exact El|constructor].
        * intros ([|b before] & q & after & [= -> ->] & E & F); [congruence|]. inversion F as [|? ? (h & Eh) _]; subst. congruence. }
  assert (L3 : forall p e, load_handler mods call p = Err e <->
      import_string mods p = Err e \/ exists v, import_string mods p = Ok v /\ call v = Err e).
  { intros p e. unfold load_handler. destruct (import_string mods p) as [v|e']; cbn [bind]; split.
    - eauto.
    - intros [[=]|(v' & [= <-] & E)]; exact E.
    - intros [= ->]. now left.
    - intros [[= ->]|(v' & [=] & _)]; reflexivity. }
  assert (L4 : forall p, (exists h, load_handler mods call p = Ok h) <->
      exists v h, import_string mods p = Ok v /\ call v = Ok h).
  { intros p. unfold load_handler. destruct (import_string mods p) as [v|e']; cbn [bind]; split.
    - intros (h & E). eauto.
    - intros (v' & h & [= <-] & E). eauto.
    - intros (h & [=]).
    - intros (v' & h & [=] & _). }
  split; [|split; [|split]].
  - intros hs. rewrite <- L1. destruct (load_all mods call paths) as [hs'|e]; split; congruence.
  - intros e. transitivity (load_all mods call paths = Err e); [|rewrite L2].
    2:{ split; intros (before & p & after & E & Hp & F); exists before, p, after;
          (split; [exact E|split; [now apply L3|]]);
          (eapply Forall_impl; [|exact F]); intros q; apply L4. }
    destruct (load_all mods call paths) as [hs'|e']; split.
    + intros (cur & [=]).
    + discriminate.
    + intros (cur & [= -> <-]). reflexivity.
    + intros [= ->]. eauto.
  - intros e cur. destruct (load_all mods call paths); congruence.
  - intros [|h cur] Hc; [easy|reflexivity].
Qed.
Print Assumptions C103_handlers.
Example C103_handlers_case :
  let conv := !"request_parser.files.uploadhandler.ConvenientFileUploadHandler" in
  let mem := !"request_parser.files.uploadhandler.MemoryFileUploadHandler" in
  get_handlers ex_mods (fun n => Ok (n + 10)%N) [] [mem; conv] = (Ok [11%N; 13%N], [11%N; 13%N]) /\
  get_handlers ex_mods (fun n => Ok (n + 10)%N) [] [mem; !"nodot"; conv] = (Err TypeError, []) /\
  get_handlers ex_mods (fun n => Ok (n + 10)%N) [7%N] [mem] = (Ok [7%N], [7%N]).
Proof. repeat split; vm_compute; reflexivity. Qed.

(** ** C104: closing a request closes its files *)
(** the paths of temporary files that are not closed yet *)
Definition to_remove (fs : list (str * list lfile)) : list str :=
  flat_map (fun f => match lf_file f with OTemp p => if lf_closed f then [] else [p] | _ => [] end) (flat_map snd fs).

Theorem C104_closes_partial :
  forall d fs, wf d -> NoDup (to_remove fs) -> (forall p, In p (to_remove fs) -> exists c, dget p d = Some c) ->
  exists d' fs', request_close d (Some fs) = (LOk tt, (d', Some fs')) /\
    map fst fs' = map fst fs /\
    flat_map snd fs' = map (fun f => mkLF (lf_name f) (lf_file f) true) (flat_map snd fs) /\
    (forall p, In p (to_remove fs) -> dget p d' = None) /\
    (forall p, ~ In p (to_remove fs) -> dget p d' = dget p d).
Proof.
  intros d fs Hw Hn Hd. change (to_remove fs) with (open_paths (all_files fs)) in *.
  destruct (close_fields_ok fs d Hw) as (d' & E & W).
  { apply Forall_forall. intros p Hp. destruct (Hd p Hp) as [c Hc]. apply dmem_In.
    apply dget_Some_In in Hc. apply (in_map fst) in Hc. exact Hc. }
  { exact Hn. }
  exists d', (map (fun e => (fst e, map closed_copy (snd e))) fs). unfold request_close. rewrite E.
  split; [reflexivity|]. split; [rewrite map_map; reflexivity|]. split.
  - clear. induction fs as [|[k l] fs IH]; [reflexivity|]. cbn [map flat_map fst snd]. rewrite map_app. now rewrite IH.
  - split; intros p Hp; rewrite W.
    + apply existsb_In in Hp. now rewrite Hp.
    + destruct (existsb (seqb p) _) eqn:Ex; [|reflexivity]. apply existsb_In in Ex. easy.
Qed.
Print Assumptions C104_closes_partial.

Definition ex_files : list (str * list lfile) :=
  [(!"doc", [mkLF !"a.txt" (OTemp !"/tmp/t1.upload.txt") false; mkLF !"b.txt" (OMem !"b") false]);
   (!"img", [mkLF !"c.png" (OTemp !"/tmp/t2.upload.png") false])].
Definition ex_disk : disk := [(!"/tmp/t1.upload.txt", !"one"); (!"/etc/x", !"kept"); (!"/tmp/t2.upload.png", !"two")].
Example C104_case :
  wf ex_disk /\ to_remove ex_files = [!"/tmp/t1.upload.txt"; !"/tmp/t2.upload.png"] /\
  fst (snd (request_close ex_disk (Some ex_files))) = [(!"/etc/x", !"kept")].
Proof.
  split; [|split; vm_compute; reflexivity].
  unfold wf. vm_compute. repeat constructor; cbn; intuition discriminate.
Qed.

(** without files there is nothing to do; what is closed cannot be read any more *)
Theorem C104_no_files : forall d, request_close d None = (LOk tt, (d, None)).
Proof. reflexivity. Qed.
Print Assumptions C104_no_files.
Theorem C104_unreadable :
  forall d fs r d' fs', request_close d (Some fs) = (r, (d', Some fs')) ->
  (r = LOk tt -> forall f d2, In f (flat_map snd fs') -> u_content d2 f = None) /\
  forall f d2, In f (flat_map snd fs') -> u_content d2 f = None \/ In f (flat_map snd fs).
Proof.
  assert (HC : forall d f r d' f', u_close d f = (r, (d', f')) -> lf_closed f' = true).
  { intros d [n [c|p|p] cl] r d' f'; unfold u_close, inner_close; cbn [lf_file lf_closed lf_name]; [intros E; now injection E as <- <- <-| |intros E; now injection E as <- <- <-].
    destruct cl; [intros E; now injection E as <- <- <-|]. destruct (dmem p d); intros E; now injection E as <- <- <-. }
  assert (HU : forall d f, lf_closed f = true -> u_content d f = None) by (intros d f H; unfold u_content; now rewrite H).
  assert (HL : forall l d r d' l', close_list d l = (r, (d', l')) ->
     (r = LOk tt -> forall f, In f l' -> lf_closed f = true) /\ forall f, In f l' -> lf_closed f = true \/ In f l).
  { induction l as [|f l IH]; intros d r d' l' E; cbn [close_list] in E; [injection E as <- <- <-; split; [easy|tauto]|].
    destruct (u_close d f) as [[u|e] [d1 f1]] eqn:E1; pose proof (HC _ _ _ _ _ E1) as H1.
    - destruct (close_list d1 l) as [x [d2 r2]] eqn:E2. injection E as <- <- <-. destruct (IH _ _ _ _ E2) as [I1 I2]. split.
      + intros Hx g [<-|Hg]; [exact H1|now apply I1].
      + intros g [<-|Hg]; [now left|]. destruct (I2 g Hg) as [H|H]; [now left|right; now right].
    - injection E as <- <- <-. split; [discriminate|]. intros g [<-|Hg]; [now left|right; now right]. }
  assert (HF : forall fs d r d' fs', close_fields d fs = (r, (d', fs')) ->
     (r = LOk tt -> forall f, In f (flat_map snd fs') -> lf_closed f = true) /\ forall f, In f (flat_map snd fs') -> lf_closed f = true \/ In f (flat_map snd fs)).
  { induction fs as [|[k l] fs IH]; intros d r d' fs' E; cbn [close_fields] in E; [injection E as <- <- <-; split; [easy|tauto]|].
    destruct (close_list d l) as [[u|e] [d1 l1]] eqn:E1; destruct (HL _ _ _ _ _ E1) as [L1 L2].
    - destruct (close_fields d1 fs) as [x [d2 r2]] eqn:E2. injection E as <- <- <-. destruct (IH _ _ _ _ E2) as [I1 I2]. destruct u. split.
      + intros Hx g Hg. cbn [flat_map snd] in Hg. apply in_app_or in Hg as [Hg|Hg]; [now apply L1|now apply I1].
      + intros g Hg. cbn [flat_map snd] in *. rewrite in_app_iff. apply in_app_or in Hg as [Hg|Hg]; [specialize (L2 g Hg)|specialize (I2 g Hg)]; tauto.
    - injection E as <- <- <-. split; [discriminate|]. intros g Hg. cbn [flat_map snd] in *. rewrite in_app_iff. apply in_app_or in Hg as [Hg|Hg]; [specialize (L2 g Hg)|]; tauto. }
  intros d fs r d' fs' E. unfold request_close in E. destruct (close_fields d fs) as [x [d1 fs1]] eqn:E1. injection E as <- <- <-.
  destruct (HF _ _ _ _ _ E1) as [F1 F2]. split.
  - intros Hr f d2 Hf. apply HU. now apply F1.
  - intros f d2 Hf. destruct (F2 f Hf) as [H|H]; [left; now apply HU|now right].
Qed.
Print Assumptions C104_unreadable.

(** a second call changes nothing *)
Theorem C104_again :
  forall d fs, (forall f, In f (flat_map snd fs) -> lf_closed f = true) ->
  request_close d (Some fs) = (LOk tt, (d, Some fs)).
Proof.
  intros d fs H. unfold request_close.
  assert (E : close_fields d fs = (LOk tt, (d, fs))).
  { induction fs as [|[k l] fs IH]; [reflexivity|]. cbn [close_fields flat_map snd] in *.
    assert (El : close_list d l = (LOk tt, (d, l))).
    { clear IH. induction l as [|f l IHl]; [reflexivity|]. cbn [close_list].
      assert (Ef : u_close d f = (LOk tt, (d, f))).
      { specialize (H f (or_introl eq_refl)). destruct f as [n [c|p|p] cl]; cbn [lf_closed] in H; subst cl; reflexivity. }
      rewrite Ef, IHl; [reflexivity|]. intros g Hg. apply H. cbn. now right. }
    rewrite El, IH; [reflexivity|]. intros f Hf. apply H. apply in_or_app. now right. }
  now rewrite E.
Qed.
Print Assumptions C104_again.

(** what is missing: a temporary file that was moved away makes close() raise
    OSError (the code expects IOError), whatever the other files are, and the
    files that come after it stay open and on the disk *)
Theorem C104_moved_refuted :
  forall d k name p after rest, wf d -> dmem p d = false ->
  request_close d (Some ((k, mkLF name (OTemp p) false :: after) :: rest)) =
    (LErr LOSError, (d, Some ((k, mkLF name (OTemp p) true :: after) :: rest))).
Proof.
  intros d k name p after rest Hw Hp. unfold request_close. cbn [close_fields close_list].
  rewrite (u_close_moved d _ p) by easy. reflexivity.
Qed.
Print Assumptions C104_moved_refuted.
Theorem C104_moved_anywhere :
  forall d fs p, In p (to_remove fs) -> dget p d = None ->
  exists w, request_close d (Some fs) = (LErr LOSError, w).
Proof.
  intros d fs p Hp Hd. destruct (close_fields_missing fs d p Hp Hd) as [w E]. unfold request_close. rewrite E.
  destruct w as [d1 fs1]. eauto.
Qed.
Print Assumptions C104_moved_anywhere.
Example C104_moved_case :
  let '(r, (d, fs)) := request_close (ddel !"/tmp/t1.upload.txt" ex_disk) (Some ex_files) in
  r = LErr LOSError /\ dget !"/tmp/t2.upload.png" d = Some !"two" /\
  exists fs', fs = Some fs' /\ map lf_closed (flat_map snd fs') = [true; false; false].
Proof. vm_compute. split; [reflexivity|]. split; [reflexivity|]. eexists. split; reflexivity. Qed.

(** ** C105: reopening an uploaded file *)
(** an open file is rewound and unchanged; a closed file in memory, or one whose
    name is not the name of a file, is a ValueError *)
Theorem C105_reopen_partial :
  forall d f,
  (lf_closed f = false -> u_open d f = (LOk tt, (d, f))) /\
  (lf_closed f = true -> (exists c, lf_file f = OMem c) \/ dget (lf_name f) d = None -> u_open d f = (LErr LValueError, (d, f))).
Proof.
  intros d f. destruct f as [n x cl]; cbn [lf_closed lf_file lf_name]. split.
  - intros ->. destruct x; reflexivity.
  - intros -> [[c ->]|H]; [reflexivity|]. unfold u_open. cbn [lf_file lf_closed lf_name negb].
    apply dget_None_notin in H.
    assert (Hm : dmem n d = false).
    { destruct (dmem n d) eqn:E; [|reflexivity]. apply dmem_In in E. easy. }
    rewrite Hm. destruct x; [reflexivity|destruct n; reflexivity|destruct n; reflexivity].
Qed.
Print Assumptions C105_reopen_partial.

(** but a closed temporary file is reopened under the name the client chose:
    a file of that name in the working directory is emptied *)
Theorem C105_reopen_refuted :
  forall d name p c x, wf d -> name <> [] -> name <> p -> dget p d = Some c -> dget name d = Some x ->
  let f := mkLF name (OTemp p) false in
  exists d1 f1 d2 f2, u_content d f = Some c /\ u_close d f = (LOk tt, (d1, f1)) /\ u_open d1 f1 = (LOk tt, (d2, f2)) /\
    u_content d2 f2 = Some [] /\ dget name d2 = Some [].
Proof.
  intros d name p c x Hw Hn Hne Hp Hx f.
  assert (Hm : dmem p d = true) by (apply dmem_In; apply dget_Some_In in Hp; apply (in_map fst) in Hp; exact Hp).
  exists (ddel p d), (mkLF name (OTemp p) true), (dset name [] (ddel p d)), (mkLF name (ODisk name) false).
  split; [exact Hp|]. split; [unfold u_close, inner_close; cbn [f lf_file lf_closed lf_name]; now rewrite Hm|].
  split; [|split; [cbn; apply dget_dset_same|apply dget_dset_same]].
  assert (Hm2 : dmem name (ddel p d) = true).
  { apply dmem_In. rewrite <- (dget_ddel_other name p d Hne) in Hx. apply dget_Some_In in Hx. apply (in_map fst) in Hx. exact Hx. }
  unfold u_open. cbn [lf_file lf_closed lf_name negb]. rewrite Hm2. now destruct name.
Qed.
Print Assumptions C105_reopen_refuted.
Example C105_case :
  let d := [(!"/tmp/t1.upload.txt", !"one"); (!"settings.py", !"SECRET")] in
  let f := mkLF !"settings.py" (OTemp !"/tmp/t1.upload.txt") false in
  let '(_, (d1, f1)) := u_close d f in
  let '(r, (d2, f2)) := u_open d1 f1 in
  r = LOk tt /\ d2 = [(!"settings.py", [])].
Proof. vm_compute. split; reflexivity. Qed.
