(** * C158: what is done with an uploaded file touches only its own temporary file *)
From Verif Require Import Py PyFacts PyDict LifeModel.

(** ** Programs over one uploaded file *)
(** the methods, and blocks of the [with] statement; [SRaise]: anything else in the block that raises an exception *)
Inductive stmt := SOpen | SClose | SRead | SWrite (data : str) | SRaise | SWith (b : list stmt).

(** [read], [chunks], iteration: base.py:47-97, utils.py:19; a closed file raises ValueError *)
Definition u_read (f : lfile) : lres unit := if lf_closed f then LErr LValueError else LOk tt.
(** [write], utils.py:26: that of the inner file; here it appends; what is written to a
    file that has been removed is not seen *)
Definition u_write (data : str) (d : disk) (f : lfile) : lres unit * (disk * lfile) :=
  if lf_closed f then (LErr LValueError, (d, f))
  else match lf_file f with
       | OMem c => (LOk tt, (d, mkLF (lf_name f) (OMem (c ++ data)) false))
       | OTemp p | ODisk p => (LOk tt, (match dget p d with Some c => dset p (c ++ data) d | None => d end, f))
       end.
(** [TemporaryUploadedFile.temporary_file_path]  uploadedfile.py:65-67; the other class does not have it *)
Definition u_path (f : lfile) : option str := match lf_file f with OMem _ => None | OTemp p | ODisk p => Some p end.

(** a statement; [with]: [__enter__] and [__exit__]  base.py:99-103, the block ends at the first exception, the file is
    closed, and the exception goes on, unless close() raises another *)
Fixpoint step (s : stmt) (w : disk * lfile) : lres unit * (disk * lfile) :=
  match s with
  | SOpen => u_open (fst w) (snd w)
  | SClose => u_close (fst w) (snd w)
  | SRead => (u_read (snd w), w)
  | SWrite data => u_write data (fst w) (snd w)
  | SRaise => (LErr LOSError, w)
  | SWith b =>
      let (x, w1) := (fix block (b : list stmt) (w : disk * lfile) : lres unit * (disk * lfile) :=
                        match b with
                        | [] => (LOk tt, w)
                        | s :: r => match step s w with (LOk _, w1) => block r w1 | (LErr e, w1) => (LErr e, w1) end
                        end) b w in
      match u_close (fst w1) (snd w1) with (LOk _, w2) => (x, w2) | (LErr e, w2) => (LErr e, w2) end
  end.
(** a program that catches what each statement raises and goes on *)
Definition history (ss : list stmt) (w : disk * lfile) : disk * lfile := fold_left (fun w s => snd (step s w)) ss w.

(** ** Proof *)
Section Keep.
  Context (I : disk * lfile -> Prop).
  Context (Ho : forall w, I w -> I (snd (u_open (fst w) (snd w)))) (Hc : forall w, I w -> I (snd (u_close (fst w) (snd w))))
          (Hw : forall x w, I w -> I (snd (u_write x (fst w) (snd w)))).
  Lemma step_keeps : forall s w, I w -> I (snd (step s w)).
  Proof.
    fix IH 1. intros s w H. destruct s as [| | |x| |b]; cbn [step snd]; auto.
    assert (HB : forall b w, I w -> I (snd ((fix block (b : list stmt) (w : disk * lfile) : lres unit * (disk * lfile) :=
                        match b with
                        | [] => (LOk tt, w)
                        | s :: r => match step s w with (LOk _, w1) => block r w1 | (LErr e, w1) => (LErr e, w1) end
                        end) b w))).
    { clear b w H. fix IHb 1. intros b w H. destruct b as [|s b]; [exact H|]. pose proof (IH s w H) as H1. destruct (step s w) as [[u|e] w1]; cbn [snd] in H1; [|exact H1].
      exact (IHb b w1 H1). }
    specialize (HB b w H). destruct (_ b w) as [x w1]. cbn [snd] in HB. specialize (Hc w1 HB). now destruct (u_close (fst w1) (snd w1)) as [[u|e] w2].
  Qed.
  Lemma history_keeps : forall ss w, I w -> I (history ss w).
  Proof. induction ss as [|s ss IH]; intros w H; [exact H|]. cbn. apply IH. now apply step_keeps. Qed.
End Keep.

(** a file in memory: the disk is not touched at all *)
Theorem C158_memory : forall ss d n c cl, fst (history ss (d, mkLF n (OMem c) cl)) = d.
Proof.
  intros ss d n c cl. apply (history_keeps (fun w => fst w = d /\ exists c, lf_file (snd w) = OMem c)); [..|now split; [|exists c]].
  - intros [d1 f] [H1 [c1 H2]]. cbn [fst snd] in *. unfold u_open. rewrite H2. destruct (lf_closed f); cbn [fst snd]; eauto.
  - intros [d1 f] [H1 [c1 H2]]. cbn [fst snd] in *. unfold u_close, inner_close. rewrite H2. cbn [fst snd lf_file]. eauto.
  - intros x [d1 f] [H1 [c1 H2]]. cbn [fst snd] in *. unfold u_write. rewrite H2. destruct (lf_closed f); cbn [fst snd lf_file]; eauto.
Qed.
Print Assumptions C158_memory.
(** whatever is done, a with statement leaves the file closed *)
Theorem C158_with_closes : forall b w, lf_closed (snd (snd (step (SWith b) w))) = true.
Proof.
  intros b w. cbn [step]. destruct (_ b w) as [x [d f]]. cbn [fst snd]. unfold u_close, inner_close.
  destruct (lf_file f); cbn [snd lf_closed]; try reflexivity. destruct (lf_closed f) eqn:E; [exact E|]. now destruct (dmem path d).
Qed.
Print Assumptions C158_with_closes.
(** the statements one after the other, up to the first exception *)
Inductive runs : list stmt -> disk * lfile -> lres unit -> disk * lfile -> Prop :=
| runs_end w : runs [] w (LOk tt) w
| runs_next s b w w1 x w2 : step s w = (LOk tt, w1) -> runs b w1 x w2 -> runs (s :: b) w x w2
| runs_stop s b w e w1 : step s w = (LErr e, w1) -> runs (s :: b) w (LErr e) w1.
(** the block is run and the file closed; an exception of the block, or of close(), is never swallowed *)
Theorem C158_with_runs :
  forall b w x w1, runs b w x w1 ->
  snd (step (SWith b) w) = snd (u_close (fst w1) (snd w1)) /\
  (fst (u_close (fst w1) (snd w1)) = LOk tt -> fst (step (SWith b) w) = x) /\
  (forall e, fst (u_close (fst w1) (snd w1)) = LErr e -> fst (step (SWith b) w) = LErr e).
Proof.
  intros b w x w1 H. cbn [step]. match goal with |- context[?f b w] => assert (E : f b w = (x, w1)) end.
  { induction H as [w|s b w w1 x w2 H1 H2 IH|s b w e w1 H1]; [reflexivity|now rewrite H1, IH|now rewrite H1]. }
  rewrite E. destruct (u_close (fst w1) (snd w1)) as [[[]|e] w2]; cbn [fst snd]; (split; [reflexivity|]); split; intros; congruence.
Qed.
Print Assumptions C158_with_runs.
Lemma dmem_dget p (d : disk) : dmem p d = true -> exists c, dget p d = Some c.
Proof. intros H. apply dmem_In in H. destruct (dget p d) as [c|] eqn:E; [eauto|]. now apply dget_None_notin in E. Qed.
Lemma dmem_gone p (d : disk) : dget p d = None -> dmem p d = false.
Proof. intros H. destruct (dmem p d) eqn:E; [|reflexivity]. apply dmem_dget in E as [c E]. congruence. Qed.
Lemma dget_dmem p (d : disk) c : dget p d = Some c -> dmem p d = true.
Proof. intros H. apply dmem_In. apply dget_Some_In in H. exact (in_map fst _ _ H). Qed.

(** any program at all: only the temporary file, and the file in the working directory that has the name the client chose,
    can change *)
Theorem C158_two_paths :
  forall ss d n p cl q, q <> p -> q <> n -> dget q (fst (history ss (d, mkLF n (OTemp p) cl))) = dget q d.
Proof.
  intros ss d n p cl q Hp Hn.
  apply (history_keeps (fun w => dget q (fst w) = dget q d /\ lf_name (snd w) = n /\ (lf_file (snd w) = OTemp p \/ lf_file (snd w) = ODisk n))); [..|now repeat split; left].
  - intros [d1 [n1 f cl1]] (H1 & H2 & H3). cbn [fst snd lf_name lf_file] in *. subst n1. unfold u_open. cbn [lf_name lf_file lf_closed].
    destruct H3 as [-> | ->]; destruct cl1; cbn [negb]; try (cbn [fst snd lf_name lf_file]; now auto);
      (destruct n as [|x n]; [cbn [fst snd lf_name lf_file]; now auto|]); (destruct (dmem (x :: n) d1); [|cbn [fst snd lf_name lf_file]; now auto]);
      cbn [fst snd lf_name lf_file]; (split; [now rewrite dget_dset_other|now auto]).
  - intros [d1 [n1 f cl1]] (H1 & H2 & H3). cbn [fst snd lf_name lf_file] in *. subst n1. unfold u_close, inner_close. cbn [lf_name lf_file lf_closed].
    destruct H3 as [-> | ->]; [|cbn [fst snd lf_name lf_file]; now auto]. destruct cl1; [cbn [fst snd lf_name lf_file]; now auto|].
    destruct (dmem p d1); cbn [fst snd lf_name lf_file]; [|now auto]. split; [now rewrite dget_ddel_other|now auto].
  - intros x [d1 [n1 f cl1]] (H1 & H2 & H3). cbn [fst snd lf_name lf_file] in *. subst n1. unfold u_write. cbn [lf_name lf_file lf_closed].
    destruct cl1; [cbn [fst snd lf_name lf_file]; now auto|].
    destruct H3 as [-> | ->]; cbn [fst snd lf_name lf_file].
    + destruct (dget p d1); [|now auto]. split; [now rewrite dget_dset_other|now auto].
    + destruct (dget n d1); [|now auto]. split; [now rewrite dget_dset_other|now auto].
Qed.
Print Assumptions C158_two_paths.
(** when there is no file with the client's name, only the temporary file can change, and once the file is closed it is gone *)
Theorem C158_own_partial :
  forall ss d n p c, wf d -> n <> p -> dget n d = None -> dget p d = Some c ->
  let w := history ss (d, mkLF n (OTemp p) false) in
  (forall q, q <> p -> dget q (fst w) = dget q d) /\ u_path (snd w) = Some p /\
  (if lf_closed (snd w) then dget p (fst w) = None else exists c', dget p (fst w) = Some c').
Proof.
  intros ss d n p c Hw Hn Hd Hp w.
  assert (H : wf (fst w) /\ (forall q, q <> p -> dget q (fst w) = dget q d) /\ (lf_name (snd w) = n /\ lf_file (snd w) = OTemp p) /\
    (if lf_closed (snd w) then dget p (fst w) = None else exists c', dget p (fst w) = Some c')).
  2: { destruct H as (_ & H1 & [_ H2] & H3). split; [exact H1|]. split; [|exact H3]. unfold u_path. now rewrite H2. }
  unfold w. clear w.
  apply (history_keeps (fun w => wf (fst w) /\ (forall q, q <> p -> dget q (fst w) = dget q d) /\ (lf_name (snd w) = n /\ lf_file (snd w) = OTemp p) /\
    (if lf_closed (snd w) then dget p (fst w) = None else exists c', dget p (fst w) = Some c'))).
  - intros [d1 [n1 f1 cl]] (H0 & H1 & [H2 H3] & H4). cbn [fst snd lf_name lf_file lf_closed] in *. subst n1 f1. unfold u_open. cbn [lf_file lf_closed lf_name].
    destruct cl; cbn [negb]; [|now repeat split]. destruct n as [|x n]; [now repeat split|].
    rewrite dmem_gone by (rewrite H1; assumption). now repeat split.
  - intros [d1 [n1 f1 cl]] (H0 & H1 & [H2 H3] & H4). cbn [fst snd lf_name lf_file lf_closed] in *. subst n1 f1. unfold u_close, inner_close. cbn [lf_file lf_closed lf_name].
    destruct cl; [now repeat split|]. destruct (dmem p d1) eqn:E; cbn [fst snd lf_name lf_file lf_closed].
    + split; [now apply wf_ddel|]. split; [intros q Hq; rewrite dget_ddel_other by assumption; now apply H1|]. split; [now split|]. now apply dget_ddel_same.
    + destruct H4 as [c' H4]. apply dget_dmem in H4. congruence.
  - intros x [d1 [n1 f1 cl]] (H0 & H1 & [H2 H3] & H4). cbn [fst snd lf_name lf_file lf_closed] in *. subst n1 f1. unfold u_write. cbn [lf_file lf_closed lf_name].
    destruct cl; [now repeat split|]. destruct H4 as [c' H4]. rewrite H4. cbn [fst snd lf_name lf_file lf_closed].
    split; [now apply wf_dset|]. split; [intros q Hq; rewrite dget_dset_other by assumption; now apply H1|]. split; [now split|]. rewrite dget_dset_same. eauto.
  - cbn [fst snd lf_name lf_file lf_closed]. repeat split; try assumption. now exists c.
Qed.
Print Assumptions C158_own_partial.
(** as long as it is not closed: the same, whatever files there are; the path is that of the temporary file, and it has
    the content and what was written since *)
Definition quiet (s : stmt) : Prop := match s with SClose | SWith _ => False | _ => True end.
Definition written (ss : list stmt) : str := flat_map (fun s => match s with SWrite x => x | _ => [] end) ss.
Theorem C158_until_closed :
  forall ss d n p c, Forall quiet ss -> dget p d = Some c ->
  let w := history ss (d, mkLF n (OTemp p) false) in
  u_path (snd w) = Some p /\ u_content (fst w) (snd w) = Some (c ++ written ss) /\ (forall q, q <> p -> dget q (fst w) = dget q d).
Proof.
  intros ss. induction ss as [|s ss IH]; intros d n p c HF Hp w.
  - split; [reflexivity|]. split; [cbn; now rewrite app_nil_r|reflexivity].
  - inversion_clear HF as [|? ? H1 H2]. destruct s as [| | |x| |b]; try contradiction H1; try exact (IH d n p c H2 Hp).
    assert (E : w = history ss (dset p (c ++ x) d, mkLF n (OTemp p) false)).
    { unfold w, history. cbn [fold_left step]. unfold u_write. cbn [fst snd lf_closed lf_file]. now rewrite Hp. }
    rewrite E. clear w E.
    destruct (IH (dset p (c ++ x) d) n p (c ++ x) H2) as (I1 & I2 & I3); [apply dget_dset_same|]. split; [exact I1|]. split.
    + etransitivity; [exact I2|]. cbn [written flat_map]. now rewrite <- app_assoc.
    + intros q Hq. rewrite I3 by exact Hq. now apply dget_dset_other.
Qed.
Print Assumptions C158_until_closed.
(** but open() on a closed file empties the file in the working directory that has the client's name *)
Theorem C158_client_name_refuted :
  forall d n p c x b, wf d -> n <> [] -> n <> p -> dget p d = Some c -> dget n d = Some x -> Forall quiet b ->
  dget n (fst (history [SWith b; SOpen] (d, mkLF n (OTemp p) false))) = Some [].
Proof.
  intros d n p c x b Hw Hn Hne Hp Hx HB. cbn [history fold_left].
  assert (HL : forall b d, Forall quiet b -> wf d -> (exists c, dget p d = Some c) ->
    exists r d', (fix block (b : list stmt) (w : disk * lfile) : lres unit * (disk * lfile) :=
                        match b with
                        | [] => (LOk tt, w)
                        | s :: r => match step s w with (LOk _, w1) => block r w1 | (LErr e, w1) => (LErr e, w1) end
                        end) b (d, mkLF n (OTemp p) false) = (r, (d', mkLF n (OTemp p) false)) /\ wf d' /\ (exists c, dget p d' = Some c) /\ dget n d' = dget n d).
  { clear - Hne. induction b as [|s b IH]; intros d HF Hw [c Hp]; [eauto 8|]. inversion_clear HF as [|? ? H1 H2].
    destruct s as [| | |y| |b']; try contradiction H1; try (apply IH; eauto; fail).
    - cbn [step snd fst u_write lf_closed lf_file]. rewrite Hp.
      destruct (IH (dset p (c ++ y) d) H2 (wf_dset _ _ _ Hw)) as (r & d' & E & A & B & C); [rewrite dget_dset_same; eauto|].
      exists r, d'. split; [exact E|]. split; [exact A|]. split; [exact B|]. rewrite C. now apply dget_dset_other.
    - cbn [step]. eauto 8. }
  destruct (HL b d HB Hw (ex_intro _ c Hp)) as (r & d' & E & Hw' & [c' Hp'] & Hn').
  assert (ES : snd (step (SWith b) (d, mkLF n (OTemp p) false)) = (ddel p d', mkLF n (OTemp p) true)).
  { cbn [step]. rewrite E. cbn [fst snd]. unfold u_close, inner_close. cbn [lf_file lf_closed lf_name].
    destruct (dmem p d') eqn:Em; [now destruct r|]. apply dget_dmem in Hp'. congruence. }
  rewrite ES. cbn [step fst snd]. unfold u_open. cbn [lf_file lf_closed lf_name negb]. destruct n as [|y n]; [easy|].
  destruct (dmem (y :: n) (ddel p d')) eqn:Em; [cbn [fst snd]; apply dget_dset_same|]. exfalso.
  rewrite <- Hn' in Hx. rewrite <- (dget_ddel_other _ p) in Hx by exact Hne. apply dget_dmem in Hx. congruence.
Qed.
Print Assumptions C158_client_name_refuted.
(** an upload read in a with statement, with and without a file of the same name in the working directory *)
Definition exo_disk (more : disk) : disk := [(!"/tmp/a.upload", !"data"); (!"/etc/x", !"keep")] ++ more.
Definition exo_file : lfile := mkLF !"report.txt" (OTemp !"/tmp/a.upload") false.
Example C158_case :
  let use := [SOpen; SWrite !"+"; SWith [SRead; SRaise; SWrite !"never"]; SOpen; SRead] in
  let '(d1, f1) := history use (exo_disk [], exo_file) in
  let '(d2, f2) := history use (exo_disk [(!"report.txt", !"mine")], exo_file) in
  d1 = [(!"/etc/x", !"keep")] /\ lf_closed f1 = true /\ d2 = [(!"/etc/x", !"keep"); (!"report.txt", [])] /\ lf_closed f2 = false /\
  u_content (fst (history [SOpen; SWrite !"+"; SRaise] (exo_disk [], exo_file))) exo_file = Some !"data+" /\
  fst (step (SWith [SRead]) (exo_disk [], exo_file)) = LOk tt /\ fst (step (SWith [SRaise]) (exo_disk [], exo_file)) = LErr LOSError.
Proof. vm_compute. repeat split. Qed.
