(** * Theorems about temporary files under Windows: C132 *)
From Verif Require Import Py PyFacts PyDict LifeModel LifeFacts WinModel.

Definition os_error (e : lerr) : Prop := e = LOSError \/ e = LIOError.
(** the temporary file of an upload that close() has not been called on *)
Definition waiting (u : wupload) : list str :=
  match wu_file u with WTemp t => if tf_called t then [] else [tf_name t] | _ => [] end.
Definition is_closed (u : wupload) : Prop :=
  match wu_file u with WMem _ c => c = true | WTemp t => tf_open t = false end.

Lemma win_close_eq cfail locked d t : (forall p e, cfail p = Some e -> os_error e) ->
  win_close cfail locked d t =
  (LOk tt, if tf_called t then (d, t)
           else (if dmem (tf_name t) d && negb (locked (tf_name t)) then ddel (tf_name t) d else d,
                 mkTF (tf_name t) true false)).
Proof.
  intros H. unfold win_close. destruct (tf_called t); [reflexivity|]. unfold file_close, unlink. cbn [tf_open tf_name tf_called].
  destruct (tf_open t).
  - destruct (cfail (tf_name t)) as [e|] eqn:E.
    + apply H in E as [-> | ->]; cbn [tf_name]; destruct (dmem _ _ && _); reflexivity.
    + cbn [tf_name]. destruct (dmem _ _ && _); reflexivity.
  - cbn [tf_name]. destruct (dmem _ _ && _); reflexivity.
Qed.

(** ** Whatever happened to the files and whatever the system refuses, close() of the request
    returns, all files are closed, and of the files on the disk exactly the temporary ones
    are removed that were not closed before and may be removed *)
Theorem C132_closes_all :
  forall cfail locked d us, wf d -> (forall p e, cfail p = Some e -> os_error e) ->
  (forall u t, In u us -> wu_file u = WTemp t -> tf_called t = true -> tf_open t = false) ->
  exists d' us', wu_close_all cfail locked d us = (LOk tt, (d', us')) /\
    map wu_name us' = map wu_name us /\ Forall is_closed us' /\ Forall (fun u => waiting u = []) us' /\
    (forall p, In p (flat_map waiting us) -> locked p = false -> dget p d' = None) /\
    (forall p, ~ In p (flat_map waiting us) \/ locked p = true -> dget p d' = dget p d).
Proof.
  intros cfail locked d us Hw Hc. revert d Hw. induction us as [|u us IH]; intros d Hw Hi.
  - exists d, []. cbn. repeat split; try constructor; easy.
  - cbn [wu_close_all flat_map map]. unfold wu_close.
    assert (Hi' : forall v t, In v us -> wu_file v = WTemp t -> tf_called t = true -> tf_open t = false)
      by (intros v t Hv; apply Hi; now right).
    specialize (Hi u). destruct u as [n [c cl|t]]; cbn [wu_file wu_name waiting] in *.
    + destruct (IH d Hw Hi') as (d' & us' & -> & H1 & H2 & H3 & H4 & H5).
      exists d', (mkWU n (WMem c true) :: us'). split; [reflexivity|]. cbn [map app wu_name]. split; [now rewrite H1|].
      split; [now constructor|]. split; [now constructor|]. split; [exact H4|exact H5].
    + rewrite (win_close_eq cfail locked d t Hc). destruct t as [p ca op]. cbn [tf_called tf_name].
      destruct ca.
      * destruct (IH d Hw Hi') as (d' & us' & -> & H1 & H2 & H3 & H4 & H5).
        exists d', (mkWU n (WTemp (mkTF p true op)) :: us'). split; [reflexivity|]. cbn [map app wu_name]. split; [now rewrite H1|].
        split; [constructor; [|exact H2]|]; [cbn; exact (Hi _ (or_introl eq_refl) eq_refl eq_refl)|]. split; [now constructor|]. split; [exact H4|exact H5].
      * set (d1 := if dmem p d && negb (locked p) then ddel p d else d).
        assert (Hw1 : wf d1) by (unfold d1; destruct (_ && _); [now apply wf_ddel|exact Hw]).
        destruct (IH d1 Hw1 Hi') as (d' & us' & -> & H1 & H2 & H3 & H4 & H5).
        exists d', (mkWU n (WTemp (mkTF p true false)) :: us'). split; [reflexivity|]. cbn [map app wu_name]. split; [now rewrite H1|].
        split; [now constructor|]. split; [now constructor|].
        assert (Hother : forall q, q <> p -> dget q d1 = dget q d).
        { intros q Hq. unfold d1. destruct (_ && _); [now apply dget_ddel_other|reflexivity]. }
        split; intros q Hq.
        -- intros Hl. destruct (in_dec (list_eq_dec N.eq_dec) q (flat_map waiting us)) as [Hin|Hin]; [now apply H4|].
           rewrite H5 by now left. destruct Hq as [<-|Hq]; [|easy]. unfold d1. rewrite Hl. cbn [negb]. rewrite andb_true_r.
           destruct (dmem p d) eqn:Em; [now apply dget_ddel_same|]. apply dget_None_notin. intros Hk. apply dmem_In in Hk. congruence.
        -- destruct (list_eq_dec N.eq_dec q p) as [->|Hne].
           ++ destruct Hq as [Hq|Hl]; [exfalso; apply Hq; now left|]. rewrite H5 by now right. unfold d1. rewrite Hl. cbn [negb]. now rewrite andb_false_r.
           ++ rewrite H5; [now apply Hother|]. destruct Hq as [Hq|Hq]; [left; intros Hin; apply Hq; now right|now right].
Qed.
Print Assumptions C132_closes_all.

Definition ex_wus : list wupload :=
  [mkWU !"a.txt" (WTemp (mkTF !"t1.upload.txt" false true)); mkWU !"b.txt" (WMem !"b" false);
   mkWU !"c.png" (WTemp (mkTF !"t2.upload.png" false true)); mkWU !"d.png" (WTemp (mkTF !"t3.upload.png" false true))].
Definition ex_wdisk : disk := [(!"t2.upload.png", !"two"); (!"keep", !"kept"); (!"t3.upload.png", !"three")].
(** the first temporary file was moved, the second cannot be flushed, the third is locked *)
Example C132_case :
  wf ex_wdisk /\
  let cfail p := if seqb p !"t2.upload.png" then Some LIOError else None in
  let locked p := seqb p !"t3.upload.png" in
  let '(r, (d, us)) := wu_close_all cfail locked ex_wdisk ex_wus in
  r = LOk tt /\ d = [(!"keep", !"kept"); (!"t3.upload.png", !"three")] /\ Forall is_closed us.
Proof.
  split; [unfold wf; vm_compute; repeat constructor; cbn; intuition discriminate|].
  vm_compute. repeat split. repeat constructor.
Qed.

(** ** Closing again has no effect, not even on a file that came under the same name *)
Theorem C132_again :
  forall cfail locked cfail' locked' d d2 us d1 us1, (forall p e, cfail p = Some e -> os_error e) ->
  wu_close_all cfail locked d us = (LOk tt, (d1, us1)) ->
  wu_close_all cfail' locked' d2 us1 = (LOk tt, (d2, us1)).
Proof.
  intros cfail locked cfail' locked' d d2 us. revert d. induction us as [|u us IH]; intros d d1 us1 Hc E; cbn [wu_close_all] in E.
  - injection E as <- <-. reflexivity.
  - destruct (wu_close cfail locked d u) as [[[]|e] [d3 u3]] eqn:Eu; [|discriminate].
    destruct (wu_close_all cfail locked d3 us) as [x [d4 us4]] eqn:E4. injection E as -> <- <-.
    specialize (IH _ _ _ Hc E4). cbn [wu_close_all].
    assert (Ea : wu_close cfail' locked' d2 u3 = (LOk tt, (d2, u3))).
    { unfold wu_close in *. destruct u as [n [c cl|t]]; cbn [wu_file wu_name] in *; [injection Eu as <- <-; reflexivity|].
      rewrite (win_close_eq cfail locked d t Hc) in Eu. destruct t as [p [|] op]; cbn [tf_called tf_name] in Eu; injection Eu as <- <-; reflexivity. }
    now rewrite Ea, IH.
Qed.
Print Assumptions C132_again.
Example C132_again_case :
  let '(_, (_, us)) := wu_close_all (fun _ => None) (fun _ => false) ex_wdisk ex_wus in
  wu_close_all (fun _ => None) (fun _ => false) ex_wdisk us = (LOk tt, (ex_wdisk, us)).
Proof. vm_compute. reflexivity. Qed.

(** ** Reopening a closed temporary upload always fails; nothing is opened or emptied *)
Theorem C132_reopen :
  forall d name t, tf_open t = false ->
  (name = [] \/ dget name d = None -> wt_open d name t = WValueError) /\
  (name <> [] -> forall c, dget name d = Some c -> wt_open d name t = WAttributeError).
Proof.
  intros d name t Ht. unfold wt_open. rewrite Ht. split.
  - intros [-> | H]; [reflexivity|]. destruct name as [|a name]; [reflexivity|].
    destruct (dmem (a :: name) d) eqn:E; [|reflexivity]. apply dmem_In in E. now apply dget_None_notin in H.
  - intros Hn c H. destruct name as [|a name]; [easy|].
    assert (E : dmem (a :: name) d = true) by (apply dmem_In; apply dget_Some_In in H; apply (in_map fst) in H; exact H).
    now rewrite E.
Qed.
Print Assumptions C132_reopen.
Example C132_reopen_case :
  wt_open [(!"settings.py", !"SECRET")] !"settings.py" (mkTF !"t1" true false) = WAttributeError /\
  wt_open [(!"settings.py", !"SECRET")] !"a.py" (mkTF !"t1" true false) = WValueError.
Proof. split; reflexivity. Qed.

(** ** What is false: leaving a with block does not remove the file; it stays until the
    object is closed or goes away *)
Theorem C132_with_block_refuted :
  forall cfail locked d t c, wf d -> (forall p e, cfail p = Some e -> os_error e) ->
  tf_called t = false -> tf_open t = true -> locked (tf_name t) = false -> dget (tf_name t) d = Some c ->
  exists r t1, win_exit cfail t = (r, t1) /\ tf_open t1 = false /\ tf_called t1 = false /\
    dget (tf_name t1) d = Some c /\
    exists d2 t2, win_del cfail locked d t1 = (LOk tt, (d2, t2)) /\ dget (tf_name t1) d2 = None.
Proof.
  intros cfail locked d [p ca op] c Hw Hc. cbn [tf_called tf_open tf_name]. intros -> -> Hl Hd.
  exists (match cfail p with Some e => LErr e | None => LOk tt end), (mkTF p false false).
  split; [unfold win_exit, file_close; cbn [tf_open tf_name tf_called]; now destruct (cfail p)|].
  split; [reflexivity|]. split; [reflexivity|]. split; [exact Hd|].
  unfold win_del. rewrite (win_close_eq cfail locked d _ Hc). cbn [tf_called tf_name]. rewrite Hl.
  assert (E : dmem p d = true) by (apply dmem_In; apply dget_Some_In in Hd; apply (in_map fst) in Hd; exact Hd).
  rewrite E. cbn [andb negb]. eexists _, _. split; [reflexivity|]. now apply dget_ddel_same.
Qed.
Print Assumptions C132_with_block_refuted.
Example C132_with_block_case :
  let t := mkTF !"t1" false true in
  tf_open (snd (win_exit (fun _ => None) t)) = false /\ dget !"t1" [(!"t1", !"left")] = Some !"left".
Proof. split; reflexivity. Qed.
