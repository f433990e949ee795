(** * Theorem C134: temporary files on a disk that fails *)
From Verif Require Import Py Spec PyFacts PyDict StreamModel StreamSpec StreamFacts CodecModel QueryModel Base64Model HeaderModel
  BoundaryModel UploadModel MultipartModel FormSpec CustomModel CustomGuard CustomLib CustomUpto DiskModel PropsPart PropsMultipart PropsCustom.

Definition all_temp (suffix : str) : res unit := Ok tt.
(** the entries of [o0] that are gone in [o] were all successes *)
Definition well (o0 o : fate) : Prop := exists n, o0 = repeat None n ++ o.
(** the library's handlers, which carry the list they were given and do not look at it *)
Definition tagged_ops (max : option Z) : ops (handler * fate) ufile Empty_set :=
  mkOps (handler * fate) ufile Empty_set
    (fun len h => (Good None, (h_raw_input max len (fst h), snd h)))
    (fun i _ h => let (r, h1) := h_new_file all_temp i (fst h) in (lift_new r, (h1, snd h)))
    (fun d _ h => let (r, h1) := h_receive all_temp max d (fst h) in (of_res r, (h1, snd h)))
    (fun n h => (of_res (h_complete n (fst h)), h))
    (fun h => (Good tt, h))
    (fun h => (Good false, h)).

Section Fate.
  Context (fates : list fate) (HF : forall o, In o fates -> ~ In (Some StopFutureHandlers) o).
  Definition from_disk (e : exn) : Prop := exists o, In o fates /\ In (Some e) o.
  Definition RD (x y : handler * fate) : Prop := fst x = fst y /\ In (snd y) fates /\ well (snd y) (snd x).

  Lemma well_refl o : well o o. Proof. now exists 0. Qed.
  Lemma well_ask o0 o x o1 : well o0 o -> ask o = (x, o1) ->
    match x with Some e => In (Some e) o0 | None => well o0 o1 end.
  Proof.
    intros [n ->] H. destruct o as [|y o]; cbn in H; injection H as <- <-; [now exists n|].
    destruct y as [e|]; [apply in_or_app; right; now left|]. exists (S n). cbn. 
    replace (repeat None n ++ None :: o) with ((repeat (@None exn) n ++ [None]) ++ o) by now rewrite <- app_assoc.
    now rewrite <- repeat_cons.
  Qed.
  (** an operation of a temporary file and what a handler makes of it *)
  Definition upd {A H} (o0 : fate) (a : res A * H * fate) (b : res A * H) : Prop :=
    (exists e, fst (fst a) = Err e /\ In (Some e) o0) \/ (fst (fst a) = fst b /\ snd (fst a) = snd b /\ well o0 (snd a)).
  Lemma upd_temp_new o0 i t o : well o0 o -> upd o0 (d_temp_new i t o) (temp_new_file all_temp i t).
  Proof.
    intros H. unfold d_temp_new, temp_new_file, all_temp. destruct (ask o) as [x o1] eqn:E. apply (well_ask o0) in E; [|exact H].
    destruct x as [e|]; [left; now exists e|right; now repeat split].
  Qed.
  Lemma upd_temp_receive o0 d t o : well o0 o -> upd o0 (d_temp_receive d t o) (temp_receive d t).
  Proof.
    intros H. unfold d_temp_receive, temp_receive. destruct (th_file t) as [f|]; [|right; now repeat split].
    destruct (ask o) as [x o1] eqn:E. apply (well_ask o0) in E; [|exact H].
    destruct x as [e|]; [left; now exists e|right; now repeat split].
  Qed.
  (** without a new state *)
  Definition upc {A} (o0 : fate) (a : res A * fate) (b : res A) : Prop :=
    (exists e, fst a = Err e /\ In (Some e) o0) \/ (fst a = b /\ well o0 (snd a)).
  Lemma upc_temp o0 n t o : well o0 o -> upc o0 (d_temp_complete n t o) (temp_complete n t).
  Proof.
    intros H. unfold d_temp_complete. destruct (th_file t) as [f|] eqn:Ef; [|right; split; [|exact H]; unfold temp_complete; now rewrite Ef].
    destruct (ask o) as [x o1] eqn:E. apply (well_ask o0) in E; [|exact H]. destruct x as [e|]; [left; now exists e|right; now split].
  Qed.
  Lemma upc_inner o0 n h o : well o0 o -> upc o0 (d_inner_complete n h o) (inner_complete n h).
  Proof. intros H. destruct h as [m|t]; [right; now split|now apply upc_temp]. Qed.
  Lemma upd_inner_receive o0 d h o : well o0 o -> upd o0 (d_inner_receive d h o) (inner_receive d h).
  Proof.
    intros H. destruct h as [m|t]; cbn [d_inner_receive inner_receive].
    - destruct (mem_receive d m) as [r m1]. right. now repeat split.
    - destruct (upd_temp_receive o0 d t o H) as [(e & E & He)|(E1 & E2 & E3)].
      + destruct (d_temp_receive d t o) as [[r t1] o1]. left. now exists e.
      + destruct (d_temp_receive d t o) as [[r t1] o1], (temp_receive d t) as [r2 t2]. cbn [fst snd] in *. subst. right. now repeat split.
  Qed.
  Lemma upc_switch o0 c o : well o0 o -> upc o0 (d_switch c o) (conv_switch all_temp c).
  Proof.
    intros H. unfold d_switch, conv_switch. destruct (upc_inner o0 (cv_received c) (cv_inner c) o H) as [(e & E & He)|[E1 E2]].
    - destruct (d_inner_complete _ _ o) as [r o1]. cbn [fst] in E. subst r. left. now exists e.
    - destruct (d_inner_complete _ _ o) as [r o1]. cbn [fst snd] in E1, E2. rewrite <- E1.
      destruct r as [[f|]|e]; cbn [bind]; [|right; now split|right; now split].
      destruct (inner_info (cv_inner c)) as [i|]; [|right; now split].
      destruct (upd_temp_new o0 i new_temp o1 E2) as [(e & E & He)|(E3 & E4 & E5)].
      + destruct (d_temp_new i new_temp o1) as [[r t] o2]. cbn [fst] in E. subst r. left. now exists e.
      + destruct (d_temp_new i new_temp o1) as [[r t] o2], (temp_new_file all_temp i new_temp) as [r2 t2]. cbn [fst snd] in *. subst r2 t2.
        destruct r as [u|e]; [|right; now split].
        destruct (upd_temp_receive o0 (uf_content f) t o2 E5) as [(e & E & He)|(E6 & E7 & E8)].
        * destruct (d_temp_receive (uf_content f) t o2) as [[r t1] o3]. cbn [fst] in E. subst r. left. now exists e.
        * destruct (d_temp_receive (uf_content f) t o2) as [[r t1] o3], (temp_receive (uf_content f) t) as [r2 t2]. cbn [fst snd] in *. subst r2 t2.
          destruct r as [v|e]; right; now split.
  Qed.
  Lemma upd_conv_receive o0 max d c o : well o0 o -> upd o0 (d_conv_receive max d c o) (conv_receive all_temp max d c).
  Proof.
    intros H. unfold d_conv_receive, conv_receive. cbv zeta.
    set (need := (negb (cv_switched c) && _)%bool). clearbody need.
    assert (HS : upc o0 (if need then d_switch c o else (Ok c, o)) (if need then conv_switch all_temp c else Ok c)).
    { destruct need; [now apply upc_switch|right; now split]. }
    destruct HS as [(e & E & He)|[E1 E2]].
    - destruct (if need then d_switch c o else (Ok c, o)) as [r o1]. cbn [fst] in E. subst r. left. now exists e.
    - destruct (if need then d_switch c o else (Ok c, o)) as [r o1]. cbn [fst snd] in E1, E2. rewrite <- E1.
      destruct r as [c1|e]; [|right; now repeat split].
      destruct (upd_inner_receive o0 d (cv_inner c1) o1 E2) as [(e & E & He)|(E3 & E4 & E5)].
      + destruct (d_inner_receive d (cv_inner c1) o1) as [[r h] o2]. cbn [fst] in E. subst r. left. now exists e.
      + destruct (d_inner_receive d (cv_inner c1) o1) as [[r h] o2], (inner_receive d (cv_inner c1)) as [r2 h2]. cbn [fst snd] in *. subst r2 h2.
        destruct r; right; now repeat split.
  Qed.
  Lemma upd_new o0 i h o : well o0 o -> upd o0 (d_new i h o) (h_new_file all_temp i h).
  Proof.
    intros H. destruct h as [m|t|c]; cbn [d_new h_new_file].
    - destruct (mem_new_file i m) as [r m1]. right. now repeat split.
    - destruct (upd_temp_new o0 i t o H) as [(e & E & He)|(E1 & E2 & E3)].
      + destruct (d_temp_new i t o) as [[r t1] o1]. left. now exists e.
      + destruct (d_temp_new i t o) as [[r t1] o1], (temp_new_file all_temp i t) as [r2 t2]. cbn [fst snd] in *. subst. right. now repeat split.
    - unfold conv_new_file. destruct (cv_inner c) as [m|t]; cbn [d_inner_new inner_new_file].
      + destruct (mem_new_file i m) as [r m1]. right. now repeat split.
      + destruct (upd_temp_new o0 i t o H) as [(e & E & He)|(E1 & E2 & E3)].
        * destruct (d_temp_new i t o) as [[r t1] o1]. left. now exists e.
        * destruct (d_temp_new i t o) as [[r t1] o1], (temp_new_file all_temp i t) as [r2 t2]. cbn [fst snd] in *. subst. right. now repeat split.
  Qed.
  Lemma upd_receive o0 max d h o : well o0 o -> upd o0 (d_receive max d h o) (h_receive all_temp max d h).
  Proof.
    intros H. destruct h as [m|t|c]; cbn [d_receive h_receive].
    - destruct (mem_receive d m) as [r m1]. right. now repeat split.
    - destruct (upd_temp_receive o0 d t o H) as [(e & E & He)|(E1 & E2 & E3)].
      + destruct (d_temp_receive d t o) as [[r t1] o1]. left. now exists e.
      + destruct (d_temp_receive d t o) as [[r t1] o1], (temp_receive d t) as [r2 t2]. cbn [fst snd] in *. subst. right. now repeat split.
    - destruct (upd_conv_receive o0 max d c o H) as [(e & E & He)|(E1 & E2 & E3)].
      + destruct (d_conv_receive max d c o) as [[r t1] o1]. left. now exists e.
      + destruct (d_conv_receive max d c o) as [[r t1] o1], (conv_receive all_temp max d c) as [r2 t2]. cbn [fst snd] in *. subst. right. now repeat split.
  Qed.
  Lemma upc_complete o0 n h o : well o0 o -> upc o0 (d_complete n h o) (h_complete n h).
  Proof. intros H. destruct h as [m|t|c]; cbn [d_complete h_complete]; [right; now split|now apply upc_temp|now apply upc_inner]. Qed.

  Lemma disk_failing max : failing (disk_ops max) (tagged_ops max) RD from_disk.
  Proof.
    split.
    - intros len x y (H1 & H2 & H3). right. split; [reflexivity|]. split; cbn; [now rewrite H1|now split].
    - intros i len x y (H1 & H2 & H3). cbn [disk_ops tagged_ops o_new]. rewrite H1.
      destruct (upd_new (snd y) i (fst y) (snd x) H3) as [(e & E & He)|(E1 & E2 & E3)].
      + destruct (d_new i (fst y) (snd x)) as [[r h] o]. cbn [fst] in E. subst r. left. exists e. split; [|now exists (snd y)].
        cbn. destruct e; try reflexivity. now contradiction (HF _ H2).
      + destruct (d_new i (fst y) (snd x)) as [[r h] o], (h_new_file all_temp i (fst y)) as [r2 h2]. cbn [fst snd] in *. subst. right. now repeat split.
    - intros d n x y (H1 & H2 & H3). cbn [disk_ops tagged_ops o_data]. rewrite H1.
      destruct (upd_receive (snd y) max d (fst y) (snd x) H3) as [(e & E & He)|(E1 & E2 & E3)].
      + destruct (d_receive max d (fst y) (snd x)) as [[r h] o]. cbn [fst] in E. subst r. left. exists e. split; [reflexivity|now exists (snd y)].
      + destruct (d_receive max d (fst y) (snd x)) as [[r h] o], (h_receive all_temp max d (fst y)) as [r2 h2]. cbn [fst snd] in *. subst. right. now repeat split.
    - intros n x y (H1 & H2 & H3). cbn [disk_ops tagged_ops o_done]. rewrite H1.
      destruct (upc_complete (snd y) n (fst y) (snd x) H3) as [(e & E & He)|[E1 E2]].
      + destruct (d_complete n (fst y) (snd x)) as [r o]. cbn [fst] in E. subst r. left. exists e. split; [reflexivity|now exists (snd y)].
      + destruct (d_complete n (fst y) (snd x)) as [r o]. cbn [fst snd] in *. subst. right. now repeat split.
    - intros x y H. right. now split.
    - intros x y H. right. now split.
  Qed.
End Fate.
Lemma tagged_failing max : failing (tagged_ops max) (lib_ops all_temp max) (fun x y => fst x = y) (fun _ => False).
Proof.
  split.
  - intros len x y <-. right. now split.
  - intros i len x y <-. right. cbn. now destruct (h_new_file all_temp i (fst x)).
  - intros d n x y <-. right. cbn. now destruct (h_receive all_temp max d (fst x)).
  - intros n x y <-. right. now split.
  - intros x y <-. right. now split.
  - intros x y <-. right. now split.
Qed.
Lemma disk_list hs : Forall2 (RD (map snd hs)) hs hs.
Proof.
  assert (G : forall l, incl l hs -> Forall2 (RD (map snd hs)) l l).
  { induction l as [|x l IH]; intros Hi; [constructor|]. constructor; [|apply IH; intros y Hy; apply Hi; now right].
    split; [reflexivity|]. split; [apply in_map, Hi; now left|apply well_refl]. }
  apply G, incl_refl.
Qed.

Lemma RD_well fs xs ys : Forall2 (RD fs) xs ys -> forall hs : list (handler * fate), map snd ys = map snd hs ->
  Forall2 (fun h h' => exists n, snd h = repeat None n ++ snd h') hs xs.
Proof.
  induction 1 as [|x y xs ys H HL IH]; (intros [|h hs] E; [try (now constructor); easy|try easy]).
  injection E as E1 E2. constructor; [destruct H as (_ & _ & n & Hn); exists n; unfold fate in *; now rewrite <- E1|now apply IH].
Qed.

(** ** C134 *)
(** Creating, writing or rewinding a temporary file may fail at any moment.  Either an
    exception of the disk comes out of parse, or the result is the one of a disk that never
    fails - nothing is cut short. *)
Theorem C134_disk :
  forall reg name2cp st D R rd exh fuel len csize (hs : list (handler * fate)) (r : R),
  (forall o, In o (map snd hs) -> ~ In (Some StopFutureHandlers) o) ->
  let a := c_parse rd exh reg name2cp st D fuel (disk_ops (ms_fmem st)) file_truthy len csize hs r in
  let b := mp_parse rd exh reg name2cp (fun _ => Ok tt) st D fuel csize len (map fst hs) r in
  (exists e o, In o (map snd hs) /\ In (Some e) o /\ fst (fst a) = Bad (CExn e)) \/
  (same_result (fst b) (fst (fst a)) /\ snd b = snd a).
Proof.
  intros reg name2cp st D R rd exh fuel len csize hs r HF. cbv zeta.
  pose proof (disk_list hs) as HL.
  pose proof (upto_parse (disk_ops (ms_fmem st)) (tagged_ops (ms_fmem st)) file_truthy _ _ (disk_failing (map snd hs) HF (ms_fmem st))
    rd exh reg name2cp st D fuel len csize hs hs r HL) as H1. cbv zeta in H1.
  destruct H1 as [(e & E & o & Ho & He)|(E1 & _ & E2)]; [left; now exists e, o|right].
  assert (HL2 : Forall2 (fun x y => fst x = y) hs (map fst hs)) by (clear; induction hs; constructor; easy).
  pose proof (upto_parse (tagged_ops (ms_fmem st)) (lib_ops all_temp (ms_fmem st)) file_truthy _ _ (tagged_failing (ms_fmem st))
    rd exh reg name2cp st D fuel len csize hs (map fst hs) r HL2) as H2. cbv zeta in H2.
  destruct H2 as [(e & _ & [])|(E3 & _ & E4)].
  pose proof (lib_parse rd exh reg name2cp all_temp st D fuel csize len (map fst hs) r) as H3. cbv zeta in H3.
  change all_temp with (fun _ : str => Ok tt) in H3 at 1. destruct H3 as [H3 H4].
  rewrite E1, E3, E2, E4. split; [|exact H4]. exact H3.
Qed.
Print Assumptions C134_disk.

(** no failure goes unnoticed: unless an exception of the disk comes out, every operation on
    a temporary file that took place succeeded *)
Theorem C134_reported :
  forall reg name2cp st D R rd exh fuel len csize (hs : list (handler * fate)) (r : R),
  (forall o, In o (map snd hs) -> ~ In (Some StopFutureHandlers) o) ->
  let a := c_parse rd exh reg name2cp st D fuel (disk_ops (ms_fmem st)) file_truthy len csize hs r in
  (exists e o, In o (map snd hs) /\ In (Some e) o /\ fst (fst a) = Bad (CExn e)) \/
  Forall2 (fun h h' => exists n, snd h = repeat None n ++ snd h') hs (snd (fst a)).
Proof.
  intros reg name2cp st D R rd exh fuel len csize hs r HF. cbv zeta.
  pose proof (upto_parse (disk_ops (ms_fmem st)) (tagged_ops (ms_fmem st)) file_truthy _ _ (disk_failing (map snd hs) HF (ms_fmem st))
    rd exh reg name2cp st D fuel len csize hs hs r (disk_list hs)) as H1. cbv zeta in H1.
  destruct H1 as [(e & E & o & Ho & He)|(_ & HL & _)]; [left; now exists e, o|right].
  assert (HK : keeping (tagged_ops (ms_fmem st)) (snd (A := handler) (B := fate))).
  { split; intros; cbn; try reflexivity; [now destruct (h_new_file all_temp i (fst x))|now destruct (h_receive all_temp (ms_fmem st) d (fst x))]. }
  pose proof (keep_parse (tagged_ops (ms_fmem st)) file_truthy snd HK rd exh reg name2cp st D fuel len csize hs r) as HE.
  now apply (RD_well (map snd hs) _ _ HL).
Qed.
Print Assumptions C134_reported.

(** The files of an upload that failed are not closed: _close_files is never called for the
    library's handlers, whatever happens - what it would do makes no difference. *)
Theorem C134_not_closed_refuted :
  forall reg name2cp st D R rd exh fuel len csize (hs : list (handler * fate)) (r : R) close_files,
  c_parse rd exh reg name2cp st D fuel (with_close (disk_ops (ms_fmem st)) close_files) file_truthy len csize hs r =
  c_parse rd exh reg name2cp st D fuel (disk_ops (ms_fmem st)) file_truthy len csize hs r.
Proof.
  intros. apply noclose_parse.
  - intros i l x. cbn. destruct (d_new i (fst x) (snd x)) as [[[u|e] h] o]; [easy|]. now destruct e.
  - intros d n x. cbn. now destruct (d_receive (ms_fmem st) d (fst x) (snd x)) as [[[u|e] h] o].
  - intros n x. cbn. now destruct (d_complete n (fst x) (snd x)) as [[u|e] o].
Qed.
Print Assumptions C134_not_closed_refuted.

(** [ex_parts] has two files, of four and three bytes; at most two bytes may stay in memory.
    The default handler creates a temporary file, writes nothing and then four bytes, and
    rewinds; then it creates the second one, writes three bytes and rewinds. *)
Definition ex_tight : mset := mkMS !"utf-8" (Some 2%Z) (Some 1000%Z) (Some 10%Z).
Definition ex_fate (o : fate) :=
  let body := render_form !"--X" ex_parts in
  c_parse src_read it_exhaust ex_reg no_cp ex_tight !"--X" (2 * length body + 4) (disk_ops (ms_fmem ex_tight)) file_truthy 1%Z 4096
    [(HConv new_conv, o)] [SData body].
Definition ex_end (o : fate) : option (list exn * nat) :=
  match ex_fate o with
  | (Bad (CExn e), [(HConv c, o')], _) => Some ([e], length o')
  | (Good _, [(_, o')], _) => Some ([], length o')
  | _ => None
  end.
Example C134_case :
  map ex_end [ []; repeat None 9; [Some IOError]; [None; Some IOError]; [None; None; Some IOError]; [None; None; None; Some IOError];
               repeat None 4 ++ [Some IOError; None]; repeat None 6 ++ [Some IOError]; repeat None 7 ++ [Some IOError] ] =
  [ Some ([], 0); Some ([], 2); Some ([IOError], 0); Some ([IOError], 0); Some ([IOError], 0); Some ([IOError], 0);
    Some ([IOError], 1); Some ([IOError], 0); Some ([], 1) ].
Proof. vm_compute. reflexivity. Qed.
(** the file that could not be written is still open *)
Example C134_open_case : match ex_fate [None; None; Some IOError] with
  | (Bad (CExn IOError), [(HConv c, _)], _) => match cv_inner c with ITemp t => th_file t = Some [] | IMem _ => False end
  | _ => False
  end.
Proof. vm_compute. reflexivity. Qed.
