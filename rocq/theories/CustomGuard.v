(** * Handlers that skip files, handlers that stop the upload (claims C96, C97) *)
From Coq Require Import ZifyBool ZifyN ZifyNat.
From Verif Require Import Py Spec PyFacts PyDict StreamModel StreamSpec StreamFacts
  CodecModel QueryModel Base64Model HeaderModel
  BoundaryModel BoundarySpec BoundaryFacts PartFacts UploadModel MultipartModel MultipartSem MultipartFacts
  MultipartSpec MultipartDet FormSpec FormFacts ItemFacts BodySpec BodyFacts CustomModel CustomSem CustomFacts CustomRun.

(** ** POST does not depend on what the handlers do with files *)
Section Post.
  Context (reg : registry) (mk_temp : str -> res unit) (st : mset) (m : Z).
  Context (Hmk : forall s, exists x, mk_temp s = Ok x).
  Context {S F X : Type} (O : ops S F X) (truthy : F -> bool).

  (** the methods raise at most SkipFile, new_file also StopFutureHandlers *)
  Definition skips_only : Prop :=
    (forall len h, exists h', o_raw O len h = (Good None, h')) /\
    (forall i len h, match fst (o_new O i len h) with Good _ | Bad CSkip | Bad CFuture => True | _ => False end) /\
    (forall d n h, match fst (o_data O d n h) with Good _ | Bad CSkip => True | _ => False end) /\
    (forall n h, exists r h', o_done O n h = (Good r, h')) /\
    (forall h, exists u h', o_close O h = (Good u, h')) /\
    (forall h, exists b h', o_end O h = (Good b, h')).
  Context (HO : skips_only).

  Lemma so_raw len : forall hs, exists hs', c_raw O len hs = (Good None, hs').
  Proof.
    induction hs as [|h hs (hs' & IH)]; [now exists []|]. cbn. destruct HO as (H & _). destruct (H len h) as (h' & ->).
    rewrite IH. now eexists.
  Qed.
  Lemma so_new i len : forall hs, exists r hs', c_new O i len hs = (r, hs') /\ (r = Good tt \/ r = Bad CSkip).
  Proof.
    induction hs as [|h hs (r & hs' & IH & Hr)]; [exists (Good tt), []; auto|]. cbn. destruct HO as (_ & H & _). specialize (H i len h).
    destruct (o_new O i len h) as [[u|[e| |b|]] h1]; cbn in H; try easy.
    - rewrite IH. eexists r, _. split; [reflexivity|easy].
    - eexists _, _. split; [reflexivity|]. now right.
    - eexists _, _. split; [reflexivity|]. now left.
  Qed.
  Lemma so_feed d : forall hs cs, forall d', d' = d \/ True -> exists r hc, c_feed O d' hs cs = (r, hc) /\ (r = Good tt \/ r = Bad CSkip).
  Proof.
    induction hs as [|h hs IH]; intros cs d' _; [eexists _, _; split; [reflexivity|]; now left|].
    destruct cs as [|c cs]; [eexists _, _; split; [reflexivity|]; now left|].
    cbn. destruct HO as (_ & _ & H & _). specialize (H d' c h).
    destruct (o_data O d' c h) as [[[d2|]|[e| |b|]] h1]; cbn in H; try easy.
    - destruct (IH cs d2 (or_intror I)) as (r & hc & -> & Hr). eexists r, _. split; [reflexivity|easy].
    - eexists _, _. split; [reflexivity|]. now left.
    - eexists _, _. split; [reflexivity|]. now right.
  Qed.
  Lemma so_feed_all : forall ds hs cs, exists r hc, c_feed_all O ds hs cs = (r, hc) /\ (r = Good tt \/ r = Bad CSkip).
  Proof.
    induction ds as [|d ds IH]; intros hs cs; [eexists _, _; split; [reflexivity|]; now left|]. cbn.
    destruct (so_feed d hs cs d (or_introl eq_refl)) as (r & hc & -> & [->| ->]); [apply IH|].
    eexists _, _. split; [reflexivity|]. now right.
  Qed.
  Lemma so_close : forall hs, exists u hs', c_close O hs = (Good u, hs').
  Proof.
    induction hs as [|h hs (u & hs' & IH)]; [now exists tt, []|]. cbn. destruct HO as (_ & _ & _ & _ & H & _).
    destruct (H h) as (u' & h' & ->). rewrite IH. now eexists _, _.
  Qed.
  Lemma so_end : forall hs, exists u hs', c_end O hs = (Good u, hs').
  Proof.
    induction hs as [|h hs (u & hs' & IH)]; [now exists tt, []|]. cbn. destruct HO as (_ & _ & _ & _ & _ & H).
    destruct (H h) as (b & h' & ->). destruct b; [now eexists _, _|]. rewrite IH. now eexists _, _.
  Qed.
  Lemma so_complete name files : forall hs cs, exists f hs', c_complete O truthy name hs cs files = (Good f, hs').
  Proof.
    induction hs as [|h hs IH]; intros cs; [now eexists _, _|]. destruct cs as [|c cs]; [now eexists _, _|].
    cbn. destruct HO as (_ & _ & _ & H & _). destruct (H c h) as (r & h' & ->).
    destruct (match r with Some f => truthy f | None => false end); [now eexists _, _|].
    destruct (IH cs) as (f & hs' & ->). now eexists _, _.
  Qed.

  Definition core_rel (p : cst S F) (u : ust) : Prop :=
    p_post (c_core p) = u_post u /\ p_bytes (c_core p) = u_bytes u /\ p_keys (c_core p) = u_keys u.
  Lemma so_finish p : exists p1, c_finish O truthy p = (Good tt, p1) /\ c_core p1 = c_core p.
  Proof.
    unfold c_finish. destruct (c_old p) as [|x l]; [now exists p|].
    destruct (so_complete (x :: l) (c_files p) (c_hs p) (c_counters p)) as (f & hs' & ->). now eexists.
  Qed.
  Lemma field_rel name tenc h payload p u : core_rel p u ->
    match u_field reg st name tenc h payload u with
    | Ok u' => exists core, field_step reg st name tenc h (c_core p) payload = Ok core /\
                 p_post core = u_post u' /\ p_bytes core = u_bytes u' /\ p_keys core = u_keys u'
    | Err e => field_step reg st name tenc h (c_core p) payload = Err e
    end.
  Proof.
    intros (H1 & H3 & H4). unfold field_step, u_field. rewrite H1, H3, H4.
    destruct (match ms_dnum st with Some n => Z.ltb n (u_keys u + 1) | None => false end); [easy|].
    match goal with |- context [@bind str ust ?x _] => destruct x as [raw|e] end; cbn [bind]; [|easy].
    match goal with |- context [@bind str ust ?x _] => destruct x as [data|e] end; cbn [bind]; [|easy].
    destruct (match ms_dmem st with Some n => _ | None => false end); [easy|].
    destruct (post_append _ _ _ _ _) as [post|e]; cbn [bind]; [|easy].
    eexists. split; [reflexivity|]. now cbn.
  Qed.
  Lemma finish_rel p u : core_rel p u -> core_rel p (u_finish u).
  Proof. unfold core_rel. destruct (u_finish_same u) as (E1 & E2 & E3 & _). now rewrite E1, E2, E3. Qed.

  Theorem post_run its p o : grun reg st O truthy its p o -> forall u, core_rel p u ->
    match u_run reg mk_temp st m its u with
    | Ok u' => fst o = Good tt /\ core_rel (snd o) u'
    | Err e => fst o = Bad (CExn e)
    end.
  Proof.
    assert (HI : forall it p o u, gitem reg st O truthy it p o -> core_rel p u ->
      match u_step reg mk_temp st m it u with
      | Ok u' => match o with GDone p' | GSkip p' => core_rel p' u' | GBad _ _ => False end
      | Err e => exists p', o = GBad (CExn e) p'
      end).
    { intros it p0 o0 u HI HR. unfold u_step. destruct HI as [(e & -> & ->)|HI]; [now exists p0|].
      destruct (so_finish p0) as (p1 & EF & EC). rewrite EF in HI. apply finish_rel in HR.
      set (u1 := u_finish u) in *. clearbody u1.
      assert (HR1 : core_rel p1 u1) by (unfold core_rel in *; now rewrite EC).
      destruct it as [e| |name tenc h payload|i w].
      - now exists p1.
      - now subst o0.
      - pose proof (field_rel name tenc h payload p1 u1 HR1) as HF. destruct (u_field reg st name tenc h payload u1) as [u'|e].
        + destruct HF as (core & E & HF). rewrite E in HI. now subst o0.
        + rewrite HF in HI. now exists p1.
      - destruct HI as (len & ds & _ & ->). unfold u_file.
        assert (HX : exists x, (if Z.ltb m (Z.of_nat (u_total u1 + length w)) then mk_temp (temp_suffix (fi_name i)) else Ok tt) = Ok x).
        { destruct (Z.ltb _ _); [apply Hmk|now exists tt]. }
        destruct HX as (x & ->). cbn [bind]. unfold g_pieces.
        assert (HSk : forall hs cs, match g_skip O p1 hs cs with GDone p' | GSkip p' => core_rel p' u1 | GBad _ _ => False end).
        { intros hs cs. unfold g_skip. destruct (so_close hs) as (v & hs' & ->). exact HR1. }
        destruct (so_new i len (c_hs p1)) as (r & hs & -> & [->| ->]); [|apply HSk].
        destruct (so_feed_all ds hs (map (fun _ => 0) (c_hs p1))) as (r & [hs2 cs2] & -> & [->| ->]); [exact HR1|apply HSk]. }
    induction 1 as [p|it its p x p' HG|it its p p' o HG HR IH]; intros u Hu; cbn [u_run].
    - easy.
    - pose proof (HI it p _ u HG Hu) as HX. destruct (u_step reg mk_temp st m it u) as [u'|e]; cbn [bind]; [easy|].
      destruct HX as (p2 & HX). now injection HX as -> _.
    - destruct HG as [HG|HG]; pose proof (HI it p _ u HG Hu) as HX;
        (destruct (u_step reg mk_temp st m it u) as [u'|e]; cbn [bind]; [now apply IH|]; now destruct HX).
  Qed.

  (** handlers that may also raise other exceptions: if the loop ends *)
  Theorem post_run_ok (O1 : ops S F X) its p o : grun reg st O1 truthy its p o -> forall u, core_rel p u -> fst o = Good tt ->
    exists u', u_run reg mk_temp st m its u = Ok u' /\ core_rel (snd o) u'.
  Proof.
    assert (HI : forall it p o u, gitem reg st O1 truthy it p o -> core_rel p u ->
      match o with GDone p' | GSkip p' => exists u', u_step reg mk_temp st m it u = Ok u' /\ core_rel p' u' | GBad _ _ => True end).
    { intros it p0 o0 u HI HR. unfold u_step. destruct HI as [(e & -> & ->)|HI]; [exact I|].
      assert (EC : match c_finish O1 truthy p0 with (Good _, p1) => c_core p1 = c_core p0 | _ => True end).
      { unfold c_finish. destruct (c_old p0) as [|x l]; [easy|]. now destruct (c_complete O1 truthy (x :: l) _ _ _) as [[f|y] hs]. }
      destruct (c_finish O1 truthy p0) as [[v|x] p1]; [|now subst o0]. apply finish_rel in HR.
      set (u1 := u_finish u) in *. clearbody u1.
      assert (HR1 : core_rel p1 u1) by (unfold core_rel in *; now rewrite EC).
      destruct it as [e| |name tenc h payload|i w].
      - now subst o0.
      - subst o0. now exists u1.
      - pose proof (field_rel name tenc h payload p1 u1 HR1) as HF. destruct (u_field reg st name tenc h payload u1) as [u'|e].
        + destruct HF as (core & E & HF). rewrite E in HI. subst o0. now exists u'.
        + rewrite HF in HI. now subst o0.
      - destruct HI as (len & ds & _ & ->). unfold u_file.
        assert (HX : exists x, (if Z.ltb m (Z.of_nat (u_total u1 + length w)) then mk_temp (temp_suffix (fi_name i)) else Ok tt) = Ok x).
        { destruct (Z.ltb _ _); [apply Hmk|now exists tt]. }
        destruct HX as (x & ->). cbn [bind]. unfold g_pieces.
        assert (HSk : forall hs cs, match g_skip O1 p1 hs cs with
          | GDone p' | GSkip p' => exists u', Ok (mkU (u_post u1) (u_files u1) (Some (fi_field i, upload m (u_total u1 + length w) i w)) (u_total u1 + length w) (u_bytes u1) (u_keys u1)) = Ok u' /\ core_rel p' u' | GBad _ _ => True end).
        { intros hs cs. unfold g_skip. destruct (c_close O1 hs) as [[v1|y] hs']; [|exact I]. eexists. split; [reflexivity|]. exact HR1. }
        destruct (c_new O1 i len (c_hs p1)) as [[v1|y] hs]; [|destruct y; try exact I; apply HSk].
        destruct (c_feed_all O1 ds hs (map (fun _ => 0) (c_hs p1))) as [[v2|y] [hs2 cs2]]; [|destruct y; try exact I; apply HSk].
        eexists. split; [reflexivity|]. exact HR1. }
    induction 1 as [p|it its p x p' HG|it its p p' o HG HR IH]; intros u Hu Ho; cbn [u_run].
    - now exists u.
    - discriminate Ho.
    - destruct HG as [HG|HG]; destruct (HI it p _ u HG Hu) as (u' & E & HC); rewrite E; cbn [bind]; now apply IH.
  Qed.
End Post.

(** ** Handlers that never stop the upload *)
Section NoStop.
  Context (reg : registry) (st : mset) {S F X : Type} (O : ops S F X) (truthy : F -> bool).
  Definition unstopped {A} (r : cr A) : Prop := match r with Bad (CStop _) => False | _ => True end.
  Definition never_stops : Prop :=
    (forall i len h, unstopped (fst (o_new O i len h))) /\ (forall d n h, unstopped (fst (o_data O d n h))) /\
    (forall n h, unstopped (fst (o_done O n h))) /\ (forall h, unstopped (fst (o_close O h))).
  Context (HO : never_stops).
  Lemma ns_new i len : forall hs, unstopped (fst (c_new O i len hs)).
  Proof.
    induction hs as [|h hs IH]; [exact I|]. cbn. destruct HO as (H & _). specialize (H i len h).
    destruct (o_new O i len h) as [[u|x] s]; cbn in *.
    - now destruct (c_new O i len hs) as [r hs1].
    - now destruct x.
  Qed.
  Lemma ns_feed : forall hs cs d, unstopped (fst (c_feed O d hs cs)).
  Proof.
    induction hs as [|h hs IH]; intros [|c cs] d; try exact I. cbn. destruct HO as (_ & H & _). specialize (H d c h).
    destruct (o_data O d c h) as [[[d1|]|x] s]; cbn in *; [|easy|now destruct x].
    specialize (IH cs d1). now destruct (c_feed O d1 hs cs) as [r hc].
  Qed.
  Lemma ns_feed_all : forall ds hs cs, unstopped (fst (c_feed_all O ds hs cs)).
  Proof.
    induction ds as [|d ds IH]; intros hs cs; [exact I|]. cbn. pose proof (ns_feed hs cs d) as HW.
    destruct (c_feed O d hs cs) as [[u|x] hc]; cbn in *; [apply IH|exact HW].
  Qed.
  Lemma ns_complete name files : forall hs cs, unstopped (fst (c_complete O truthy name hs cs files)).
  Proof.
    induction hs as [|h hs IH]; intros [|c cs]; try exact I. cbn. destruct HO as (_ & _ & H & _). specialize (H c h).
    destruct (o_done O c h) as [[o|x] s]; cbn in *; [|now destruct x].
    destruct (match o with Some f => truthy f | None => false end); [exact I|].
    specialize (IH cs). now destruct (c_complete O truthy name hs cs files) as [r hc].
  Qed.
  Lemma ns_close : forall hs, unstopped (fst (c_close O hs)).
  Proof.
    induction hs as [|h hs IH]; [exact I|]. cbn. destruct HO as (_ & _ & _ & H). specialize (H h).
    destruct (o_close O h) as [[u|x] s]; cbn in *; [|now destruct x]. now destruct (c_close O hs) as [r hs1].
  Qed.
  Theorem never_stops_run its p o : grun reg st O truthy its p o -> unstopped (fst o).
  Proof.
    assert (HI : forall it p x p', gitem reg st O truthy it p (GBad x p') -> unstopped (@Bad unit x)).
    { intros it p0 x p' [(e & -> & E)|HG]; [now injection E as -> ->|].
      assert (HF : unstopped (fst (c_finish O truthy p0))).
      { unfold c_finish. destruct (c_old p0) as [|y l]; [exact I|].
        pose proof (ns_complete (y :: l) (c_files p0) (c_hs p0) (c_counters p0)) as HW.
        now destruct (c_complete O truthy (y :: l) (c_hs p0) (c_counters p0) (c_files p0)) as [[f|z] hs]. }
      destruct (c_finish O truthy p0) as [[v|z] p1]; [|now injection HG as -> ->].
      destruct it as [e| |name tenc h payload|i w]; [now injection HG as -> ->|easy| |].
      - destruct (field_step reg st name tenc h (c_core p1) payload); [easy|now injection HG as -> ->].
      - destruct HG as (len & ds & _ & HG). unfold g_pieces in HG.
        assert (HSk : forall hs cs, GBad x p' = g_skip O p1 hs cs -> unstopped (@Bad unit x)).
        { intros hs cs. unfold g_skip. pose proof (ns_close hs) as HW.
          destruct (c_close O hs) as [[v1|y] hs']; [easy|]. intros E. now injection E as -> ->. }
        pose proof (ns_new i len (c_hs p1)) as HW.
        destruct (c_new O i len (c_hs p1)) as [[v1|y] hs].
        + pose proof (ns_feed_all ds hs (map (fun _ => 0) (c_hs p1))) as HW2.
          destruct (c_feed_all O ds hs (map (fun _ => 0) (c_hs p1))) as [[v2|y] [hs2 cs2]]; [easy|].
          destruct y; try (now injection HG as -> ->); try easy. now apply (HSk hs2 cs2).
        + destruct y; try (now injection HG as -> ->); try easy. now apply (HSk hs (map (fun _ => 0) (c_hs p1))). }
    induction 1 as [p|it its p x p' HG|it its p p' o HG HR IH]; [exact I| |exact IH]. now apply (HI it p x p').
  Qed.
End NoStop.

(** ** The library's handlers behind a handler that looks at each file first *)
Inductive verdict := Accept | Skip | Stop (reset : bool).
Inductive gh := Guard | Lib (h : handler).

(** what the library's new_file raises *)
Definition lift_new (r : res unit) : cr unit :=
  match r with Ok u => Good u | Err StopFutureHandlers => Bad CFuture | Err e => Bad (CExn e) end.
(** the guard: a subclass of FileUploadHandler whose new_file raises SkipFile or StopUpload
    for some files, whose receive_data_chunk returns the data and whose file_complete returns
    None; the library's handlers as in UploadModel *)
Definition guard_ops (mk_temp : str -> res unit) (max : option Z) (v : str -> str -> verdict) : ops gh ufile Empty_set :=
  mkOps gh ufile Empty_set
    (fun len h => (Good None, match h with Guard => Guard | Lib h => Lib (h_raw_input max len h) end))
    (fun i _ h => match h with
                  | Guard => (match v (fi_field i) (fi_name i) with
                              | Accept => Good tt
                              | Skip => Bad CSkip
                              | Stop reset => Bad (CStop reset)
                              end, Guard)
                  | Lib h => let (r, h1) := h_new_file mk_temp i h in (lift_new r, Lib h1)
                  end)
    (fun d _ h => match h with
                  | Guard => (Good (Some d), Guard)
                  | Lib h => let (r, h1) := h_receive mk_temp max d h in (of_res r, Lib h1)
                  end)
    (fun n h => match h with Guard => (Good None, Guard) | Lib h1 => (of_res (h_complete n h1), h) end)
    (fun h => (Good tt, h))
    (fun h => (Good false, h)).

Section Guard.
  Context (reg : registry) (name2cp : str -> option N) (mk_temp : str -> res unit) (st : mset) (m : Z).
  Context (Hm : (0 <= m)%Z) (Hst : ms_fmem st = Some m).
  Context (Hmk : forall s, mk_temp s <> Err StopFutureHandlers).
  Context (v : str -> str -> verdict).
  Notation G := (guard_ops mk_temp (Some m) v).

  (** the items that reach the library's handlers, and whether the upload is stopped *)
  Fixpoint eff (its : list item) : list item * option bool :=
    match its with
    | [] => ([], None)
    | KFile i w :: r =>
        match v (fi_field i) (fi_name i) with
        | Accept => let (a, x) := eff r in (KFile i w :: a, x)
        | Skip => let (a, x) := eff r in (KSkip :: a, x)
        | Stop reset => ([KSkip], Some reset)
        end
    | it :: r => let (a, x) := eff r in (it :: a, x)
    end.

  Definition gabs (p : cst gh ufile) (u : ust) : Prop :=
    core_rel p u /\ c_files p = u_files u /\
    exists c, c_hs p = [Guard; Lib (HConv c)] /\ conv_rel m (u_total u) c /\
      match u_pend u with
      | None => c_old p = []
      | Some (n, f) => c_old p = n /\ exists i w k, c = conv_of m (u_total u) i w /\ c_counters p = [k; length w] /\
                                               f = upload m (u_total u) i w
      end.

  Lemma g_finish p u : gabs p u -> exists p', c_finish G file_truthy p = (Good tt, p') /\ gabs p' (u_finish u) /\
    u_pend (u_finish u) = None.
  Proof.
    intros ((H1 & H3 & H4) & H2 & c & Hh & HR & HP). unfold u_finish, c_finish.
    destruct (u_pend u) as [[n f]|] eqn:EP.
    - destruct HP as (Hn & i & w & k & -> & HC & ->). rewrite Hn. destruct n as [|x n].
      + exists p. split; [easy|]. split; [|easy]. split; [easy|]. split; [easy|].
        exists (conv_of m (u_total u) i w). cbn. easy.
      + rewrite Hh, HC. cbn [c_complete guard_ops o_done].
        assert (HI : h_complete (length w) (HConv (conv_of m (u_total u) i w)) = Ok (Some (upload m (u_total u) i w))).
        { unfold conv_of, upload. cbn. now destruct (Z.ltb m (Z.of_nat (u_total u))). }
        rewrite HI. cbn [of_res nonempty andb]. unfold file_truthy.
        destruct (negb (Nat.eqb (uf_size (upload m (u_total u) i w)) 0)); cbn.
        all: (eexists; split; [reflexivity|]; split; [|reflexivity]; split; [now split|]; cbn; rewrite H2; split; [reflexivity|];
              exists (conv_of m (u_total u) i w); cbn; easy).
    - rewrite HP. exists p. split; [easy|]. split; [|easy]. split; [easy|]. split; [easy|].
      exists c. now rewrite EP.
  Qed.

  Lemma g_feed d k1 k2 h :
    match feed mk_temp (Some m) d [h] [k2] with
    | Ok (hs, cs) => c_feed G d [Guard; Lib h] [k1; k2] = (Good tt, (Guard :: map Lib hs, (k1 + length d) :: cs))
    | Err e => exists hc, c_feed G d [Guard; Lib h] [k1; k2] = (Bad (CExn e), hc)
    end.
  Proof.
    cbn [feed c_feed guard_ops o_data]. destruct (h_receive mk_temp (Some m) d h) as [[[d1|]|e] h1]; cbn [of_res].
    - reflexivity.
    - reflexivity.
    - eexists. reflexivity.
  Qed.
  Lemma g_feed_all i : forall ds T w k1 k2,
    match full mk_temp m T i w k2 (concat ds) with
    | Ok (hs, cs) => c_feed_all G ds [Guard; Lib (HConv (conv_of m T i w))] [k1; k2] =
                       (Good tt, (Guard :: map Lib hs, (k1 + length (concat ds)) :: cs))
    | Err e => exists hc, c_feed_all G ds [Guard; Lib (HConv (conv_of m T i w))] [k1; k2] = (Bad (CExn e), hc)
    end.
  Proof.
    induction ds as [|d ds IH]; intros T w k1 k2; cbn [concat c_feed_all].
    - rewrite full_nil. cbn. now rewrite Nat.add_0_r.
    - pose proof (g_feed d k1 k2 (HConv (conv_of m T i w))) as HF. rewrite (feed_conv name2cp mk_temp m Hmk) in HF.
      destruct (spill mk_temp m T (length d) i) as [u|e] eqn:E; cbn [bind] in HF.
      + rewrite HF. cbn [fst snd map]. rewrite <- (full_app mk_temp m T i w k2 d (concat ds) u E).
        pose proof (IH (T + length d) (w ++ d) (k1 + length d) (k2 + length d)) as HX.
        destruct (full mk_temp m (T + length d) i (w ++ d) (k2 + length d) (concat ds)) as [[hs cs]|e]; [|exact HX].
        rewrite HX. now rewrite app_length, Nat.add_assoc.
      + rewrite (full_err mk_temp m T i w k2 d (concat ds) e E). destruct HF as (hc & ->). now exists hc.
  Qed.

  Theorem guard_run its p o : grun reg st G file_truthy its p o -> forall u, gabs p u ->
    match u_run reg mk_temp st m (fst (eff its)) u with
    | Ok u' => gabs (snd o) u' /\ fst o = match snd (eff its) with Some reset => Bad (CStop reset) | None => Good tt end
    | Err e => fst o = Bad (CExn e)
    end.
  Proof.
    assert (HI : forall it p o u, gitem reg st G file_truthy it p o -> gabs p u ->
      match it with
      | KFile i w =>
          match v (fi_field i) (fi_name i) with
          | Accept => match u_step reg mk_temp st m it u with
                      | Ok u' => match o with GDone p' | GSkip p' => gabs p' u' | GBad _ _ => False end
                      | Err e => exists p', o = GBad (CExn e) p'
                      end
          | Skip => exists p', o = GDone p' /\ gabs p' (u_finish u)
          | Stop reset => exists p', o = GBad (CStop reset) p' /\ gabs p' (u_finish u)
          end
      | _ => match u_step reg mk_temp st m it u with
             | Ok u' => match o with GDone p' | GSkip p' => gabs p' u' | GBad _ _ => False end
             | Err e => exists p', o = GBad (CExn e) p'
             end
      end).
    { intros it p0 o0 u HI HR. unfold u_step. destruct HI as [(e & -> & ->)|HI]; [now exists p0|].
      destruct (g_finish p0 u HR) as (p1 & EF & HR1 & HN). rewrite EF in HI. clear HR EF.
      set (u1 := u_finish u) in *. clearbody u1.
      destruct it as [e| |name tenc h payload|i w].
      - now exists p1.
      - now subst o0.
      - destruct HR1 as (HC & HX). pose proof (field_rel reg st name tenc h payload p1 u1 HC) as HF.
        destruct (u_field reg st name tenc h payload u1) as [u'|e] eqn:EU.
        + destruct HF as (core & E & HF). rewrite E in HI. subst o0.
          assert (HU : u_files u' = u_files u1 /\ u_pend u' = u_pend u1 /\ u_total u' = u_total u1).
          { unfold u_field in EU. destruct (match ms_dnum st with Some n => _ | None => _ end); [easy|].
            match type of EU with context [@bind str ust ?x _] => destruct x as [raw|e] end; cbn [bind] in EU; [|easy].
            match type of EU with context [@bind str ust ?x _] => destruct x as [data|e] end; cbn [bind] in EU; [|easy].
            destruct (match ms_dmem st with Some n => _ | None => false end); [easy|].
            destruct (post_append _ _ _ _ _) as [post|e]; cbn [bind] in EU; [|easy]. now injection EU as <-. }
          destruct HU as (U1 & U2 & U3). split; [exact HF|]. cbn. rewrite U1, U2, U3. exact HX.
        + rewrite HF in HI. now exists p1.
      - destruct HI as (len & ds & Hds & ->). destruct HR1 as (HC & HFi & c & Hh & HR & HP). rewrite HN in HP.
        assert (HSame : forall cs, gabs (g_set p1 [Guard; Lib (HConv c)] cs) u1).
        { intros cs. split; [exact HC|]. split; [exact HFi|]. exists c. rewrite HN. now split. }
        unfold g_pieces. rewrite Hh. cbn [c_new guard_ops o_new map].
        destruct (v (fi_field i) (fi_name i)) as [| |reset].
        2:{ unfold g_skip. cbn. eexists. split; [reflexivity|]. apply HSame. }
        2:{ eexists. split; [reflexivity|]. apply HSame. }
        pose proof (new_files_conv mk_temp m Hmk i c _ HR) as HNew. unfold new_files in HNew.
        unfold u_file. pose proof (file_total name2cp mk_temp m Hmk (u_total u1) w i) as HT.
        set (T := u_total u1) in *.
        destruct (h_new_file mk_temp i (HConv c)) as [[x|e] h1].
        + (* new_file returned *)
          cbn [lift_new bind] in *.
          destruct (if Z.ltb m (Z.of_nat T) then mk_temp (temp_suffix (fi_name i)) else Ok tt) as [y|e]; cbn [bind] in HNew, HT; [|easy].
          injection HNew as ->. pose proof (g_feed_all i ds T [] 0 0) as HG. rewrite Hds in HG. unfold full in HG. rewrite HT in HG.
          destruct (Z.ltb m (Z.of_nat (T + length w))).
          * destruct (mk_temp (temp_suffix (fi_name i))) as [z|e]; cbn [bind map] in *.
            -- rewrite HG. cbn. split; [exact HC|]. split; [exact HFi|]. eexists. split; [reflexivity|]. split; [apply conv_of_rel|].
               split; [easy|]. now exists i, w, (length w).
            -- destruct HG as ([hs cs] & ->). cbn. now eexists.
          * cbn [bind map] in *. rewrite HG. cbn. split; [exact HC|]. split; [exact HFi|]. eexists. split; [reflexivity|]. split; [apply conv_of_rel|].
            split; [easy|]. now exists i, w, (length w).
        + destruct (match e with StopFutureHandlers => true | _ => false end) eqn:Ee.
          * destruct e; try easy. cbn [lift_new] in *.
            destruct (if Z.ltb m (Z.of_nat T) then mk_temp (temp_suffix (fi_name i)) else Ok tt) as [y|e]; cbn [bind] in HNew, HT; [|easy].
            injection HNew as ->. pose proof (g_feed_all i ds T [] 0 0) as HG. rewrite Hds in HG. unfold full in HG. rewrite HT in HG.
            destruct (Z.ltb m (Z.of_nat (T + length w))).
            -- destruct (mk_temp (temp_suffix (fi_name i))) as [z|e]; cbn [bind map] in *.
               ++ rewrite HG. cbn. split; [exact HC|]. split; [exact HFi|]. eexists. split; [reflexivity|]. split; [apply conv_of_rel|].
                  split; [easy|]. now exists i, w, (length w).
               ++ destruct HG as ([hs cs] & ->). cbn. now eexists.
            -- cbn [bind map] in *. rewrite HG. cbn. split; [exact HC|]. split; [exact HFi|]. eexists. split; [reflexivity|]. split; [apply conv_of_rel|].
               split; [easy|]. now exists i, w, (length w).
          * assert (HL : lift_new (Err e) = Bad (CExn e)) by now destruct e. rewrite HL.
            assert (HE : (if Z.ltb m (Z.of_nat T) then mk_temp (temp_suffix (fi_name i)) else Ok tt) = Err e).
            { destruct (if Z.ltb m (Z.of_nat T) then mk_temp (temp_suffix (fi_name i)) else Ok tt) as [y|e'].
              - now destruct e.
              - cbn [bind] in HNew. destruct e; try easy; injection HNew as <-; reflexivity. }
            rewrite HE in HT. cbn [bind] in HT.
            destruct (Z.ltb m (Z.of_nat (T + length w))); [|easy].
            destruct (mk_temp (temp_suffix (fi_name i))) as [z|e']; cbn [bind] in *; [easy|]. injection HT as <-. now eexists. }
    induction 1 as [p|it its p x p' HG|it its p p' o HG HR IH]; intros u Hu.
    - easy.
    - pose proof (HI it p _ u HG Hu) as HX.
      assert (HY : match u_step reg mk_temp st m it u with Ok _ => False | Err e => exists p2, GBad x p' = GBad (CExn e) p2 end ->
                   match u_run reg mk_temp st m (it :: fst (eff its)) u with
                   | Ok u' => gabs p' u' /\ Bad x = match snd (eff its) with Some reset => Bad (CStop reset) | None => Good tt end
                   | Err e => @Bad unit x = Bad (CExn e)
                   end).
      { cbn [u_run]. destruct (u_step reg mk_temp st m it u) as [u'|e]; cbn [bind]; [easy|]. intros (p2 & HE). now injection HE as -> _. }
      destruct it as [e| |name tenc h payload|i w]; cbn [eff fst snd].
      1, 2, 3: destruct (eff its) as [a y]; cbn [fst snd] in *; apply HY; exact HX.
      destruct (v (fi_field i) (fi_name i)) as [| |reset].
      + destruct (eff its) as [a y]; cbn [fst snd] in *; apply HY; exact HX.
      + now destruct HX as (p2 & HX & _).
      + destruct HX as (p2 & HX & HA). injection HX as -> ->. cbn. now split.
    - assert (HX : forall u', match o with (r, q) => True end -> gabs p' u' ->
                   match u_run reg mk_temp st m (fst (eff its)) u' with
                   | Ok u2 => gabs (snd o) u2 /\ fst o = match snd (eff its) with Some reset => Bad (CStop reset) | None => Good tt end
                   | Err e => fst o = Bad (CExn e)
                   end) by (intros u' _; apply IH).
      assert (HZ : match u_step reg mk_temp st m it u with Ok u' => gabs p' u' | Err e => False end ->
                   match u_run reg mk_temp st m (it :: fst (eff its)) u with
                   | Ok u2 => gabs (snd o) u2 /\ fst o = match snd (eff its) with Some reset => Bad (CStop reset) | None => Good tt end
                   | Err e => fst o = Bad (CExn e)
                   end).
      { cbn [u_run]. destruct (u_step reg mk_temp st m it u) as [u'|e]; cbn [bind]; [|easy]. intros HA. apply IH. exact HA. }
      assert (HW : match it with
        | KFile i w =>
            match v (fi_field i) (fi_name i) with
            | Accept => match u_step reg mk_temp st m it u with Ok u' => gabs p' u' | Err e => False end
            | Skip => gabs p' (u_finish u)
            | Stop reset => False
            end
        | _ => match u_step reg mk_temp st m it u with Ok u' => gabs p' u' | Err e => False end
        end).
      { destruct HG as [HG|HG]; pose proof (HI it p _ u HG Hu) as HI1; destruct it as [e| |name tenc h payload|i w];
          try (match goal with |- context [u_step ?a ?b ?c ?d ?e ?f] => destruct (u_step a b c d e f) as [u'|e1] end; [exact HI1|now destruct HI1]).
        all: destruct (v (fi_field i) (fi_name i)) as [| |reset];
          [destruct (u_step reg mk_temp st m (KFile i w) u) as [u'|e1]; [exact HI1|now destruct HI1]
          |destruct HI1 as (p2 & HE & HA); (try easy); injection HE as ->; exact HA
          |now destruct HI1 as (p2 & HE & _)]. }
      destruct it as [e| |name tenc h payload|i w]; cbn [eff].
      1, 2, 3: destruct (eff its) as [a y]; cbn [fst snd] in *; apply HZ; exact HW.
      destruct (v (fi_field i) (fi_name i)) as [| |reset]; [| |easy].
      + destruct (eff its) as [a y]; cbn [fst snd] in *; apply HZ; exact HW.
      + specialize (IH (u_finish u) HW). destruct (eff its) as [a y]. cbn [fst snd u_run u_step bind] in *. exact IH.
  Qed.
End Guard.
