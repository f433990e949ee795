(** * Parsing with arbitrary handlers, part by part; handlers that skip files or stop the
    upload, in front of the library's (claims C95-C97) *)
From Verif Require Import Py Spec PyFacts PyDict StreamModel StreamSpec StreamFacts
  CodecModel QueryModel Base64Model HeaderModel
  BoundaryModel BoundarySpec BoundaryFacts PartFacts UploadModel MultipartModel MultipartSem MultipartFacts
  MultipartSpec Base64Facts MultipartDet FormSpec FormFacts ItemFacts BodySpec HeadLineFacts BodyFacts CustomModel CustomSem CustomFacts.

Section Run.
  Context (reg : registry) (name2cp : str -> option N) (st : mset).
  Context {S F X : Type} (O : ops S F X) (truthy : F -> bool).

  (** the content of a file in pieces *)
  Fixpoint c_feed_all (ds : list str) (hs : list S) (cs : list nat) : cr unit * (list S * list nat) :=
    match ds with
    | [] => (Good tt, (hs, cs))
    | d :: ds' => match c_feed O d hs cs with
                  | (Bad x, hc) => (Bad x, hc)
                  | (Good _, hc) => c_feed_all ds' (fst hc) (snd hc)
                  end
    end.
  Lemma gfed_content b payload hc o : gfed O b payload hc o -> forall w, content_of b payload w ->
    exists ds, concat ds = w /\ c_feed_all ds (fst hc) (snd hc) = o.
  Proof.
    induction 1 as [b hc|c rest hc hc' o HF HR IH|c rest hc x hc' HF|c rest d hc hc' o Hmod HD HF HR IH
                   |c rest d hc x hc' Hmod HD HF|c rest hc e Hmod HD|rest hc Hmod]; intros w Hc; cbn [content_of] in Hc.
    - exists []. destruct hc as [hs cs]. split; [|easy]. destruct b; cbn in Hc; [|easy].
      destruct Hc as [_ Hc]. destruct w as [|? [|? [|? ?]]]; easy.
    - subst w. destruct (IH rest eq_refl) as (ds & E1 & E2). exists (c :: ds). cbn. rewrite E1, HF. now split.
    - subst w. exists [c; rest]. cbn. rewrite app_nil_r, HF. now split.
    - destruct Hc as [Hb Hc]. rewrite remove_ws_app in Hc. destruct (b64_cut w _ _ Hc Hmod) as (d1 & d2 & -> & E1 & E2).
      rewrite bytes_only_app in Hb. apply andb_true_iff in Hb as [Hb1 Hb2].
      rewrite E1, b64_roundtrip in HD by easy. injection HD as <-.
      destruct (IH d2 (conj Hb2 E2)) as (ds & E3 & E4). exists (d1 :: ds). cbn. rewrite E3, HF. now split.
    - destruct Hc as [Hb Hc]. rewrite remove_ws_app in Hc. destruct (b64_cut w _ _ Hc Hmod) as (d1 & d2 & -> & E1 & E2).
      rewrite bytes_only_app in Hb. apply andb_true_iff in Hb as [Hb1 Hb2].
      rewrite E1, b64_roundtrip in HD by easy. injection HD as <-.
      exists [d1; d2]. cbn. rewrite app_nil_r, HF. now split.
    - exfalso. destruct Hc as [Hb Hc]. rewrite remove_ws_app in Hc.
      destruct (b64_cut w _ _ Hc Hmod) as (d1 & d2 & -> & E1 & E2).
      rewrite bytes_only_app in Hb. apply andb_true_iff in Hb as [Hb1 Hb2].
      now rewrite E1, b64_roundtrip in HD.
    - destruct Hc as [_ Hc]. now rewrite Hc, b64encode_length_mod in Hmod.
  Qed.

  Definition g_pieces (i : finfo) (len : option Z) (ds : list str) (p : cst S F) : goutcome S F :=
    let cs0 := map (fun _ => 0) (c_hs p) in
    match c_new O i len (c_hs p) with
    | (Bad CSkip, hs) => g_skip O p hs cs0
    | (Bad x, hs) => GBad x (g_set p hs cs0)
    | (Good _, hs) => g_after O p i (c_feed_all ds hs cs0)
    end.
  Definition gitem (it : item) (p : cst S F) (o : goutcome S F) : Prop :=
    (exists e, it = KErr e /\ o = GBad (CExn e) p) \/
    match c_finish O truthy p with
    | (Bad x, p1) => o = GBad x p1
    | (Good _, p1) =>
        match it with
        | KErr e => o = GBad (CExn e) p1
        | KSkip => o = GSkip p1
        | KField name tenc m payload =>
            o = match field_step reg st name tenc m (c_core p1) payload with
                | Ok core => GDone (mkC core (c_files p1) (c_old p1) (c_counters p1) (c_hs p1))
                | Err e => GBad (CExn e) p1
                end
        | KFile i w => exists len ds, concat ds = w /\ o = g_pieces i len ds p1
        end
    end.
  Lemma gstep_item p t it o : item_of reg name2cp t it -> gstep reg name2cp st O truthy p t o -> gitem it p o.
  Proof.
    unfold item_of, gstep, gitem. destruct (classify reg t) as [[[ty m] payload]|e].
    2:{ intros -> ->. left. now exists e. }
    intros HI HS. right. destruct (c_finish O truthy p) as [[u|x] p1]; [|exact HS].
    destruct (part_action name2cp ty m) as [[|name tenc|i b64]|e]; [now subst it|now subst it| |now subst it].
    destruct HI as (w & Hc & ->). unfold g_file in HS. exists (part_length m). unfold g_pieces.
    destruct (c_new O i (part_length m) (c_hs p1)) as [[v|x] hs].
    - destruct HS as (r & HF & ->). destruct (gfed_content _ _ _ _ HF w Hc) as (ds & E1 & E2).
      exists ds. split; [exact E1|]. cbn [fst snd] in E2. now rewrite E2.
    - exists [w]. cbn. rewrite app_nil_r. split; [easy|]. now destruct x.
  Qed.

  Inductive grun : list item -> cst S F -> cr unit * cst S F -> Prop :=
  | gr_nil p : grun [] p (Good tt, p)
  | gr_bad it its p x p' : gitem it p (GBad x p') -> grun (it :: its) p (Bad x, p')
  | gr_next it its p p' o : gitem it p (GDone p') \/ gitem it p (GSkip p') -> grun its p' o -> grun (it :: its) p o.

  Lemma item_skip it p p' : gitem it p (GSkip p') -> it = KSkip.
  Proof.
    unfold gitem. intros [(e & _ & H)|H]; [easy|]. destruct (c_finish O truthy p) as [[u|x] p1]; [|easy].
    destruct it as [e| |name tenc m payload|i w]; [easy|easy| |].
    - now destruct (field_step reg st name tenc m (c_core p1) payload).
    - destruct H as (len & ds & _ & H). unfold g_pieces, g_after, g_skip in H.
      destruct (c_new O i len (c_hs p1)) as [[v|x] hs].
      + destruct (c_feed_all ds hs _) as [[v1|x] [hs1 cs1]]; [easy|].
        destruct x; try easy. now destruct (c_close O hs1) as [[v1|x] hs2].
      + destruct x; try easy. now destruct (c_close O hs) as [[v1|x] hs2].
  Qed.
  Lemma finish_idem_c p p1 : c_finish O truthy p = (Good tt, p1) -> c_finish O truthy p1 = (Good tt, p1).
  Proof.
    unfold c_finish. destruct (c_old p) as [|c n] eqn:E.
    - intros H. injection H as <-. now rewrite E.
    - destruct (c_complete O truthy _ _ _ _) as [[fs|x] hs]; [|easy]. intros H. now injection H as <-.
  Qed.
  (** a piece all rests of which are skipped does nothing but end the file before it *)
  Lemma gskip_all D r p o : gparses reg name2cp st O truthy D r p o -> forall t af,
    r <> [] -> block D r t af -> item_of reg name2cp t KSkip -> skipped t ->
    (exists x p', gitem KSkip p (GBad x p') /\ o = (Bad x, p')) \/
    (exists p', gitem KSkip p (GSkip p') /\ gparses reg name2cp st O truthy D (odef af) p' o).
  Proof.
    induction 1 as [p|r t1 af1 p x p' Hr1 Hb1 HS1|r t1 af1 p p' o Hr1 Hb1 HS1 HP IH|r t1 af1 p p' o Hr1 Hb1 HS1 HP IH
                     |r t1 af1 p p' k o Hr1 Hb1 HS1 Hk HP IH]; intros t af Hr Hb Hi Hsk; [easy|..];
      destruct (block_det D r _ _ _ _ Hb Hb1) as [<- <-];
      pose proof (gstep_item p t KSkip _ Hi HS1) as HX.
    - left. now exists x, p'.
    - exfalso. destruct HX as [(e & HX & _)|HX]; [easy|]. now destruct (c_finish O truthy p) as [[u|x] p1].
    - right. now exists p'.
    - destruct (skipn k r) as [|x r'] eqn:E.
      + right. exists p'. split; [easy|]. destruct Hb as [v w [Hf _]|Hn]; [|exact HP].
        assert (HL : length (skipn k r) = 0) by now rewrite E. rewrite skipn_length in HL.
        destruct (trim_eol_prefix v) as (y & Hy). pose proof (f_equal (@length N) Hy) as HL2. rewrite app_length in HL2.
        subst r. rewrite !app_length in HL. destruct w as [|z w]; [exact HP|]. cbn [length] in HL. lia.
      + rewrite <- E in *. assert (HF : c_finish O truthy p = (Good tt, p')).
        { destruct HX as [(e & HX & _)|HX]; [easy|]. destruct (c_finish O truthy p) as [[[]|y] p1]; [|easy]. now injection HX as ->. }
        destruct (IH (skipn k t) af) as [(y & p2 & H1 & H2)|(p2 & H1 & H2)].
        * now rewrite E.
        * apply block_skipn; [easy|lia].
        * now apply Hsk.
        * now apply skipped_skipn.
        * exfalso. destruct H1 as [(e & H1 & _)|H1]; [easy|]. now rewrite (finish_idem_c _ _ HF) in H1.
        * right. exists p2. split; [|easy]. destruct H1 as [(e & H1 & _)|H1]; [easy|]. rewrite (finish_idem_c _ _ HF) in H1.
          injection H1 as ->. exact HX.
  Qed.
  Theorem gparses_run D : forall r ts, splits D r ts -> forall its, Forall2 (item_of reg name2cp) ts its ->
    Forall2 small ts its -> forall p o, gparses reg name2cp st O truthy D r p o -> grun its p o.
  Proof.
    induction 1 as [|r t af ts Hr Hb HS IH]; intros its HI Hsm p o HP.
    - inversion HI; subst. inversion HP; subst; try easy. constructor.
    - inversion HI as [|t' it ts' its' Hit HI' E1 E2]; subst.
      inversion Hsm as [|? ? ? ? Hs1 Hsm']; subst. pose proof HP as HP0.
      destruct HP as [|r t1 af1 p x p' Hr1 Hb1 HS1|r t1 af1 p p' o Hr1 Hb1 HS1 HP|r t1 af1 p p' o Hr1 Hb1 HS1 HP
                     |r t1 af1 p p' k o Hr1 Hb1 HS1 Hk HP]; [easy|..];
        destruct (block_det D r _ _ _ _ Hb Hb1) as [<- <-];
        pose proof (gstep_item p t it _ Hit HS1) as HX.
      + now apply gr_bad.
      + apply (gr_next _ _ _ p'); [now left|]. now apply IH.
      + apply (gr_next _ _ _ p'); [now right|]. now apply IH.
      + pose proof (item_skip _ _ _ HX) as ->. 
        destruct (gskip_all D r p o HP0 t af Hr Hb Hit (Hs1 eq_refl)) as [(y & p2 & H1 & ->)|(p2 & H1 & H2)]; [now apply gr_bad|].
        apply (gr_next _ _ _ p2); [now right|]. now apply IH.
  Qed.
End Run.

(** ** Bodies made of pieces, with any handlers *)
Section Body.
  Context (reg : registry) (name2cp : str -> option N) (st : mset) (D : str).
  Context (HD : 3 <= length D) (HN : no_newline D).
  Context {S F X : Type} (O : ops S F X) (truthy : F -> bool).

  (** a body of which only the beginning is known *)
  Lemma gparses_cuts r ts r' : cuts D r ts r' -> forall its, Forall2 (item_of reg name2cp) ts its ->
    Forall2 small ts its -> forall p o, gparses reg name2cp st O truthy D r p o ->
    exists o1, grun reg st O truthy its p o1 /\ (o = o1 \/ exists p', o1 = (Good tt, p') /\ gparses reg name2cp st O truthy D r' p' o).
  Proof.
    induction 1 as [r|r t af ts r' Hr Hb HS IH]; intros its HI Hsm p o HP.
    - inversion HI; subst. exists (Good tt, p). split; [constructor|]. right. now exists p.
    - inversion HI as [|t' it ts' its' Hit HI' E1 E2]; subst.
      inversion Hsm as [|? ? ? ? Hs1 Hsm']; subst. pose proof HP as HP0.
      destruct HP as [|r t1 af1 p x p' Hr1 Hb1 HS1|r t1 af1 p p' o Hr1 Hb1 HS1 HP|r t1 af1 p p' o Hr1 Hb1 HS1 HP
                     |r t1 af1 p p' k o Hr1 Hb1 HS1 Hk HP]; [easy|..];
        destruct (block_det D r _ _ _ _ Hb Hb1) as [<- <-];
        pose proof (gstep_item reg name2cp st O truthy p t it _ Hit HS1) as HX.
      + exists (Bad x, p'). split; [now apply gr_bad|now left].
      + destruct (IH its' HI' Hsm' p' o HP) as (o1 & H1 & H2). exists o1. split; [|exact H2]. apply (gr_next _ _ _ _ _ _ _ p'); [now left|easy].
      + destruct (IH its' HI' Hsm' p' o HP) as (o1 & H1 & H2). exists o1. split; [|exact H2]. apply (gr_next _ _ _ _ _ _ _ p'); [now right|easy].
      + pose proof (item_skip _ _ _ _ _ _ _ HX) as ->. 
        destruct (gskip_all reg name2cp st O truthy D r p o HP0 t (Some af) Hr Hb Hit (Hs1 eq_refl)) as [(y & p2 & H1 & ->)|(p2 & H1 & H2)].
        * exists (Bad y, p2). split; [now apply gr_bad|now left].
        * destruct (IH its' HI' Hsm' p2 o H2) as (o1 & H3 & H4). exists o1. split; [|exact H4].
          apply (gr_next _ _ _ _ _ _ _ p2); [now right|easy].
  Qed.
  Theorem c_parse_upto s csize len fuel hs hs1 qd pre es x its :
    pre_ok D pre -> Forall (piece_ok D) es -> Forall2 (pitem reg name2cp) es its ->
    querydict reg (Some (ms_query st)) None true = Ok qd ->
    src_bytes s = upto D pre es ++ x -> src_error s = None -> 0 < csize -> len <> 0%Z -> enough s <= fuel ->
    c_raw O len hs = (Good None, hs1) ->
    exists o o1, grun reg st O truthy its (c_begin hs1) o1 /\ (o = o1 \/ exists p', o1 = (Good tt, p')) /\
      fst (c_parse src_read it_exhaust reg name2cp st D fuel O truthy len csize hs s) = c_result O o /\
      rest_of s (snd (c_parse src_read it_exhaust reg name2cp st D fuel O truthy len csize hs s)) /\
      (match fst o with
       | Good _ => True
       | Bad (CStop false) => exists u hs2, c_close O (c_hs (snd o)) = (Good u, hs2)
       | _ => False
       end -> snd (c_parse src_read it_exhaust reg name2cp st D fuel O truthy len csize hs s) = []).
  Proof.
    intros HP HF HI Hqd Hs He Hcs Hl Hf Hraw.
    assert (HI2 : Forall2 (item_of reg name2cp) (map piece_bytes es) its /\ Forall2 small (map piece_bytes es) its).
    { clear -HF HI. induction HI as [|e it es its [H1 H2] HI IH]; [split; constructor|]. inversion_clear HF as [|? ? He HF'].
      destruct (IH HF') as [A B]. split; constructor; try easy. destruct e as [p|j].
      - destruct H2 as [_ H2]. now intros ->.
      - subst it. apply small_ignorable. apply He. }
    destruct HI2 as [I2 I3]. destruct (open_skip reg name2cp (fun _ => Ok tt) D pre HP) as [J1 J2].
    destruct (c_parse_sem reg name2cp st D (D_ok name2cp (fun _ => Ok tt) D HD HN) O truthy s csize len hs hs1 qd fuel Hcs He Hqd Hl Hf Hraw)
      as (o & HG & HR). rewrite Hs in HG.
    destruct (gparses_cuts _ _ _ (upto_cuts D pre es x HD HN HP HF) (KSkip :: its) ltac:(now constructor) ltac:(now constructor) _ _ HG)
      as (o1 & HX & HO). exists o, o1. split.
    - inversion HX as [|? ? ? ? ? HB|? ? ? p' ? HB HR2]; subst.
      + destruct HB as [(e & HB & _)|HB]; [easy|]. cbn in HB. easy.
      + assert (E : p' = c_begin hs1); [|now subst p'].
        destruct HB as [[(e & HB & _)|HB]|[(e & HB & _)|HB]]; cbn in HB; try easy. now injection HB.
    - split; [|exact HR]. destruct HO as [HO|(p' & HO & _)]; [now left|]. right. now exists p'.
  Qed.

  Theorem c_parse_body s csize len fuel hs hs1 qd pre es epi its :
    pre_ok D pre -> Forall (piece_ok D) es -> junk_ok D (!"--" ++ epi) -> Forall2 (pitem reg name2cp) es its ->
    querydict reg (Some (ms_query st)) None true = Ok qd ->
    src_bytes s = render_body D pre es epi -> src_error s = None -> 0 < csize -> len <> 0%Z -> enough s <= fuel ->
    c_raw O len hs = (Good None, hs1) ->
    exists o, grun reg st O truthy (its ++ [KSkip]) (c_begin hs1) o /\
      fst (c_parse src_read it_exhaust reg name2cp st D fuel O truthy len csize hs s) = c_result O o /\
      rest_of s (snd (c_parse src_read it_exhaust reg name2cp st D fuel O truthy len csize hs s)) /\
      (match fst o with
       | Good _ => True
       | Bad (CStop false) => exists u hs2, c_close O (c_hs (snd o)) = (Good u, hs2)
       | _ => False
       end -> snd (c_parse src_read it_exhaust reg name2cp st D fuel O truthy len csize hs s) = []).
  Proof.
    intros HP HF HE HI Hqd Hs He Hcs Hl Hf Hraw.
    assert (HI2 : Forall2 (item_of reg name2cp) (map piece_bytes es) its /\ Forall2 small (map piece_bytes es) its).
    { clear -HF HI. induction HI as [|e it es its [H1 H2] HI IH]; [split; constructor|]. inversion_clear HF as [|? ? He HF'].
      destruct (IH HF') as [A B]. split; constructor; try easy. destruct e as [p|j].
      - destruct H2 as [_ H2]. now intros ->.
      - subst it. apply small_ignorable. apply He. }
    destruct HI2 as [I2 I3]. destruct (open_skip reg name2cp (fun _ => Ok tt) D pre HP) as [J1 J2].
    assert (K1 : item_of reg name2cp (!"--" ++ epi) KSkip /\ small (!"--" ++ epi) KSkip).
    { destruct HE as [_ Hi]. split; [now apply ignorable_item|now apply small_ignorable]. }
    destruct (c_parse_sem reg name2cp st D (D_ok name2cp (fun _ => Ok tt) D HD HN) O truthy s csize len hs hs1 qd fuel Hcs He Hqd Hl Hf Hraw)
      as (o & HG & HR). rewrite Hs in HG. exists o. split; [|exact HR].
    assert (HX : grun reg st O truthy (KSkip :: its ++ [KSkip]) (c_begin hs1) o).
    { apply (gparses_run reg name2cp st O truthy D _ ((open_piece pre :: map piece_bytes es) ++ [!"--" ++ epi])) with (4 := HG).
      - apply (cuts_splits D _ _ (!"--" ++ epi)); [now apply upto_cuts|]. apply tail_splits; [easy|]. apply HE.
      - constructor; [easy|]. apply Forall2_app; [easy|]. constructor; [apply K1|constructor].
      - constructor; [easy|]. apply Forall2_app; [easy|]. constructor; [apply K1|constructor]. }
    inversion HX as [|? ? ? ? ? HB|? ? ? p' ? HB HR2]; subst.
    - destruct HB as [(e & HB & _)|HB]; [easy|]. cbn in HB. easy.
    - assert (E : p' = c_begin hs1); [|now subst p'].
      destruct HB as [[(e & HB & _)|HB]|[(e & HB & _)|HB]]; cbn in HB; try easy. now injection HB.
  Qed.
End Body.
