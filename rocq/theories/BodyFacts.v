(** * Bodies with ignored pieces, and truncated bodies *)
From Coq Require Import ZifyBool ZifyN ZifyNat.
From Verif Require Import Py PyFacts PyDict Spec StreamModel StreamSpec StreamFacts CodecModel QueryModel
  Base64Model HeaderModel HeaderSpec HeaderFacts BoundaryModel BoundarySpec BoundaryFacts PartFacts UploadModel
  MultipartModel MultipartSem MultipartFacts MultipartSpec MultipartDet FormSpec FormFacts UploadFacts MultipartInv
  BodySpec HeadLineFacts ItemFacts.

Lemma forall2_length {A B} (R : A -> B -> Prop) l1 l2 : Forall2 R l1 l2 -> length l1 = length l2.
Proof. induction 1; cbn; congruence. Qed.

(** ** Complete pieces *)
Inductive cuts (D : str) : str -> list str -> str -> Prop :=
| cu_nil r : cuts D r [] r
| cu_cons r t v ts r' : r <> [] -> block D r t (Some v) -> cuts D v ts r' -> cuts D r (t :: ts) r'.

Lemma cuts_splits D r ts r' ts' : cuts D r ts r' -> splits D r' ts' -> splits D r (ts ++ ts').
Proof.
  induction 1 as [|r t v ts r' Hr Hb HC IH]; intros HS; [easy|]. cbn [app].
  apply (sp_cons D r t (Some v)); [easy|easy|]. now apply IH.
Qed.
Lemma cuts_app D r ts r' ts' r'' : cuts D r ts r' -> cuts D r' ts' r'' -> cuts D r (ts ++ ts') r''.
Proof. induction 1 as [|r t v ts r' Hr Hb HC IH]; intros HS; [easy|]. apply (cu_cons D r t v); [easy|easy|now apply IH]. Qed.

Lemma block_delim D u v : 3 <= length D -> no_newline D -> ~ occurs D u -> block D (u ++ crlf ++ D ++ v) u (Some v).
Proof.
  intros HD HN Hu. rewrite <- (trim_crlf u) at 2. apply block_found. apply first_delim; try easy. destruct D; [cbn in HD; lia|easy].
Qed.
Lemma piece_nodelim D e : piece_ok D e -> ~ occurs D (piece_bytes e).
Proof. destruct e as [p|j]; cbn; [|now intros []]. intros HP. apply HP. Qed.

Lemma pieces_cuts D x : 3 <= length D -> no_newline D -> forall es, Forall (piece_ok D) es ->
  cuts D (concat (map (fun e => piece_bytes e ++ crlf ++ D) es) ++ x) (map piece_bytes es) x.
Proof.
  intros HD HN. induction es as [|e es IH]; intros HF; [constructor|]. inversion_clear HF as [|? ? He HF'].
  cbn [map concat]. rewrite <- !app_assoc. apply (cu_cons D _ _ (concat (map (fun e => piece_bytes e ++ crlf ++ D) es) ++ x)).
  - intros E. apply (f_equal (@length N)) in E. rewrite !app_length in E. cbn in E. lia.
  - apply block_delim; try easy. now apply piece_nodelim.
  - now apply IH.
Qed.
Definition open_piece (pre : option str) : str := match pre with None => [] | Some j => j end.
Lemma upto_cuts D pre es x : 3 <= length D -> no_newline D -> pre_ok D pre -> Forall (piece_ok D) es ->
  cuts D (upto D pre es ++ x) (open_piece pre :: map piece_bytes es) x.
Proof.
  intros HD HN HP HF. unfold upto.
  apply (cu_cons D _ _ (concat (map (fun e => piece_bytes e ++ crlf ++ D) es) ++ x)).
  - destruct pre as [j|]; cbn [body_open]; intros E; apply (f_equal (@length N)) in E; rewrite !app_length in E; cbn in E; lia.
  - destruct pre as [j|]; cbn [body_open open_piece]; rewrite <- !app_assoc.
    + apply block_delim; [easy|easy|]. apply HP.
    + change (@nil N) with (trim_eol []). apply block_found. split; [easy|]. intros. cbn. lia.
  - now apply pieces_cuts.
Qed.

(** ** The run over complete pieces *)
Section Cut.
  Context (reg : registry) (name2cp : str -> option N) (mk_temp : str -> res unit) (st : mset) (m : Z).
  Context (Hst : ms_fmem st = Some m) (Hmk : forall x, mk_temp x <> Err StopFutureHandlers).

  Theorem run_cuts D : forall r ts r', cuts D r ts r' -> forall its, Forall2 (item_of reg name2cp) ts its ->
    Forall2 small ts its -> forall p u o, abs m p u -> parses reg name2cp mk_temp st D r p o ->
    match u_run reg mk_temp st m its u with
    | Err e => o = Err e
    | Ok u' => exists p', abs m p' u' /\ parses reg name2cp mk_temp st D r' p' o
    end.
  Proof.
    induction 1 as [|r t v ts r' Hr Hb HS IH]; intros its HI Hsm p u o HA HP.
    - inversion HI; subst. cbn. now exists p.
    - inversion HI as [|t' it ts' its' Hit HI' E1 E2]; subst.
      inversion Hsm as [|? ? ? ? Hs1 Hsm']; subst. cbn [u_run]. pose proof HP as HP0.
      destruct HP as [|r t1 af1 p e Hr1 Hb1 HS1|r t1 af1 p p' o Hr1 Hb1 HS1 HP|r t1 af1 p p' o Hr1 Hb1 HS1 HP
                     |r t1 af1 p p' k o Hr1 Hb1 HS1 Hk HP]; [easy|..];
        destruct (block_det D r _ _ _ _ Hb Hb1) as [<- <-];
        pose proof (step_det reg name2cp mk_temp st m Hst Hmk p u t it _ HA Hit HS1) as HX;
        destruct (u_step reg mk_temp st m it u) as [u'|e'] eqn:ES; cbn [bind]; try easy.
      + destruct HX as (p' & HX & _). now destruct it.
      + now injection HX as <-.
      + destruct HX as (p2 & HX & HA2). destruct it; (try easy); injection HX as <-; now apply (IH its' HI' Hsm' p').
      + destruct HX as (p2 & HX & HA2). destruct it; (try easy); injection HX as <-; now apply (IH its' HI' Hsm' p').
      + destruct HX as (p2 & HX & HA2). destruct it; (try easy). 
        destruct (skip_all reg name2cp mk_temp st m Hst Hmk D r p o HP0 t (Some v) u Hr Hb Hit (Hs1 eq_refl) HA) as (p3 & HA3 & HP3).
        cbn [u_step] in ES. injection ES as <-. now apply (IH its' HI' Hsm' p3).
  Qed.

  (** what follows the last delimiter never adds a file *)
  Lemma finish_idem_file p p1 : finish_file p = Ok p1 -> finish_file p1 = Ok p1.
  Proof.
    unfold finish_file. destruct (p_old p) as [|c n] eqn:E.
    - intros H. injection H as <-. now rewrite E.
    - destruct (file_complete _ _ _ _); cbn [bind]; [|easy]. intros H. now injection H as <-.
  Qed.
  Lemma tail_files D : forall r p o, parses reg name2cp mk_temp st D r p o -> ~ occurs D r ->
    forall p', o = Ok p' -> r = [] /\ p' = p \/ exists p1, finish_file p = Ok p1 /\ p_files p' = p_files p1.
  Proof.
    intros r p o HP. induction HP as [p|r t af p e Hr Hb HS|r t af p p1 o Hr Hb HS HP IH|r t af p p1 o Hr Hb HS HP IH
      |r t af p p1 k o Hr Hb HS Hk HP IH]; intros Hn p' E; try easy.
    - left. now injection E as <-.
    - assert (HB : t = r /\ af = None).
      { destruct Hb as [u v Hf|_]; [|easy]. exfalso. apply Hn. exists u, v. apply Hf. }
      destruct HB as [-> ->]. cbn [odef] in *.
      assert (p' = p1) as -> by (inversion HP; subst; congruence).
      right. unfold step in HS. destruct (classify reg r) as [[[ty h] payload]|e]; [|easy].
      destruct (finish_file p) as [p2|e] eqn:EF; [|easy]. exists p2. split; [easy|].
      destruct (part_action name2cp ty h) as [[|name tenc|i b64]|e]; try easy.
      + destruct (field_step reg st name tenc h p2 payload) as [p3|e] eqn:EFS; [|easy]. injection HS as ->.
        unfold field_step in EFS. destruct (match ms_dnum st with Some n => _ | None => false end); [easy|].
        match goal with _ : context [@bind str pst ?x _] |- _ => destruct x as [raw|e] end; cbn [bind] in EFS; [|easy].
        match goal with _ : context [@bind str pst ?x _] |- _ => destruct x as [data|e] end; cbn [bind] in EFS; [|easy].
        destruct (match ms_dmem st with Some n => _ | None => false end); [easy|].
        destruct (post_append _ _ _ _ _); cbn [bind] in EFS; [|easy]. now injection EFS as <-.
      + destruct (new_files mk_temp i (p_hs p2)); [|easy]. destruct HS as ([hc|e] & _ & Ho); [|easy]. now injection Ho as ->.
    - assert (HB : t = r /\ af = None).
      { destruct Hb as [u v Hf|_]; [|easy]. exfalso. apply Hn. exists u, v. apply Hf. }
      destruct HB as [-> ->]. cbn [odef] in *. assert (p' = p1) as -> by (inversion HP; subst; congruence).
      right. unfold step in HS. destruct (classify reg r) as [[[ty h] payload]|e]; [|easy].
      destruct (finish_file p) as [p2|e] eqn:EF; [|easy]. exists p2. split; [easy|].
      destruct (part_action name2cp ty h) as [[|name tenc|i b64]|e]; try easy.
      + now injection HS as ->.
      + now destruct (field_step _ _ _ _ _ _ _).
      + destruct (new_files mk_temp i (p_hs p2)); [|easy]. now destruct HS as ([hc|e] & _ & Ho).
    - assert (HF : finish_file p = Ok p1).
      { unfold step in HS. destruct (classify reg t) as [[[ty h] payload]|e]; [|easy].
        destruct (finish_file p) as [p2|e] eqn:EF; [|easy].
        destruct (part_action name2cp ty h) as [[|name tenc|i b64]|e]; try easy.
        - now injection HS as ->.
        - now destruct (field_step _ _ _ _ _ _ _).
        - destruct (new_files mk_temp i (p_hs p2)); [|easy]. now destruct HS as ([hc|e] & _ & Ho). }
      right. exists p1. split; [easy|].
      assert (Hn' : ~ occurs D (skipn k r)).
      { intros Ho. apply Hn. apply (occurs_trans _ _ _ Ho). apply occurs_skipn. }
      destruct (IH Hn' p' E) as [[_ ->]|(p2 & E2 & ->)]; [easy|].
      rewrite (finish_idem_file p p1 HF) in E2. now injection E2 as <-.
  Qed.
End Cut.

(** ** Bodies of pieces *)
Definition pitem (reg : registry) (name2cp : str -> option N) (e : piece) (it : item) : Prop :=
  item_of reg name2cp (piece_bytes e) it /\
  match e with APart p => item_for p it /\ it <> KSkip | AJunk _ => it = KSkip end.

Section Body.
  Context (reg : registry) (name2cp : str -> option N) (mk_temp : str -> res unit) (D : str).

  Lemma pieces_items es : Forall (piece_ok D) es -> exists its, Forall2 (pitem reg name2cp) es its /\
    Forall2 (item_of reg name2cp) (map piece_bytes es) its /\ Forall2 small (map piece_bytes es) its.
  Proof.
    induction 1 as [|e es He HF IH]; [exists []; split; [constructor|split; constructor]|].
    destruct IH as (its & I1 & I2 & I3).
    assert (HX : exists it, pitem reg name2cp e it /\ small (piece_bytes e) it).
    { destruct e as [p|j]; cbn in He.
      - destruct (item_part reg name2cp p D He) as (it & J1 & J2 & J3). exists it. split; [now split|]. now intros ->.
      - exists KSkip. destruct He as [_ Hi]. split; [split; [now apply ignorable_item|easy]|]. now apply small_ignorable. }
    destruct HX as (it & J1 & J2). exists (it :: its). cbn [map].
    split; [now constructor|]. split; [constructor; [apply J1|easy]|]. now constructor.
  Qed.

  (** the items of the parts alone *)
  Lemma pitem_filter es its : Forall2 (pitem reg name2cp) es its ->
    Forall2 (fun p it => item_of reg name2cp (render_part p) it /\ item_for p it /\ it <> KSkip) (parts_of es)
            (filter (fun it => negb (kskip it)) its).
  Proof.
    induction 1 as [|e it es its [H1 H2] HF IH]; [constructor|]. cbn [filter parts_of flat_map].
    destruct e as [p|j]; cbn [app].
    - destruct it; cbn [kskip negb]; try (constructor; [easy|exact IH]). now destruct H2.
    - subst it. cbn. exact IH.
  Qed.
  Lemma parts_ok es : Forall (piece_ok D) es -> Forall (part_ok D) (parts_of es).
  Proof.
    induction 1 as [|e es He HF IH]; [constructor|]. cbn. destruct e; [|easy]. now constructor.
  Qed.
  Lemma open_skip pre : pre_ok D pre -> item_of reg name2cp (open_piece pre) KSkip /\ small (open_piece pre) KSkip.
  Proof.
    destruct pre as [j|]; cbn.
    - intros [_ Hi]. split; [now apply ignorable_item|now apply small_ignorable].
    - intros _. split; [reflexivity|]. apply small_short. unfold head_size. cbn. lia.
  Qed.

  Context (HD : 3 <= length D) (HN : no_newline D).
  Lemma D_ok : Dok D.
  Proof.
    split; [|easy]. destruct D as [|x D']; [cbn in HD; lia|]. cbn. destruct HN as [H1 H2].
    split; intros ->; [apply H1|apply H2]; now left.
  Qed.

  Lemma tail_splits x : x <> [] -> ~ occurs D x -> splits D x [x].
  Proof. intros Hx Hn. apply (sp_cons D x x None); [easy|now constructor|constructor]. Qed.

  (** the result of a body is that of its items *)
  Theorem parse_body st m s csize len fuel qd pre es epi its :
    pre_ok D pre -> Forall (piece_ok D) es -> junk_ok D (!"--" ++ epi) -> Forall2 (pitem reg name2cp) es its ->
    ms_fmem st = Some m -> (0 <= m)%Z -> (forall x, mk_temp x <> Err StopFutureHandlers) ->
    querydict reg (Some (ms_query st)) None true = Ok qd ->
    src_bytes s = render_body D pre es epi -> src_error s = None -> 0 < csize -> len <> 0%Z -> enough s <= fuel ->
    match u_run reg mk_temp st m (its ++ [KSkip]) u_start with
    | Err e => fst (parse_src reg name2cp mk_temp st D fuel csize len [HConv new_conv] s) = Err e
    | Ok u => parse_src reg name2cp mk_temp st D fuel csize len [HConv new_conv] s = (Ok (u_post u, u_files u), [])
    end.
  Proof.
    intros HP HF HE HI Hst Hm Hmk Hqd Hs He Hcs Hl Hf.
    assert (HI2 : Forall2 (item_of reg name2cp) (map piece_bytes es) its /\ Forall2 small (map piece_bytes es) its).
    { clear -HF HI. induction HI as [|e it es its [H1 H2] HI IH]; [split; constructor|]. inversion_clear HF as [|? ? He HF'].
      destruct (IH HF') as [A B]. split; constructor; try easy. destruct e as [p|j].
      - destruct H2 as [_ H2]. now intros ->.
      - subst it. apply small_ignorable. apply He. }
    destruct HI2 as [I2 I3]. destruct (open_skip pre HP) as [J1 J2].
    assert (K1 : item_of reg name2cp (!"--" ++ epi) KSkip /\ small (!"--" ++ epi) KSkip).
    { destruct HE as [_ Hi]. split; [now apply ignorable_item|now apply small_ignorable]. }
    pose proof (parse_src_det reg name2cp mk_temp st D D_ok s csize len m qd fuel
                  ((open_piece pre :: map piece_bytes es) ++ [!"--" ++ epi]) (KSkip :: its ++ [KSkip])
                  Hcs He Hqd Hl Hf Hst Hm Hmk) as HR.
    rewrite Hs in HR. cbn [u_run u_step u_finish u_start u_pend bind] in HR. apply HR; clear HR.
    - apply (cuts_splits D _ _ (!"--" ++ epi)); [now apply upto_cuts|]. apply tail_splits; [easy|]. apply HE.
    - constructor; [easy|]. apply Forall2_app; [easy|]. constructor; [apply K1|constructor].
    - constructor; [easy|]. apply Forall2_app; [easy|]. constructor; [apply K1|constructor].
  Qed.

  (** ** Ignored pieces *)
  Lemma form_body ps : render_form D ps = render_body D None (map APart ps) crlf.
  Proof. unfold render_form, render_body, upto, body_open. rewrite map_map. cbn [piece_bytes]. now rewrite <- app_assoc. Qed.
  Lemma end_ok : junk_ok D (!"--" ++ crlf).
  Proof.
    split.
    - intros (u & v & H). assert (Hl : length D + length u + length v = 4).
      { apply (f_equal (@length N)) in H. rewrite !app_length in H. cbn in H. lia. }
      destruct HN as [HN1 HN2]. assert (In 13%N (u ++ D ++ v)) by (rewrite <- H; cbn; tauto).
      destruct u as [|a [|b u]]; cbn in Hl; [| |lia].
      + cbn in H. destruct D as [|a [|b [|c D']]]; cbn in HD; try lia. cbn in H. injection H as _ _ <- _. apply HN1. cbn. tauto.
      + cbn in H. destruct D as [|a' [|b [|c D']]]; cbn in HD; try lia. cbn in H. injection H as _ _ <- _. apply HN1. cbn. tauto.
    - split; [|now cbn; intros [H|[H|[H|[H|[]]]]]].
      intros Ho. apply find_None in Ho; [easy|]. reflexivity.
  Qed.
  Lemma parts_pieces ps : Forall (part_ok D) ps -> Forall (piece_ok D) (map APart ps).
  Proof. induction 1; cbn; now constructor. Qed.

  Theorem junk_no_trace st m s1 s2 csize1 csize2 len1 len2 fuel1 fuel2 qd pre es epi :
    pre_ok D pre -> Forall (piece_ok D) es -> junk_ok D (!"--" ++ epi) ->
    ms_fmem st = Some m -> (0 <= m)%Z -> (forall x, mk_temp x <> Err StopFutureHandlers) ->
    querydict reg (Some (ms_query st)) None true = Ok qd ->
    src_bytes s1 = render_body D pre es epi -> src_error s1 = None -> 0 < csize1 -> len1 <> 0%Z -> enough s1 <= fuel1 ->
    src_bytes s2 = render_form D (parts_of es) -> src_error s2 = None -> 0 < csize2 -> len2 <> 0%Z -> enough s2 <= fuel2 ->
    fst (parse_src reg name2cp mk_temp st D fuel1 csize1 len1 [HConv new_conv] s1) =
    fst (parse_src reg name2cp mk_temp st D fuel2 csize2 len2 [HConv new_conv] s2).
  Proof.
    intros HP HF HE Hst Hm Hmk Hqd Hs1 He1 Hcs1 Hl1 Hf1 Hs2 He2 Hcs2 Hl2 Hf2.
    destruct (pieces_items es HF) as (its & I1 & I2 & I3).
    pose proof (parse_body st m s1 csize1 len1 fuel1 qd pre es epi its HP HF HE I1 Hst Hm Hmk Hqd Hs1 He1 Hcs1 Hl1 Hf1) as R1.
    assert (I4 : Forall2 (pitem reg name2cp) (map APart (parts_of es)) (filter (fun it => negb (kskip it)) its)).
    { pose proof (pitem_filter es its I1) as HX. clear -HX. induction HX as [|p it l its' H HX IH]; [constructor|].
      cbn. constructor; [|exact IH]. now split. }
    rewrite form_body in Hs2.
    pose proof (parse_body st m s2 csize2 len2 fuel2 qd None (map APart (parts_of es)) crlf _ I
                  (parts_pieces _ (parts_ok es HF)) end_ok I4 Hst Hm Hmk Hqd Hs2 He2 Hcs2 Hl2 Hf2) as R2.
    rewrite run_skips in R1.
    destruct (u_run reg mk_temp st m (filter _ its ++ [KSkip]) u_start) as [u|e].
    - now rewrite R1, R2.
    - now rewrite R1, R2.
  Qed.

  (** ** The limits *)
  Lemma kfields_app a b : kfields (a ++ b) = kfields a + kfields b.
  Proof. unfold kfields. now rewrite filter_app, app_length. Qed.
  Lemma kbytes_app a b : kbytes (a ++ b) = kbytes a + kbytes b.
  Proof. unfold kbytes. now rewrite map_app, list_sum_app. Qed.
  Lemma pitem_counts es its : Forall2 (pitem reg name2cp) es its ->
    kfields its = field_count (parts_of es) /\ kbytes its = field_bytes (parts_of es) /\ Forall kplain its.
  Proof.
    induction 1 as [|e it es its [H1 H2] HF (IH1 & IH2 & IH3)]; [now split|].
    change (it :: its) with ([it] ++ its). rewrite kfields_app, kbytes_app, IH1, IH2.
    destruct e as [p|j].
    - change (parts_of (APart p :: es)) with (p :: parts_of es). destruct H2 as [H2 _].
      assert (EF : is_field p = match pt_file p with None => true | Some _ => false end) by reflexivity.
      unfold item_for, field_count, field_bytes in *. cbn [filter]. destruct (pt_file p) as [f|]; rewrite EF.
      + destruct H2 as (i & -> & _). split; [reflexivity|]. split; [reflexivity|]. now constructor.
      + destruct H2 as (h & -> & _). cbn [map list_sum fold_right length]. split; [reflexivity|]. split; [|now constructor].
        change (fold_right Nat.add 0) with list_sum. unfold kbytes. cbn. lia.
    - subst it. split; [reflexivity|]. split; [reflexivity|]. now constructor.
  Qed.

  Theorem field_limit st m s csize len fuel pre es epi n r c :
    reg (ms_charset st) = Some c -> codec_ok c ->
    pre_ok D pre -> Forall (piece_ok D) es -> junk_ok D (!"--" ++ epi) ->
    ms_fmem st = Some m -> (0 <= m)%Z -> (forall x, mk_temp x <> Err StopFutureHandlers) ->
    src_bytes s = render_body D pre es epi -> src_error s = None -> 0 < csize -> len <> 0%Z -> enough s <= fuel ->
    (0 <= n)%Z ->
    fst (parse_src reg name2cp mk_temp (with_dnum st None) D fuel csize len [HConv new_conv] s) = Ok r ->
    fst (parse_src reg name2cp mk_temp (with_dnum st (Some n)) D fuel csize len [HConv new_conv] s) =
      if Z.ltb n (Z.of_nat (field_count (parts_of es))) then Err TooManyFieldsSent else Ok r.
  Proof.
    intros Hreg Hc HP HF HE Hst Hm Hmk Hs He Hcs Hl Hf Hn HR.
    destruct (pieces_items es HF) as (its & I1 & I2 & I3). destruct (pitem_counts es its I1) as (C1 & _).
    destruct (querydict_none reg (with_dnum st None) c Hreg Hc true I) as [qd1 Hq1].
    destruct (querydict_none reg (with_dnum st (Some n)) c Hreg Hc true Hn) as [qd2 Hq2].
    pose proof (parse_body (with_dnum st None) m s csize len fuel qd1 pre es epi its HP HF HE I1 Hst Hm Hmk Hq1 Hs He Hcs Hl Hf) as R1.
    pose proof (parse_body (with_dnum st (Some n)) m s csize len fuel qd2 pre es epi its HP HF HE I1 Hst Hm Hmk Hq2 Hs He Hcs Hl Hf) as R2.
    destruct (u_run reg mk_temp (with_dnum st None) m (its ++ [KSkip]) u_start) as [u|e] eqn:EU; [|congruence].
    pose proof (run_dnum reg mk_temp (with_dnum st None) m n eq_refl _ _ _ EU Hn) as R3.
    change (with_dnum (with_dnum st None) (Some n)) with (with_dnum st (Some n)) in R3. rewrite R3 in R2.
    rewrite kfields_app, C1 in R2. cbn [u_start u_keys kfields filter is_kfield length] in R2. rewrite Nat.add_0_r, Z.add_0_l in R2.
    rewrite R1 in HR. cbn [fst] in HR.
    destruct (Z.ltb n _); [exact R2|]. rewrite R2. exact HR.
  Qed.

  Theorem memory_limit st m s csize len fuel pre es epi n r c :
    reg (ms_charset st) = Some c -> codec_ok c -> match ms_dnum st with Some k => (0 <= k)%Z | None => True end ->
    pre_ok D pre -> Forall (piece_ok D) es -> junk_ok D (!"--" ++ epi) ->
    ms_fmem st = Some m -> (0 <= m)%Z -> (forall x, mk_temp x <> Err StopFutureHandlers) ->
    src_bytes s = render_body D pre es epi -> src_error s = None -> 0 < csize -> len <> 0%Z -> enough s <= fuel ->
    (0 <= n)%Z ->
    fst (parse_src reg name2cp mk_temp (with_dmem st None) D fuel csize len [HConv new_conv] s) = Ok r ->
    fst (parse_src reg name2cp mk_temp (with_dmem st (Some n)) D fuel csize len [HConv new_conv] s) =
      if Z.ltb n (Z.of_nat (field_bytes (parts_of es))) then Err RequestDataTooBig else Ok r.
  Proof.
    intros Hreg Hc Hk HP HF HE Hst Hm Hmk Hs He Hcs Hl Hf Hn HR.
    destruct (pieces_items es HF) as (its & I1 & I2 & I3). destruct (pitem_counts es its I1) as (_ & C1 & C2).
    destruct (querydict_none reg (with_dmem st None) c Hreg Hc true Hk) as [qd1 Hq1].
    destruct (querydict_none reg (with_dmem st (Some n)) c Hreg Hc true Hk) as [qd2 Hq2].
    pose proof (parse_body (with_dmem st None) m s csize len fuel qd1 pre es epi its HP HF HE I1 Hst Hm Hmk Hq1 Hs He Hcs Hl Hf) as R1.
    pose proof (parse_body (with_dmem st (Some n)) m s csize len fuel qd2 pre es epi its HP HF HE I1 Hst Hm Hmk Hq2 Hs He Hcs Hl Hf) as R2.
    destruct (u_run reg mk_temp (with_dmem st None) m (its ++ [KSkip]) u_start) as [u|e] eqn:EU; [|congruence].
    assert (KB : kbytes (its ++ [KSkip]) = field_bytes (parts_of es)) by (rewrite kbytes_app, C1; cbn; lia).
    assert (KP : Forall kplain (its ++ [KSkip])) by (apply Forall_app; split; [easy|]; now repeat constructor).
    change (with_dmem st (Some n)) with (with_dmem (with_dmem st None) (Some n)) in R2 at 1.
    rewrite R1 in HR. cbn [fst] in HR.
    destruct (Z.ltb_spec n (Z.of_nat (field_bytes (parts_of es)))).
    - rewrite (run_dmem_gt reg mk_temp (with_dmem st None) m n eq_refl _ _ _ EU KP) in R2; [exact R2|].
      cbn [u_start u_bytes]. rewrite KB. lia.
    - rewrite (run_dmem_le reg mk_temp (with_dmem st None) m n eq_refl _ _ _ EU) in R2; [now rewrite R2|].
      cbn [u_start u_bytes]. rewrite KB. lia.
  Qed.

  (** ** Files: which, and where they are kept *)
  Definition kept (m : Z) (g : ufile) (ps : list part) (p : part) : Prop :=
    file_for g p /\
    uf_kind g = if Z.ltb m (Z.of_nat (file_bytes (ps ++ [p])))
                then Temporary (temp_suffix (uf_name g)) else InMemory (pt_name p).
  Lemma file_bytes_app a b : file_bytes (a ++ b) = file_bytes a + file_bytes b.
  Proof. unfold file_bytes. now rewrite filter_app, map_app, list_sum_app. Qed.
  Lemma pitem_fbytes es its : Forall2 (pitem reg name2cp) es its -> fbytes its = file_bytes (parts_of es).
  Proof.
    induction 1 as [|e it es its [H1 H2] HF IH]; [easy|]. cbn [fbytes]. destruct e as [p|j].
    - change (parts_of (APart p :: es)) with ([p] ++ parts_of es). rewrite file_bytes_app, <- IH. destruct H2 as [H2 _].
      assert (EF : is_field p = match pt_file p with None => true | Some _ => false end) by reflexivity.
      unfold item_for, file_bytes in *. cbn [filter]. destruct (pt_file p) as [f|]; rewrite EF.
      + destruct H2 as (i & -> & _). cbn. lia.
      + destruct H2 as (h & -> & _). reflexivity.
    - now subst it.
  Qed.
  Lemma pitem_stored m k : forall es its, Forall (piece_ok D) es -> Forall2 (pitem reg name2cp) es its -> forall done,
    Forall2 file_for (stored k (placed m (file_bytes done) its)) (files_named k (parts_of es)) /\
    forall a p b, es = a ++ APart p :: b -> pt_file p <> None -> pt_name p = k ->
      exists g, nth_error (stored k (placed m (file_bytes done) its)) (length (files_named k (parts_of a))) = Some g /\
                kept m g (done ++ parts_of a) p.
  Proof.
    intros es its HF HI. induction HI as [|e it es its [H1 H2] HI IH]; intros done.
    { split; [constructor|]. intros a p b E. now destruct a. }
    inversion_clear HF as [|? ? He HF']. specialize (IH HF').
    destruct e as [p|j].
    2:{ subst it. cbn [placed]. destruct (IH done) as [IH1 IH2]. split; [exact IH1|]. intros a p b E Hp Hk.
        destruct a as [|e a]; [easy|]. cbn in E. injection E as <- E.
        destruct (IH2 a p b E Hp Hk) as (g & G1 & G2). exists g. change (parts_of (AJunk j :: a)) with (parts_of a). now split. }
    destruct H2 as [H2 _]. change (parts_of (APart p :: es)) with (p :: parts_of es).
    cbn in He. destruct He as (_ & Hf & _). unfold item_for in H2.
    unfold files_named. cbn [filter]. fold (files_named k (parts_of es)).
    destruct (pt_file p) as [f|] eqn:EF.
    - destruct H2 as (i & -> & Hi1 & Hi2 & Hi3 & Hi4 & Hi5 & Hi6). cbn [placed].
      destruct Hf as ((_ & _ & Hfl & _ & _ & Hsl) & Hnn & Hdn & _).
      assert (EB : file_bytes done + length (pt_data p) = file_bytes (done ++ [p])).
      { rewrite file_bytes_app. unfold file_bytes at 3. cbn. unfold is_field. rewrite EF. cbn. lia. }
      rewrite EB. destruct (IH (done ++ [p])) as [IH1 IH2]. clear IH.
      set (g0 := upload m (file_bytes (done ++ [p])) i (pt_data p)).
      assert (HG : kept m g0 done p).
      { unfold kept, g0, upload, file_for. cbn. rewrite Hi2, set_name_id by easy. rewrite Hi1. now rewrite EF. }
      assert (ES : stored k [(fi_field i, g0)] = if seqb k (pt_name p) then [g0] else []).
      { unfold stored. cbn [filter fst snd]. rewrite Hi1. destruct (seqb k (pt_name p)) eqn:Ek; [|easy].
        apply seqb_eq in Ek. subst k. unfold g0. cbn. destruct (pt_name p); [easy|]. cbn. destruct (pt_data p); [easy|]. reflexivity. }
      change ((fi_field i, g0) :: placed m (file_bytes (done ++ [p])) its)
        with ([(fi_field i, g0)] ++ placed m (file_bytes (done ++ [p])) its).
      rewrite stored_app, ES. split.
      + destruct (seqb k (pt_name p)); [|exact IH1]. cbn [app]. constructor; [apply HG|exact IH1].
      + intros a q b E Hq Hk. destruct a as [|e a]; cbn in E; injection E as E1 E2.
        * subst q. exists g0. subst k. rewrite seqb_refl. cbn. rewrite app_nil_r. now split.
        * subst e. destruct (IH2 a q b E2 Hq Hk) as (g & G1 & G2). exists g.
          change (parts_of (APart p :: a)) with (p :: parts_of a). unfold files_named. cbn [filter]. rewrite EF.
          fold (files_named k (parts_of a)). rewrite <- app_assoc in G2. split; [|exact G2].
          destruct (seqb k (pt_name p)); [|exact G1]. cbn [app length nth_error]. exact G1.
    - destruct H2 as (h & -> & _). cbn [placed]. destruct (IH (done ++ [p])) as [IH1 IH2]. clear IH.
      assert (EB : file_bytes (done ++ [p]) = file_bytes done).
      { rewrite file_bytes_app. unfold file_bytes at 2. cbn. unfold is_field. rewrite EF. cbn. lia. }
      rewrite EB in *. split; [exact IH1|]. intros a q b E Hq Hk.
      destruct a as [|e a]; cbn in E; injection E as E1 E2; [now subst q|]. subst e.
      destruct (IH2 a q b E2 Hq Hk) as (g & G1 & G2). exists g.
      change (parts_of (APart p :: a)) with (p :: parts_of a). unfold files_named. cbn [filter]. rewrite EF.
      fold (files_named k (parts_of a)). rewrite <- app_assoc in G2. now split.
  Qed.

  Lemma run_end st m its u : u_run reg mk_temp st m (its ++ [KSkip]) u_start = Ok u -> u_finish u = u.
  Proof.
    rewrite u_run_app. destruct (u_run reg mk_temp st m its u_start) as [u1|e]; cbn [bind u_run u_step]; [|easy].
    intros H. injection H as <-. apply u_finish_idem.
  Qed.
  Theorem files_kept st m s csize len fuel qd pre es epi post files :
    pre_ok D pre -> Forall (piece_ok D) es -> junk_ok D (!"--" ++ epi) ->
    ms_fmem st = Some m -> (0 <= m)%Z -> (forall x, mk_temp x <> Err StopFutureHandlers) ->
    querydict reg (Some (ms_query st)) None true = Ok qd ->
    src_bytes s = render_body D pre es epi -> src_error s = None -> 0 < csize -> len <> 0%Z -> enough s <= fuel ->
    fst (parse_src reg name2cp mk_temp st D fuel csize len [HConv new_conv] s) = Ok (post, files) ->
    (forall k, Forall2 file_for (getl k files) (files_named k (parts_of es))) /\
    forall a p b, es = a ++ APart p :: b -> pt_file p <> None ->
      exists g, nth_error (getl (pt_name p) files) (length (files_named (pt_name p) (parts_of a))) = Some g /\
                kept m g (parts_of a) p.
  Proof.
    intros HP HF HE Hst Hm Hmk Hqd Hs He Hcs Hl Hf HR.
    destruct (pieces_items es HF) as (its & I1 & I2 & I3).
    pose proof (parse_body st m s csize len fuel qd pre es epi its HP HF HE I1 Hst Hm Hmk Hqd Hs He Hcs Hl Hf) as R1.
    destruct (u_run reg mk_temp st m (its ++ [KSkip]) u_start) as [u|e] eqn:EU; [|congruence].
    rewrite R1 in HR. cbn [fst] in HR. injection HR as <- <-.
    assert (HG : forall k, getl k (u_files u) = stored k (placed m (file_bytes []) its)).
    { intros k. pose proof (run_placed reg mk_temp st m _ _ _ EU k) as HX. rewrite (run_end st m its u EU) in HX. rewrite HX.
      cbn [u_start u_files u_pend u_finish u_total]. rewrite placed_app, stored_app. cbn [placed]. cbn. now rewrite app_nil_r. }
    split.
    - intros k. rewrite HG. now apply pitem_stored.
    - intros a p b E Hp. rewrite HG. destruct (pitem_stored m (pt_name p) es its HF I1 []) as [_ HK]. now apply (HK a p b E Hp).
  Qed.

  (** ** Truncated bodies *)
  Theorem truncated_files st m s csize len fuel qd pre es x post files :
    pre_ok D pre -> Forall (piece_ok D) es -> ~ occurs D x ->
    ms_fmem st = Some m -> (0 <= m)%Z -> (forall x, mk_temp x <> Err StopFutureHandlers) ->
    querydict reg (Some (ms_query st)) None true = Ok qd ->
    src_bytes s = upto D pre es ++ x -> src_error s = None -> 0 < csize -> len <> 0%Z -> enough s <= fuel ->
    fst (parse_src reg name2cp mk_temp st D fuel csize len [HConv new_conv] s) = Ok (post, files) ->
    forall k, exists n, Forall2 file_for (getl k files) (firstn n (files_named k (parts_of es))) /\
                        (x <> [] -> n = length (files_named k (parts_of es))).
  Proof.
    intros HP HF HX Hst Hm Hmk Hqd Hs He Hcs Hl Hf HR k.
    destruct (pieces_items es HF) as (its & I1 & I2 & I3). destruct (open_skip pre HP) as [J1 J2].
    destruct (parse_src_sem reg name2cp mk_temp st D D_ok s csize len [HConv new_conv] qd fuel Hcs He Hqd Hl Hf) as (o & HPS & HO).
    rewrite Hs in HPS.
    pose proof (run_cuts reg name2cp mk_temp st m Hst Hmk D _ _ x (upto_cuts D pre es x HD HN HP HF) (KSkip :: its)
                  ltac:(now constructor) ltac:(now constructor) _ u_start o (start_abs st m Hm Hst len) HPS) as HC.
    cbn [u_run u_step u_finish u_start u_pend bind] in HC. fold u_start in HC.
    destruct (u_run reg mk_temp st m its u_start) as [u|e] eqn:EU.
    2:{ subst o. congruence. }
    destruct HC as (p & HA & HPX). destruct o as [p'|e]; [|congruence]. rewrite HO in HR. cbn [fst] in HR. injection HR as <- <-.
    pose proof (run_placed reg mk_temp st m _ _ _ EU k) as HG. cbn [u_start u_files u_pend u_finish u_total] in HG.
    change (getl k (@nil (str * list ufile))) with (@nil ufile) in HG. cbn [app] in HG.
    destruct (pitem_stored m k es its HF I1 []) as [HK _]. change (file_bytes []) with 0 in HK. rewrite <- HG in HK.
    destruct (tail_files reg name2cp mk_temp st D _ _ _ HPX HX p' eq_refl) as [[-> ->]|(p1 & EF & ->)].
    - destruct HA as (_ & -> & _). rewrite finish_stored in HK. exists (length (getl k (u_files u))). split; [|easy].
      apply Forall2_app_inv_l in HK as (l1 & l2 & K1 & K2 & ->). rewrite (forall2_length _ _ _ K1). now rewrite firstn_app_exact.
    - destruct (finish_abs m p u HA) as (p2 & E2 & HA2 & _). rewrite E2 in EF. injection EF as ->.
      destruct HA2 as (_ & -> & _). exists (length (files_named k (parts_of es))). split; [|easy]. now rewrite firstn_all.
  Qed.
End Body.

(** ** Where files are kept does not change anything else *)
Section Transparent.
  Context (reg : registry) (name2cp : str -> option N) (mk_temp : str -> res unit) (D : str).
  Context (HD : 3 <= length D) (HN : no_newline D) (Hmk : forall s, exists x, mk_temp s = Ok x).

  Theorem spill_transparent st m1 m2 s1 s2 csize1 csize2 len1 len2 fuel1 fuel2 qd pre es epi :
    pre_ok D pre -> Forall (piece_ok D) es -> junk_ok D (!"--" ++ epi) ->
    (0 <= m1)%Z -> (0 <= m2)%Z ->
    querydict reg (Some (ms_query st)) None true = Ok qd ->
    src_bytes s1 = render_body D pre es epi -> src_error s1 = None -> 0 < csize1 -> len1 <> 0%Z -> enough s1 <= fuel1 ->
    src_bytes s2 = render_body D pre es epi -> src_error s2 = None -> 0 < csize2 -> len2 <> 0%Z -> enough s2 <= fuel2 ->
    match fst (parse_src reg name2cp mk_temp (with_fmem st (Some m1)) D fuel1 csize1 len1 [HConv new_conv] s1),
          fst (parse_src reg name2cp mk_temp (with_fmem st (Some m2)) D fuel2 csize2 len2 [HConv new_conv] s2) with
    | Ok (post1, files1), Ok (post2, files2) =>
        post1 = post2 /\ forall k, Forall2 same_file (getl k files1) (getl k files2)
    | Err e1, Err e2 => e1 = e2
    | _, _ => False
    end.
  Proof.
    intros HP HF HE Hm1 Hm2 Hqd Hs1 He1 Hcs1 Hl1 Hf1 Hs2 He2 Hcs2 Hl2 Hf2.
    assert (Hmk' : forall x, mk_temp x <> Err StopFutureHandlers) by (intros x; now destruct (Hmk x) as [y ->]).
    destruct (pieces_items reg name2cp D es HF) as (its & I1 & I2 & I3).
    pose proof (parse_body reg name2cp mk_temp D HD HN (with_fmem st (Some m1)) m1 s1 csize1 len1 fuel1 qd pre es epi its HP HF HE I1 eq_refl Hm1 Hmk' Hqd Hs1 He1 Hcs1 Hl1 Hf1) as R1.
    pose proof (parse_body reg name2cp mk_temp D HD HN (with_fmem st (Some m2)) m2 s2 csize2 len2 fuel2 qd pre es epi its HP HF HE I1 eq_refl Hm2 Hmk' Hqd Hs2 He2 Hcs2 Hl2 Hf2) as R2.
    pose proof (run_spill reg mk_temp Hmk st m1 m2 (Some m1) (Some m2) (its ++ [KSkip]) u_start u_start ltac:(now split)) as HS.
    destruct (u_run reg mk_temp (with_fmem st (Some m1)) m1 (its ++ [KSkip]) u_start) as [u1|e1] eqn:EU1;
    destruct (u_run reg mk_temp (with_fmem st (Some m2)) m2 (its ++ [KSkip]) u_start) as [u2|e2] eqn:EU2; try easy.
    - rewrite R1, R2. cbn [fst]. destruct HS as (S1 & _). split; [easy|]. intros k.
      pose proof (run_placed _ _ _ _ _ _ _ EU1 k) as G1. pose proof (run_placed _ _ _ _ _ _ _ EU2 k) as G2.
      rewrite (run_end reg mk_temp _ _ _ _ EU1) in G1. rewrite (run_end reg mk_temp _ _ _ _ EU2) in G2.
      rewrite G1, G2. apply Forall2_app; [constructor|]. apply stored_same.
    - now rewrite R1, R2.
  Qed.
End Transparent.
