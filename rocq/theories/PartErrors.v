(** * Parts with arbitrary content: what they are taken for, and base64 that cannot be decoded
    (claims C28, C29) *)
From Coq Require Import ZifyBool ZifyN ZifyNat.
From Verif Require Import Py PyFacts PyDict Spec StreamModel StreamSpec StreamFacts CodecModel QueryModel
  Base64Model Base64Facts HeaderModel HeaderSpec HeaderFacts BoundaryModel BoundarySpec BoundaryFacts PartFacts UploadModel
  MultipartModel MultipartSem MultipartFacts MultipartSpec MultipartDet FormSpec FormFacts UploadFacts MultipartInv
  BodySpec HeadLineFacts ItemFacts BodyFacts.

(** ** What a part is taken for *)
Lemma part_class reg name2cp p : head_ok p ->
  exists h, classify reg (render_part p) = Ok (kind p, h, pt_raw p) /\
    (pt_file p = None -> part_action name2cp (kind p) h =
       Ok (AField (pt_name p) (if pt_b64 p then Some !"base64" else None))) /\
    (forall f, pt_file p = Some f -> ~ In 38%N f -> ~ In 92%N f ->
       exists i, part_action name2cp (kind p) h = Ok (AFile i (pt_b64 p)) /\ fi_field i = pt_name p /\ fi_name i = f).
Proof.
  intros HH. rewrite (classify_part reg p HH).
  destruct (header_meta_part reg p HH) as (h & d & -> & H1 & H2 & H3 & _ & H6). cbn [bind fst snd].
  exists h. split; [reflexivity|]. unfold part_action. rewrite H1, H2. cbn [pstrip to_native bind].
  destruct HH as ((_ & _ & Hs) & Hf & _). rewrite Hs.
  assert (HTE : tenc_of h = if pt_b64 p then Some !"base64" else None).
  { unfold tenc_of. rewrite H6. now destruct (pt_b64 p). }
  unfold kind. split.
  - intros E. rewrite E. now rewrite HTE.
  - intros f E Hamp Hback. rewrite E in *. destruct Hf as ((_ & _ & Hfs) & Hne).
    unfold filename_of. rewrite H3. cbn [option_map]. destruct f as [|y f]; [easy|]. cbn [pnonempty pchars nonempty to_native bind].
    rewrite unescape_plain by easy. cbn [bind]. rewrite ie_plain by easy.
    eexists. split; [rewrite HTE; replace (is_b64enc _) with (pt_b64 p) by (now destruct (pt_b64 p)); reflexivity|]. now cbn.
Qed.

Lemma b64_alpha c : forallb is_b64 c = true -> length c mod 4 = 0 -> exists d, b64decode c = Ok d.
Proof.
  intros H1 H2. destruct (a2b_quads_app c [] H1 H2) as [_ H]. unfold b64decode.
  destruct (a2b_loop c b64_init) as [out lb]. cbn in H. subst lb. now exists out.
Qed.
Lemma b64decode_err s e : b64decode s = Err e -> e = TypeError.
Proof. unfold b64decode. destruct (a2b_loop s b64_init) as [o lb]. destruct (N.eqb lb 0); [easy|]. congruence. Qed.

Section Conv.
  Context (mk_temp : str -> res unit) (m : Z) (Hmk : forall s, exists x, mk_temp s = Ok x).

  Lemma spill_ok T n i : exists u, spill mk_temp m T n i = Ok u.
  Proof.
    unfold spill. destruct (Z.ltb m _); [now exists tt|]. destruct (Z.ltb m _); [apply Hmk|now exists tt].
  Qed.
  Lemma feed_ok T i w c k : feed mk_temp (Some m) c [HConv (conv_of m T i w)] [k] =
    Ok ([HConv (conv_of m (T + length c) i (w ++ c))], [k + length c]).
  Proof.
    rewrite (feed_conv (fun _ => None)) by (intros x; now destruct (Hmk x) as [y ->]).
    destruct (spill_ok T (length c) i) as [u ->]. reflexivity.
  Qed.

  (** base64 characters whose number is not a multiple of four: the loop never ends *)
  Lemma fed_hang b t hc o : fed mk_temp (Some m) b t hc o -> b = true ->
    forall T i w k, hc = ([HConv (conv_of m T i w)], [k]) ->
    forallb is_b64 (remove_ws t) = true -> length (remove_ws t) mod 4 <> 0 -> o = Err OutOfFuel.
  Proof.
    induction 1 as [b hc|c rest hc hc' o HF HR IH|c rest hc e HF|c rest x hc hc' o Hmod HD HF HR IH
                   |c rest x hc e Hmod HD HF|c rest hc e Hmod HD|rest hc Hmod]; intros Hb T i w k -> HA HL; try easy.
    - cbn [fst snd] in HF. rewrite feed_ok in HF. injection HF as <-. rewrite remove_ws_app in HA, HL.
      rewrite forallb_app in HA. apply andb_prop in HA as [HA1 HA2]. rewrite app_length in HL.
      apply (IH eq_refl _ _ _ _ eq_refl HA2). lia.
    - cbn [fst snd] in HF. now rewrite feed_ok in HF.
    - exfalso. rewrite remove_ws_app, forallb_app in HA. apply andb_prop in HA as [HA1 HA2].
      destruct (b64_alpha _ HA1 Hmod) as [d Hd]. congruence.
  Qed.
  (** four characters that cannot be decoded *)
  Lemma fed_bad b t hc o : fed mk_temp (Some m) b t hc o -> b = true ->
    forall T i w k, hc = ([HConv (conv_of m T i w)], [k]) ->
    length (remove_ws t) = 4 -> (exists e, b64decode (remove_ws t) = Err e) -> o = Err TypeError.
  Proof.
    induction 1 as [b hc|c rest hc hc' o HF HR IH|c rest hc e HF|c rest x hc hc' o Hmod HD HF HR IH
                   |c rest x hc e Hmod HD HF|c rest hc e Hmod HD|rest hc Hmod]; intros Hb T i w k -> HL HE; try easy.
    - cbn [fst snd] in HF. rewrite feed_ok in HF. injection HF as <-. rewrite remove_ws_app in HL, HE.
      rewrite app_length in HL.
      destruct (remove_ws c) as [|x1 c1] eqn:Ec; [now apply (IH eq_refl _ _ _ _ eq_refl)|].
      exfalso. cbn [length] in HL, Hmod.
      assert (Hr : remove_ws rest = []) by (destruct (remove_ws rest); [easy|cbn [length] in HL; lia]).
      rewrite Hr, app_nil_r in HE. destruct HE as [e HE]. congruence.
    - cbn [fst snd] in HF. now rewrite feed_ok in HF.
    - exfalso. lia.
  Qed.
End Conv.

(** ** The first part of a body *)
Section First.
  Context (reg : registry) (name2cp : str -> option N) (mk_temp : str -> res unit) (st : mset) (m : Z) (D : str).
  Context (HD : 3 <= length D) (HN : no_newline D) (Hmk : forall s, exists x, mk_temp s = Ok x).
  Context (Hst : ms_fmem st = Some m) (Hm : (0 <= m)%Z).

  Lemma first_part s csize len fuel qd pre p rest : pre_ok D pre -> ~ occurs D (render_part p) ->
    querydict reg (Some (ms_query st)) None true = Ok qd ->
    src_bytes s = upto D pre [] ++ render_part p ++ crlf ++ D ++ rest -> src_error s = None ->
    0 < csize -> len <> 0%Z -> enough s <= fuel ->
    exists p1 o, abs m p1 u_start /\
      (forall e, o = Err e -> fst (parse_src reg name2cp mk_temp st D fuel csize len [HConv new_conv] s) = Err e) /\
      parses reg name2cp mk_temp st D (render_part p ++ crlf ++ D ++ rest) p1 o /\
      block D (render_part p ++ crlf ++ D ++ rest) (render_part p) (Some rest).
  Proof.
    intros HP HO Hqd Hs He Hc Hl Hf.
    assert (Hmk' : forall x, mk_temp x <> Err StopFutureHandlers) by (intros x; now destruct (Hmk x) as [y ->]).
    destruct (parse_src_sem reg name2cp mk_temp st D (D_ok name2cp mk_temp D HD HN) s csize len [HConv new_conv] qd fuel Hc He Hqd Hl Hf) as (o & HPa & HR).
    pose proof (upto_cuts D pre [] (render_part p ++ crlf ++ D ++ rest) HD HN HP (Forall_nil _)) as HC. rewrite <- Hs in HC.
    assert (HI : Forall2 (item_of reg name2cp) (open_piece pre :: map piece_bytes []) [KSkip]).
    { constructor; [|constructor]. destruct pre as [j|]; cbn; [|reflexivity]. apply ignorable_item. apply HP. }
    assert (HSm : Forall2 small (open_piece pre :: map piece_bytes []) [KSkip]).
    { constructor; [|constructor]. destruct pre as [j|]; cbn [open_piece]; [apply small_ignorable; apply HP|]. apply small_short. unfold head_size. cbn. lia. }
    pose proof (run_cuts reg name2cp mk_temp st m Hst Hmk' D _ _ _ HC _ HI HSm _ u_start o (start_abs st m Hm Hst len) HPa) as HX.
    cbn [u_run u_step u_finish u_start u_pend bind] in HX. destruct HX as (p1 & HA & HP1).
    exists p1, o. split; [easy|]. split; [intros e ->; exact HR|]. split; [easy|].
    rewrite app_assoc. rewrite <- app_assoc. now apply block_delim.
  Qed.

  Lemma first_error s csize len fuel qd pre p rest e : pre_ok D pre -> ~ occurs D (render_part p) ->
    querydict reg (Some (ms_query st)) None true = Ok qd ->
    src_bytes s = upto D pre [] ++ render_part p ++ crlf ++ D ++ rest -> src_error s = None ->
    0 < csize -> len <> 0%Z -> enough s <= fuel ->
    (forall p1 o, abs m p1 u_start -> step reg name2cp mk_temp st p1 (render_part p) o -> o = OErr e) ->
    fst (parse_src reg name2cp mk_temp st D fuel csize len [HConv new_conv] s) = Err e.
  Proof.
    intros HP HO Hqd Hs He Hc Hl Hf HE.
    destruct (first_part s csize len fuel qd pre p rest HP HO Hqd Hs He Hc Hl Hf) as (p1 & o & HA & HR & HPa & Hb).
    apply HR. remember (render_part p ++ crlf ++ D ++ rest) as r0 eqn:Er.
    destruct HPa as [p0|r t1 af1 p0 e1 Hr1 Hb1 HS1|r t1 af1 p0 p' o Hr1 Hb1 HS1 HP1|r t1 af1 p0 p' o Hr1 Hb1 HS1 HP1
                     |r t1 af1 p0 p' k o Hr1 Hb1 HS1 Hk HP1];
      try (destruct (block_det D _ _ _ _ _ Hb Hb1) as [<- <-]; specialize (HE _ _ HA HS1); congruence).
    apply (f_equal (@length N)) in Er. rewrite !app_length in Er. cbn in Er. lia.
  Qed.

  Theorem hang_part s csize len fuel qd pre p rest f : pre_ok D pre -> ~ occurs D (render_part p) -> head_ok p ->
    pt_file p = Some f -> ~ In 38%N f -> ~ In 92%N f -> pt_b64 p = true ->
    forallb is_b64 (remove_ws (pt_raw p)) = true -> length (remove_ws (pt_raw p)) mod 4 <> 0 ->
    querydict reg (Some (ms_query st)) None true = Ok qd ->
    src_bytes s = upto D pre [] ++ render_part p ++ crlf ++ D ++ rest -> src_error s = None ->
    0 < csize -> len <> 0%Z -> enough s <= fuel ->
    fst (parse_src reg name2cp mk_temp st D fuel csize len [HConv new_conv] s) = Err OutOfFuel.
  Proof.
    intros HP HO HH Hf Hamp Hback Hb HA HL Hqd Hs He Hc Hl Hfu.
    apply (first_error s csize len fuel qd pre p rest OutOfFuel HP HO Hqd Hs He Hc Hl Hfu).
    intros p1 o Habs HS. destruct (part_class reg name2cp p HH) as (h & E1 & _ & E2).
    destruct (E2 f Hf Hamp Hback) as (i & E3 & _). unfold step in HS. rewrite E1 in HS.
    destruct (finish_abs m p1 u_start Habs) as (p2 & EF & HA2 & _). rewrite EF, E3 in HS.
    destruct HA2 as (_ & _ & _ & _ & c & Hh & HR & _).
    assert (Hmk' : forall x, mk_temp x <> Err StopFutureHandlers) by (intros x; now destruct (Hmk x) as [y ->]).
    rewrite Hh, (new_files_conv mk_temp m Hmk' i c _ HR) in HS.
    assert (E0 : Z.ltb m (Z.of_nat (u_total (u_finish u_start))) = false) by (cbn; lia). rewrite E0 in HS. cbn [bind] in HS.
    destruct HS as (r & HF & ->). rewrite Hst, Hb in HF.
    rewrite (fed_hang mk_temp m Hmk _ _ _ _ HF eq_refl _ _ _ _ eq_refl HA HL). reflexivity.
  Qed.

  Theorem bad_file s csize len fuel qd pre p rest f : pre_ok D pre -> ~ occurs D (render_part p) -> head_ok p ->
    pt_file p = Some f -> ~ In 38%N f -> ~ In 92%N f -> pt_b64 p = true ->
    length (remove_ws (pt_raw p)) = 4 -> (exists e, b64decode (remove_ws (pt_raw p)) = Err e) ->
    querydict reg (Some (ms_query st)) None true = Ok qd ->
    src_bytes s = upto D pre [] ++ render_part p ++ crlf ++ D ++ rest -> src_error s = None ->
    0 < csize -> len <> 0%Z -> enough s <= fuel ->
    fst (parse_src reg name2cp mk_temp st D fuel csize len [HConv new_conv] s) = Err TypeError.
  Proof.
    intros HP HO HH Hf Hamp Hback Hb HL HA Hqd Hs He Hc Hl Hfu.
    apply (first_error s csize len fuel qd pre p rest TypeError HP HO Hqd Hs He Hc Hl Hfu).
    intros p1 o Habs HS. destruct (part_class reg name2cp p HH) as (h & E1 & _ & E2).
    destruct (E2 f Hf Hamp Hback) as (i & E3 & _). unfold step in HS. rewrite E1 in HS.
    destruct (finish_abs m p1 u_start Habs) as (p2 & EF & HA2 & _). rewrite EF, E3 in HS.
    destruct HA2 as (_ & _ & _ & _ & c & Hh & HR & _).
    assert (Hmk' : forall x, mk_temp x <> Err StopFutureHandlers) by (intros x; now destruct (Hmk x) as [y ->]).
    rewrite Hh, (new_files_conv mk_temp m Hmk' i c _ HR) in HS.
    assert (E0 : Z.ltb m (Z.of_nat (u_total (u_finish u_start))) = false) by (cbn; lia). rewrite E0 in HS. cbn [bind] in HS.
    destruct HS as (r & HF & ->). rewrite Hst, Hb in HF.
    rewrite (fed_bad mk_temp m Hmk _ _ _ _ HF eq_refl _ _ _ _ eq_refl HL HA). reflexivity.
  Qed.

  (** a base64 field that cannot be decoded *)
  Theorem bad_field s csize len fuel qd pre p rest : pre_ok D pre -> ~ occurs D (render_part p) -> head_ok p ->
    pt_file p = None -> pt_b64 p = true -> (exists e, b64decode (pt_raw p) = Err e) ->
    match ms_dnum st with Some n => (1 <= n)%Z | None => True end ->
    match ms_dmem st with Some n => (Z.of_nat (length (pt_raw p)) <= n)%Z | None => True end ->
    querydict reg (Some (ms_query st)) None true = Ok qd ->
    src_bytes s = upto D pre [] ++ render_part p ++ crlf ++ D ++ rest -> src_error s = None ->
    0 < csize -> len <> 0%Z -> enough s <= fuel ->
    fst (parse_src reg name2cp mk_temp st D fuel csize len [HConv new_conv] s) = Err TypeError.
  Proof.
    intros HP HO HH Hf Hb (e & HE) Hn Hmem Hqd Hs He Hc Hl Hfu.
    apply (first_error s csize len fuel qd pre p rest TypeError HP HO Hqd Hs He Hc Hl Hfu).
    intros p1 o Habs HS. destruct (part_class reg name2cp p HH) as (h & E1 & E2 & _).
    unfold step in HS. rewrite E1 in HS.
    destruct (finish_abs m p1 u_start Habs) as (p2 & EF & HA2 & _). rewrite EF, (E2 Hf), Hb in HS.
    destruct HA2 as (_ & _ & HB & HK & _). cbn in HB, HK. subst o. unfold field_step. rewrite HB, HK.
    replace (match ms_dnum st with Some n => Z.ltb n (0 + 1) | None => false end) with false
      by (destruct (ms_dnum st); [lia|easy]).
    assert (ER : (match ms_dmem st with
                 | None => Ok (pt_raw p)
                 | Some n => let size := (n - 0)%Z in
                             if Z.ltb size 0 then Err AssertionError else Ok (firstn (Z.to_nat size) (pt_raw p))
                 end : res str) = Ok (pt_raw p)).
    { destruct (ms_dmem st) as [n|]; [|easy]. cbv zeta. replace (Z.ltb (n - 0) 0) with false by lia.
      now rewrite firstn_all2 by lia. }
    match goal with |- context [@bind str pst ?x _] => replace x with (@Ok str (pt_raw p)) by (symmetry; exact ER) end.
    cbn [bind is_b64enc]. change (seqb !"base64" !"base64") with true. cbv iota. rewrite HE. cbn [bind].
    now rewrite (b64decode_err _ _ HE).
  Qed.
End First.
