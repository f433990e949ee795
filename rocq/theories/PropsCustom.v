(** * Claims about handlers that users write: C95-C97 *)
From Coq Require Import ZifyBool ZifyN ZifyNat.
From Verif Require Import Py PyFacts PyDict Spec StreamModel StreamSpec StreamFacts CodecModel CodecFacts QueryModel
  Base64Model HeaderModel HeaderSpec BoundaryModel BoundarySpec BoundaryFacts PartFacts UploadModel
  MultipartModel MultipartSem MultipartFacts MultipartSpec MultipartDet FormSpec FormFacts ItemFacts BodySpec BodyFacts
  CustomModel CustomSem CustomFacts CustomRun CustomGuard CustomProto CustomLib PropsData PropsPart PropsMultipart.

(** ** C95: the order in which the methods of a handler are called *)
Theorem C95_first_handler :
  forall S F X (O : ops S F X) truthy R rd exh reg name2cp st D fuel len csize s0 others (r : R) h hs,
  snd (fst (c_parse rd exh reg name2cp st D fuel (logged O) truthy len csize ((s0, []) :: others) r)) = h :: hs ->
  protocol (snd h).
Proof.
  intros S F X O truthy R rd exh reg name2cp st D fuel len csize s0 others r h hs H.
  pose proof (first_protocol O truthy rd exh reg name2cp st D fuel len csize ((s0, []) :: others) r ltac:(now split; [apply protocol_nil|])) as HP.
  rewrite H in HP. exact HP.
Qed.
Print Assumptions C95_first_handler.
Theorem C95_all_handlers :
  forall S F X (O : ops S F X) truthy R rd exh reg name2cp st D fuel len csize hs (r : R),
  (forall i len s, fst (o_new O i len s) <> Bad CFuture) ->
  Forall (fun h => protocol (snd h))
    (snd (fst (c_parse rd exh reg name2cp st D fuel (logged O) truthy len csize (map (fun s => (s, [])) hs) r))).
Proof.
  intros S F X O truthy R rd exh reg name2cp st D fuel len csize hs r Hf.
  apply (all_protocol O truthy rd exh reg name2cp st D fuel Hf len csize). apply Forall_forall.
  intros h Hh. apply in_map_iff in Hh as (s & <- & _). now split; [apply protocol_nil|].
Qed.
Print Assumptions C95_all_handlers.

(** a handler that keeps nothing; [b]: its new_file raises StopFutureHandlers *)
Definition idle_ops : ops bool ufile Empty_set :=
  mkOps bool ufile Empty_set (fun _ h => (Good None, h)) (fun _ _ h => (if h then Bad CFuture else Good tt, h))
    (fun d _ h => (Good (Some d), h)) (fun _ h => (Good None, h)) (fun h => (Good tt, h)) (fun h => (Good false, h)).
Definition ex_custom {S F X} (O : ops S F X) truthy (body : str) hs :=
  c_parse src_read it_exhaust ex_reg no_cp ex_ms !"--X" (2 * length body + 4) O truthy 1%Z 4096 hs [SData body].

Example C95_case : match snd (fst (ex_custom (logged idle_ops) file_truthy (render_form !"--X" ex_parts) [(false, []); (true, [])])) with
  | [(_, [ENew i1 _; EData d1 0; EDone 4; ENew i2 _; EData d2 0; EDone 3; EEnd]);
     (_, [ENew _ _; EData _ 0; EDone 4; ENew _ _; EData _ 0; EDone 3; EEnd])] =>
      fi_name i1 = !"x;1.txt" /\ d1 = [0%N; 255%N; 13%N; 10%N] /\ fi_name i2 = !"y" /\ d2 = !"abc"
  | _ => False
  end.
Proof. vm_compute. easy. Qed.

(** after StopFutureHandlers the later handlers are still given the data and told that the file is complete *)
Theorem C95_stopped_handlers_refuted :
  exists l1 l2, map snd (snd (fst (ex_custom (logged idle_ops) file_truthy (render_form !"--X" ex_parts) [(true, []); (false, [])]))) = [l1; l2] /\
  ~ protocol l2.
Proof.
  eexists _, _. split; [vm_compute; reflexivity|]. intros H.
  specialize (H [] _ _ eq_refl). destruct H as (l0 & i & len & evs & H & _). destruct l0; discriminate H.
Qed.
Print Assumptions C95_stopped_handlers_refuted.

(** nor is every handler told that the upload is complete: the first that returns a true value ends it *)
Definition told (l : list event) : Prop := exists l', l = l' ++ [EEnd].
Theorem C95_upload_complete :
  forall S F X (O : ops S F X) truthy R rd exh reg name2cp st D fuel len csize hs (r : R) post files,
  (forall s, match fst (o_end O s) with Good true => False | _ => True end) -> len <> 0%Z ->
  let out := fst (c_parse rd exh reg name2cp st D fuel (logged O) truthy len csize hs r) in
  fst out = Good (Parsed post files) -> Forall (fun h => told (snd h)) (snd out).
Proof.
  intros S F X O truthy R rd exh reg name2cp st D fuel len csize hs r post files HO Hl. cbv zeta.
  assert (HE : forall hs, match c_end (logged O) hs with (Good _, hs') => Forall (fun h => told (snd h)) hs' | _ => True end).
  { induction hs0 as [|h hs0 IH]; cbn; [constructor|]. specialize (HO (fst h)).
    destruct (o_end O (fst h)) as [[[|]|x] s1]; cbn in *; [easy| |exact I].
    destruct (c_end (logged O) hs0) as [[u|x] hs1]; [|exact I]. constructor; [now exists (snd h)|exact IH]. }
  assert (HRet : forall p hs2 (r1 : R), fst (fst (c_return (F := F) (logged O) p hs2 r1)) = Good (Parsed post files) ->
    Forall (fun h => told (snd h)) (snd (fst (c_return (F := F) (logged O) p hs2 r1)))).
  { intros p hs2 r1 HX. unfold c_return in *. specialize (HE hs2). destruct (c_end (logged O) hs2) as [[u|x] hs3]; [exact HE|discriminate HX]. }
  unfold c_parse. cbv zeta.
  replace (Z.eqb len 0) with false by lia. destruct (c_raw (logged O) len hs) as [[[x|]|x] hs1]; [easy| |easy].
  destruct (querydict reg (Some (ms_query st)) None true) as [qd|e]; [|easy].
  destruct (c_loop rd reg name2cp st D fuel (logged O) truthy fuel _ _) as [[[u|x] p1] s].
  - destruct (exh (input_of r s)) as [[u1|e] r1]; [apply HRet|easy].
  - destruct x as [e| |reset|]; try easy.
    destruct (c_close (logged O) (c_hs p1)) as [[u|x] hs2]; [|easy].
    destruct reset; [apply HRet|]. destruct (exh (input_of r s)) as [[u1|e] r1]; [apply HRet|easy].
Qed.
Print Assumptions C95_upload_complete.
Theorem C95_upload_complete_refuted :
  exists (O : ops bool ufile Empty_set) post files l1 l2,
  fst (ex_custom (logged O) file_truthy (render_form !"--X" ex_parts) [(true, []); (false, [])]) =
    (Good (Parsed post files), [(true, l1); (false, l2)]) /\ told l1 /\ ~ In EEnd l2.
Proof.
  exists (mkOps bool ufile Empty_set (o_raw idle_ops) (fun _ _ h => (Good tt, h)) (o_data idle_ops) (o_done idle_ops) (o_close idle_ops)
            (fun h => (Good h, h))).
  eexists _, _, _, _. split; [vm_compute; reflexivity|]. split.
  - match goal with |- told ?l => exists (removelast l) end. vm_compute. reflexivity.
  - intros H. repeat (destruct H as [H|H]; [discriminate H|]). destruct H.
Qed.
Print Assumptions C95_upload_complete_refuted.

(** the first handler is given the whole content of each file, in order *)
Definition files_of (ps : list part) : list (str * str * str) :=
  flat_map (fun p => match pt_file p with Some f => [(pt_name p, f, pt_data p)] | None => [] end) ps.
Lemma pitem_got reg name2cp es its : Forall2 (pitem reg name2cp) es its -> flat_map item_got its = files_of (parts_of es).
Proof.
  unfold files_of, parts_of. induction 1 as [|e it es its [H1 H2] HF IH]; [easy|]. cbn [flat_map]. rewrite flat_map_app, IH. f_equal.
  destruct e as [p|j]; [|now subst it]. destruct H2 as [H2 _]. cbn. unfold item_for in H2. destruct (pt_file p) as [f|].
  - destruct H2 as (i & -> & <- & <- & _). reflexivity.
  - destruct H2 as (h & -> & _). reflexivity.
Qed.
Theorem C95_content :
  forall reg name2cp st m D S F X (O : ops S F X) truthy pre es epi s csize len fuel s0 others post files,
  settings_ok reg st m -> delimiter D -> goes_on O ->
  pre_ok D pre -> Forall (piece_ok D) es -> junk_ok D (!"--" ++ epi) -> arrives s (render_body D pre es epi) csize len fuel ->
  let out := fst (c_parse src_read it_exhaust reg name2cp st D fuel (logged O) truthy len csize ((s0, []) :: others) s) in
  fst out = Good (Parsed post files) ->
  exists h hs, snd out = h :: hs /\ received (snd h) = files_of (parts_of es).
Proof.
  intros reg name2cp st m D S F X O truthy pre es epi s csize len fuel s0 others post files HS [HD HN] HO HP HF HE (A1 & A2 & A3 & A4 & A5).
  cbv zeta. destruct (settings_qd reg st m HS) as [qd Hq].
  destruct (pieces_items reg name2cp D es HF) as (its & I1 & _).
  destruct (c_raw (logged O) len ((s0, []) :: others)) as [r hs1] eqn:ER.
  assert (HL : first_got hs1 []).
  { cbn in ER. destruct (o_raw O len s0) as [[[x|]|x] s1]; cbn in ER.
    - injection ER as _ <-. now eexists _, _.
    - destruct (c_raw (logged O) len others) as [r1 hs2]. injection ER as _ <-. now eexists _, _.
    - injection ER as _ <-. now eexists _, _. }
  intros HR. assert (Hr : r = Good None).
  { unfold c_parse in HR. cbv zeta in HR. rewrite Hq in HR. replace (Z.eqb len 0) with false in HR by lia. rewrite ER in HR.
    destruct r as [[x|]|x]; [discriminate HR|reflexivity|discriminate HR]. }
  subst r.
  destruct (c_parse_body reg name2cp st D HD HN (logged O) truthy s csize len fuel _ hs1 qd pre es epi its HP HF HE I1 Hq A1 A2 A3 A4
              ltac:(unfold enough; now rewrite A1) ER) as ([r p] & HG & HX & _).
  pose proof (content_run reg st O truthy HO _ _ _ HG [] HL) as HC. cbn [fst snd app] in HC.
  rewrite HX in *. unfold c_result in *. destruct r as [u|x].
  - rewrite flat_map_app, app_nil_r, (pitem_got _ _ _ _ I1) in HC.
    unfold c_return in *. assert (HEnd : first_got (snd (c_end (logged O) (c_hs p))) (files_of (parts_of es))).
    { destruct HC as (h & hs & -> & <-). cbn. destruct (o_end O (fst h)) as [[[|]|x] s1]; cbn.
      - eexists _, _. split; [reflexivity|apply received_end].
      - destruct (c_end (logged O) hs) as [r2 hs2]. eexists _, _. split; [reflexivity|apply received_end].
      - eexists _, _. split; [reflexivity|apply received_end]. }
    destruct (c_end (logged O) (c_hs p)) as [[v|x] hs2]; exact HEnd.
  - destruct x; try easy; discriminate HR.
Qed.
Print Assumptions C95_content.
Example C95_content_case : goes_on idle_ops /\
  fst (fst (ex_custom (logged idle_ops) file_truthy (render_form !"--X" ex_parts) [(true, []); (false, [])])) =
    Good (Parsed [(!"a b", [mkEntry (!"v1" ++ crlf ++ !"--") [] [] []])] []) /\
  files_of ex_parts = [(!"f", !"x;1.txt", [0%N; 255%N; 13%N; 10%N]); (!"f", !"y", !"abc")].
Proof. split; [|vm_compute; easy]. repeat split; cbn; try easy. now intros _ _ []. Qed.

(** ** C96: files that a handler skips *)
(** whatever the handlers do with the files, short of other exceptions, POST is the same *)
Theorem C96_post :
  forall reg name2cp mk_temp st m D S F X (O : ops S F X) truthy pre es epi s csize len fuel hs,
  settings_ok reg st m -> can_create mk_temp -> delimiter D -> skips_only O ->
  pre_ok D pre -> Forall (piece_ok D) es -> junk_ok D (!"--" ++ epi) -> arrives s (render_body D pre es epi) csize len fuel ->
  match fst (parse_src reg name2cp mk_temp st D fuel csize len default_handler s) with
  | Ok (post, _) => exists files, fst (fst (c_parse src_read it_exhaust reg name2cp st D fuel O truthy len csize hs s)) = Good (Parsed post files)
  | Err e => fst (fst (c_parse src_read it_exhaust reg name2cp st D fuel O truthy len csize hs s)) = Bad (CExn e)
  end.
Proof.
  intros reg name2cp mk_temp st m D S F X O truthy pre es epi s csize len fuel hs HS Hmk [HD HN] HO HP HF HE (A1 & A2 & A3 & A4 & A5).
  destruct (settings_qd reg st m HS) as [qd Hq]. destruct HS as (_ & Hst & Hm & _).
  assert (Hf : enough s <= fuel) by (unfold enough; now rewrite A1).
  destruct (pieces_items reg name2cp D es HF) as (its & I1 & _).
  pose proof (parse_body reg name2cp mk_temp D HD HN st m s csize len fuel qd pre es epi its HP HF HE I1 Hst Hm (create_no_stop _ Hmk) Hq A1 A2 A3 A4 Hf) as HB.
  destruct (so_raw O HO len hs) as (hs1 & ER).
  destruct (c_parse_body reg name2cp st D HD HN O truthy s csize len fuel hs hs1 qd pre es epi its HP HF HE I1 Hq A1 A2 A3 A4 Hf ER)
    as ([r p] & HG & HX & _).
  pose proof (post_run reg mk_temp st m Hmk O truthy HO _ _ _ HG u_start ltac:(now repeat split)) as HR. cbn [fst snd] in HR.
  rewrite HX. unfold default_handler. destruct (u_run reg mk_temp st m (its ++ [KSkip]) u_start) as [u|e].
  - rewrite HB. cbn [fst]. destruct HR as (-> & H1 & _). cbn. unfold c_return.
    destruct (so_end O HO (c_hs p)) as (v & hs2 & ->). cbn. rewrite H1. now eexists.
  - rewrite HB. now subst r.
Qed.
Print Assumptions C96_post.
(** a handler that keeps the content of the last file and skips those named [y] *)
Definition keep_ops : ops str ufile Empty_set :=
  mkOps str ufile Empty_set (fun _ h => (Good None, h)) (fun i _ h => if seqb (fi_name i) !"y" then (Bad CSkip, h) else (Good tt, []))
    (fun d _ h => (Good None, h ++ d)) (fun _ h => (Good None, h)) (fun h => (Good tt, h)) (fun h => (Good false, h)).
Example C96_post_case : skips_only keep_ops /\
  ex_custom keep_ops file_truthy (render_form !"--X" ex_parts) [[]] =
    (Good (Parsed [(!"a b", [mkEntry (!"v1" ++ crlf ++ !"--") [] [] []])] []), [[0%N; 255%N; 13%N; 10%N]], []).
Proof.
  split; [|vm_compute; reflexivity]. split; [now eexists|]. split; [|now split; [|split; [|split]]; intros; try (now eexists _, _)].
  intros i len h. unfold keep_ops, o_new. now destruct (seqb (fi_name i) !"y").
Qed.
(** handlers that may also fail: a parse that ends gives the same POST as the default handler *)
Theorem C96_post_returned :
  forall reg name2cp mk_temp st m D S F X (O : ops S F X) truthy pre es epi s csize len fuel hs post files,
  settings_ok reg st m -> can_create mk_temp -> delimiter D -> never_stops O ->
  pre_ok D pre -> Forall (piece_ok D) es -> junk_ok D (!"--" ++ epi) -> arrives s (render_body D pre es epi) csize len fuel ->
  fst (fst (c_parse src_read it_exhaust reg name2cp st D fuel O truthy len csize hs s)) = Good (Parsed post files) ->
  exists files', fst (parse_src reg name2cp mk_temp st D fuel csize len default_handler s) = Ok (post, files').
Proof.
  intros reg name2cp mk_temp st m D S F X O truthy pre es epi s csize len fuel hs post files HS Hmk [HD HN] HO HP HF HE (A1 & A2 & A3 & A4 & A5) HR.
  destruct (settings_qd reg st m HS) as [qd Hq]. destruct HS as (_ & Hst & Hm & _).
  assert (Hf : enough s <= fuel) by (unfold enough; now rewrite A1).
  destruct (pieces_items reg name2cp D es HF) as (its & I1 & _).
  pose proof (parse_body reg name2cp mk_temp D HD HN st m s csize len fuel qd pre es epi its HP HF HE I1 Hst Hm (create_no_stop _ Hmk) Hq A1 A2 A3 A4 Hf) as HB.
  destruct (c_raw O len hs) as [r hs1] eqn:ER.
  assert (Hr : r = Good None).
  { unfold c_parse in HR. cbv zeta in HR. rewrite Hq in HR. replace (Z.eqb len 0) with false in HR by lia. rewrite ER in HR.
    destruct r as [[x|]|x]; [discriminate HR|reflexivity|discriminate HR]. }
  subst r.
  destruct (c_parse_body reg name2cp st D HD HN O truthy s csize len fuel hs hs1 qd pre es epi its HP HF HE I1 Hq A1 A2 A3 A4 Hf ER)
    as ([r p] & HG & HX & _).
  pose proof (never_stops_run reg st O truthy HO _ _ _ HG) as HNS. cbn [fst] in HNS.
  rewrite HX in HR. cbn in HR. destruct r as [[]|x]; [|now destruct x].
  destruct (post_run_ok reg mk_temp st m Hmk truthy O _ _ _ HG u_start ltac:(now repeat split) eq_refl) as (u & EU & H1 & _).
  rewrite EU in HB. unfold default_handler. rewrite HB. cbn [fst]. exists (u_files u). cbn [snd] in H1. rewrite <- H1.
  unfold c_return in HR. destruct (c_end O (c_hs p)) as [[v|x] hs2]; [|discriminate HR]. cbn in HR. now injection HR as <- _.
Qed.
Print Assumptions C96_post_returned.

(** a guard in front of the default handler: the files it skips might as well not be in the form *)
Definition guarded : list gh := [Guard; Lib (HConv new_conv)].
Definition kept (v : str -> str -> verdict) (p : part) : bool :=
  match pt_file p with None => true | Some f => match v (pt_name p) f with Accept => true | _ => false end end.
Definition no_stop (v : str -> str -> verdict) (p : part) : Prop :=
  match pt_file p with None => True | Some f => match v (pt_name p) f with Stop _ => False | _ => True end end.
Definition same_result {X} (r : res (dict (list entry) * dict (list ufile))) (o : cr (outcome (X := X))) : Prop :=
  match r with Ok (post, files) => o = Good (Parsed post files) | Err e => o = Bad (CExn e) end.

Definition keep_item (v : str -> str -> verdict) (it : item) : item :=
  match it with KFile i w => match v (fi_field i) (fi_name i) with Accept => it | _ => KSkip end | _ => it end.
Lemma eff_keep v reg name2cp es its : Forall2 (pitem reg name2cp) es its -> Forall (no_stop v) (parts_of es) -> forall r,
  eff v (its ++ r) = (map (keep_item v) its ++ fst (eff v r), snd (eff v r)).
Proof.
  induction 1 as [|e it es its [H1 H2] HF IH]; intros HN r; [cbn [app map]; now destruct (eff v r)|]. cbn [app map].
  assert (HN2 : Forall (no_stop v) (parts_of es)) by (destruct e; [now inversion HN|exact HN]).
  specialize (IH HN2 r). destruct e as [p|j].
  - destruct H2 as [H2 _]. unfold item_for in H2. inversion HN as [|? ? Hp _]; subst. unfold no_stop in Hp.
    destruct (pt_file p) as [f|].
    + destruct H2 as (i & -> & E1 & E2 & _). rewrite <- E1, <- E2 in Hp. cbn [eff keep_item]. destruct (v (fi_field i) (fi_name i)); [| |easy]; now rewrite IH.
    + destruct H2 as (h & -> & _). cbn [eff keep_item]. now rewrite IH.
  - subst it. cbn [eff keep_item]. now rewrite IH.
Qed.
Lemma pitem_kept v reg name2cp es its : Forall2 (pitem reg name2cp) es its ->
  Forall2 (pitem reg name2cp) (map APart (filter (kept v) (parts_of es)))
    (filter (fun it => negb (kskip it)) (map (keep_item v) its)).
Proof.
  induction 1 as [|e it es its [H1 H2] HF IH]; [constructor|]. destruct e as [p|j]; [|subst it; exact IH].
  change (parts_of (APart p :: es)) with (p :: parts_of es). destruct H2 as [H2 H3]. cbn [map filter].
  pose proof H2 as H4. unfold item_for in H2.
  assert (EK : kept v p = match pt_file p with None => true | Some f => match v (pt_name p) f with Accept => true | _ => false end end) by reflexivity.
  rewrite EK. clear EK. destruct (pt_file p) as [f|].
  - destruct H2 as (i & -> & E1 & E2 & _). cbn [keep_item]. rewrite <- E1, <- E2.
    destruct (v (fi_field i) (fi_name i)); cbn [kskip negb map]; [|exact IH|exact IH]. constructor; [now split|exact IH].
  - destruct H2 as (h & -> & _). cbn. constructor; [now split|exact IH].
Qed.
Lemma start_gabs mk_temp v m len : (0 <= m)%Z -> exists hs1,
  c_raw (guard_ops mk_temp (Some m) v) len guarded = (Good None, hs1) /\ gabs m (c_begin hs1) u_start.
Proof.
  intros Hm. eexists. split; [reflexivity|]. split; [now repeat split|]. split; [reflexivity|]. eexists. split; [reflexivity|].
  split; [|reflexivity]. unfold conv_rel. cbn. unfold mem_raw_input, le_max.
  replace (Z.leb 0 m) with true by lia. replace (Z.ltb m 0) with false by lia. split; [easy|]. split; [easy|]. now exists None, None.
Qed.
Lemma guard_end mk_temp max v (p : cst gh ufile) hs : fst (fst (c_return (guard_ops mk_temp max v) p hs tt)) =
  Good (Parsed (p_post (c_core p)) (c_files p)).
Proof.
  unfold c_return. assert (H : exists u hs', c_end (guard_ops mk_temp max v) hs = (Good u, hs')).
  { induction hs as [|h hs (u & hs' & IH)]; [now eexists _, _|]. cbn. cbn in IH. rewrite IH. now eexists _, _. }
  destruct H as (u & hs' & ->). reflexivity.
Qed.
Lemma guard_close mk_temp max v hs : exists u hs', c_close (guard_ops mk_temp max v) hs = (Good u, hs').
Proof. induction hs as [|h hs (u & hs' & IH)]; [now eexists _, _|]. cbn. cbn in IH. rewrite IH. now eexists _, _. Qed.
Lemma kept_ok D v es : Forall (piece_ok D) es -> Forall (piece_ok D) (map APart (filter (kept v) (parts_of es))).
Proof.
  intros HF. apply parts_pieces. apply parts_ok in HF. induction HF as [|p ps Hp HF IH]; [constructor|]. cbn.
  destruct (kept v p); [now constructor|exact IH].
Qed.

Theorem C96_skip :
  forall reg name2cp mk_temp st m D v pre es epi s1 s2 csize1 csize2 len1 len2 fuel1 fuel2,
  settings_ok reg st m -> can_create mk_temp -> delimiter D -> Forall (no_stop v) (parts_of es) ->
  pre_ok D pre -> Forall (piece_ok D) es -> junk_ok D (!"--" ++ epi) ->
  arrives s1 (render_body D pre es epi) csize1 len1 fuel1 ->
  arrives s2 (render_form D (filter (kept v) (parts_of es))) csize2 len2 fuel2 ->
  same_result (fst (parse_src reg name2cp mk_temp st D fuel2 csize2 len2 default_handler s2))
    (fst (fst (c_parse src_read it_exhaust reg name2cp st D fuel1 (guard_ops mk_temp (ms_fmem st) v) file_truthy len1 csize1 guarded s1))).
Proof.
  intros reg name2cp mk_temp st m D v pre es epi s1 s2 csize1 csize2 len1 len2 fuel1 fuel2 HS Hmk [HD HN] HV HP HF HE
    (A1 & A2 & A3 & A4 & A5) (B1 & B2 & B3 & B4 & B5).
  destruct (settings_qd reg st m HS) as [qd Hq]. destruct HS as (_ & Hst & Hm & _). pose proof (create_no_stop _ Hmk) as Hns.
  assert (Hf1 : enough s1 <= fuel1) by (unfold enough; now rewrite A1).
  assert (Hf2 : enough s2 <= fuel2) by (unfold enough; now rewrite B1).
  destruct (pieces_items reg name2cp D es HF) as (its & I1 & _).
  rewrite form_body in B1.
  pose proof (parse_body reg name2cp mk_temp D HD HN st m s2 csize2 len2 fuel2 qd None _ crlf _ I
                (kept_ok D v es HF) (end_ok name2cp mk_temp D HD HN) (pitem_kept v reg name2cp es its I1) Hst Hm Hns Hq B1 B2 B3 B4 Hf2) as HB.
  rewrite <- run_skips in HB. rewrite Hst.
  destruct (start_gabs mk_temp v m len1 Hm) as (hs1 & ER & HA).
  destruct (c_parse_body reg name2cp st D HD HN (guard_ops mk_temp (Some m) v) file_truthy s1 csize1 len1 fuel1 guarded hs1 qd pre es epi its
              HP HF HE I1 Hq A1 A2 A3 A4 Hf1 ER) as ([r p] & HG & HX & _).
  pose proof (guard_run reg name2cp mk_temp st m Hns v _ _ _ HG u_start HA) as HR.
  rewrite (eff_keep v reg name2cp es its I1 HV [KSkip]) in HR. cbn [fst snd eff] in HR.
  rewrite HX. unfold default_handler. destruct (u_run reg mk_temp st m (map (keep_item v) its ++ [KSkip]) u_start) as [u|e].
  - rewrite HB. destruct HR as (((H1 & _) & H2 & _) & ->). cbn [c_result same_result fst]. now rewrite guard_end, H1, H2.
  - rewrite HB. subst r. reflexivity.
Qed.
Print Assumptions C96_skip.
Definition ex_verdict (x : verdict) : str -> str -> verdict := fun _ f => if seqb f !"x;1.txt" then x else Accept.
Example C96_skip_case : Forall (no_stop (ex_verdict Skip)) ex_parts /\ filter (kept (ex_verdict Skip)) ex_parts = [ex_field; ex_b64] /\
  fst (fst (ex_custom (guard_ops ok_temp (ms_fmem ex_ms) (ex_verdict Skip)) file_truthy (render_form !"--X" ex_parts) guarded)) =
  match ex_parse ex_ms (render_form !"--X" [ex_field; ex_b64]) with Ok (post, files) => Good (Parsed post files) | Err e => Bad (CExn e) end /\
  match ex_parse ex_ms (render_form !"--X" [ex_field; ex_b64]) with Ok (_, [(k, [f])]) => k = !"f" /\ uf_content f = !"abc" | _ => False end.
Proof. split; [|vm_compute; easy]. repeat constructor. Qed.

(** ** C97: a handler that stops the upload *)
(** what is returned is what had arrived before the file at which the guard stopped; nothing after it is looked at *)
Theorem C97_stop :
  forall reg name2cp mk_temp st m D v pre es p f reset rest s1 s2 csize1 csize2 len1 len2 fuel1 fuel2,
  settings_ok reg st m -> can_create mk_temp -> delimiter D -> Forall (no_stop v) (parts_of es) ->
  pt_file p = Some f -> v (pt_name p) f = Stop reset ->
  pre_ok D pre -> Forall (piece_ok D) es -> part_ok D p ->
  arrives s1 (upto D pre (es ++ [APart p]) ++ rest) csize1 len1 fuel1 ->
  arrives s2 (render_form D (filter (kept v) (parts_of es))) csize2 len2 fuel2 ->
  let out := c_parse src_read it_exhaust reg name2cp st D fuel1 (guard_ops mk_temp (ms_fmem st) v) file_truthy len1 csize1 guarded s1 in
  let r := fst (parse_src reg name2cp mk_temp st D fuel2 csize2 len2 default_handler s2) in
  same_result r (fst (fst out)) /\
  (* the rest is read if the connection is not to be reset *)
  (exists u, src_bytes s1 = u ++ src_bytes (snd out)) /\
  (reset = false -> (exists x, r = Ok x) -> snd out = []).
Proof.
  intros reg name2cp mk_temp st m D v pre es p f reset rest s1 s2 csize1 csize2 len1 len2 fuel1 fuel2 HS Hmk [HD HN] HV Hpf Hv HP HF Hp
    (A1 & A2 & A3 & A4 & A5) (B1 & B2 & B3 & B4 & B5). cbv zeta.
  destruct (settings_qd reg st m HS) as [qd Hq]. destruct HS as (_ & Hst & Hm & _). pose proof (create_no_stop _ Hmk) as Hns.
  assert (Hf1 : enough s1 <= fuel1) by (unfold enough; now rewrite A1).
  assert (Hf2 : enough s2 <= fuel2) by (unfold enough; now rewrite B1).
  destruct (pieces_items reg name2cp D es HF) as (its & I1 & _).
  assert (HF2 : Forall (piece_ok D) [APart p]) by (constructor; [exact Hp|constructor]).
  destruct (pieces_items reg name2cp D [APart p] HF2) as (its2 & I2 & _).
  inversion I2 as [|? it ? ? HI HI0]; subst. inversion HI0; subst. clear I2 HI0.
  rewrite form_body in B1.
  pose proof (parse_body reg name2cp mk_temp D HD HN st m s2 csize2 len2 fuel2 qd None _ crlf _ I
                (kept_ok D v es HF) (end_ok name2cp mk_temp D HD HN) (pitem_kept v reg name2cp es its I1) Hst Hm Hns Hq B1 B2 B3 B4 Hf2) as HB.
  rewrite <- run_skips in HB. rewrite Hst.
  destruct (start_gabs mk_temp v m len1 Hm) as (hs1 & ER & HA).
  destruct (c_parse_upto reg name2cp st D HD HN (guard_ops mk_temp (Some m) v) file_truthy s1 csize1 len1 fuel1 guarded hs1 qd pre (es ++ [APart p]) rest (its ++ [it])
              HP ltac:(apply Forall_app; now split) ltac:(apply Forall2_app; [exact I1|constructor; [exact HI|constructor]]) Hq A1 A2 A3 A4 Hf1 ER)
    as (o & o1 & HG & HO & HX & (_ & HRest) & HEnd).
  pose proof (guard_run reg name2cp mk_temp st m Hns v _ _ _ HG u_start HA) as HR.
  rewrite (eff_keep v reg name2cp es its I1 HV [it]) in HR.
  destruct HI as (_ & HI & _). unfold item_for in HI. rewrite Hpf in HI. destruct HI as (i & -> & E1 & E2 & _).
  cbn [fst snd eff] in HR. rewrite E1, E2, Hv in HR. cbn [fst snd] in HR.
  rewrite HX. unfold default_handler. destruct (u_run reg mk_temp st m (map (keep_item v) its ++ [KSkip]) u_start) as [u|e].
  - rewrite HB. destruct HR as (((H1 & _) & H2 & _) & H3).
    destruct HO as [->|(p' & ->)]; [|discriminate H3]. destruct o1 as [r1 p1]. cbn [fst snd] in *. subst r1.
    destruct (guard_close mk_temp (Some m) v (c_hs p1)) as (u1 & hs2 & EC). cbn [c_result same_result]. rewrite EC.
    split; [now rewrite guard_end, H1, H2|]. split; [exact HRest|]. intros -> _. apply HEnd. now exists u1, hs2.
  - rewrite HB. destruct HO as [->|(p' & ->)]; [|discriminate HR]. destruct o1 as [r1 p1]. cbn [fst snd] in *. subst r1.
    split; [reflexivity|]. split; [exact HRest|]. now intros _ (x & Hx).
Qed.
Print Assumptions C97_stop.
(** the second part is refused; what follows is not a form, and with connection_reset it is not read *)
Definition ex_stopped (reset : bool) :=
  c_parse src_read it_exhaust ex_reg no_cp ex_ms !"--X" 600 (guard_ops ok_temp (ms_fmem ex_ms) (ex_verdict (Stop reset))) file_truthy 1%Z 4096 guarded
    [SData (upto !"--X" None (map APart [ex_field; ex_file])); SData !"rest"].
Example C97_case : Forall (no_stop (ex_verdict (Stop false))) [ex_field] /\ ex_verdict (Stop false) (pt_name ex_file) !"x;1.txt" = Stop false /\
  fst (fst (ex_stopped false)) = Good (Parsed [(!"a b", [mkEntry (!"v1" ++ crlf ++ !"--") [] [] []])] []) /\ snd (ex_stopped false) = [] /\
  fst (fst (ex_stopped true)) = fst (fst (ex_stopped false)) /\ snd (ex_stopped true) = [SData !"rest"].
Proof. split; [repeat constructor|]. vm_compute. easy. Qed.

(** ** The library's handlers are a special case *)
Theorem C95_library :
  forall reg name2cp mk_temp st D R rd exh fuel csize len hs (r : R),
  let out := c_parse rd exh reg name2cp st D fuel (lib_ops mk_temp (ms_fmem st)) file_truthy len csize hs r in
  same_result (fst (mp_parse rd exh reg name2cp mk_temp st D fuel csize len hs r)) (fst (fst out)) /\
  snd (mp_parse rd exh reg name2cp mk_temp st D fuel csize len hs r) = snd out.
Proof. intros. apply lib_parse. Qed.
Print Assumptions C95_library.
