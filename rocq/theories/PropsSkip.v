(** * C23, C118: pieces of a multipart body that leave no trace, and a preamble that is a part *)
From Coq Require Import ZifyBool ZifyN ZifyNat.
From Verif Require Import Py PyFacts PyDict Spec StreamModel StreamSpec CodecModel QueryModel Base64Model HeaderModel HeaderSpec HeaderFacts
  BoundaryModel BoundarySpec BoundaryFacts UploadModel MultipartModel MultipartSem MultipartSpec MultipartDet FormSpec FormFacts
  MultipartInv BodySpec HeadLineFacts ItemFacts BodyFacts PropsData PropsPart PropsMultipart PropsDelim PropsLost.

(** the body of a form with the piece [t] between the parts *)
Definition form_with (D : str) (ps1 : list part) (t : str) (ps2 : list part) : str :=
  D ++ concat (map (fun p => render_part p ++ crlf ++ D) ps1) ++ t ++ crlf ++ D ++
  concat (map (fun p => render_part p ++ crlf ++ D) ps2) ++ !"--" ++ crlf.

Lemma form_with_splits D ps1 t ps2 : delimiter D -> Forall (part_ok D) (ps1 ++ ps2) -> ~ occurs D t ->
  splits D (form_with D ps1 t ps2) ([] :: map render_part ps1 ++ t :: map render_part ps2 ++ [tail_piece]).
Proof.
  intros HD HP Hp. pose proof HD as [HD3 HN]. apply Forall_app in HP as [HP1 HP2].
  assert (EB : form_with D ps1 t ps2 = upto D None (map APart ps1) ++ t ++ crlf ++ D ++
               concat (map (fun e => piece_bytes e ++ crlf ++ D) (map APart ps2)) ++ !"--" ++ crlf).
  { unfold form_with, upto, body_open. rewrite !map_map. cbn [piece_bytes]. now rewrite <- !app_assoc. }
  rewrite EB.
  apply (cuts_splits D _ ([] :: map render_part ps1) (t ++ crlf ++ D ++
           concat (map (fun e => piece_bytes e ++ crlf ++ D) (map APart ps2)) ++ !"--" ++ crlf)).
  - replace (map render_part ps1) with (map piece_bytes (map APart ps1)) by now rewrite map_map.
    apply (upto_cuts D None (map APart ps1)); try easy. now apply parts_pieces.
  - eapply sp_cons.
    + intros E. apply (f_equal (@length N)) in E. rewrite !app_length in E. cbn in E. lia.
    + apply block_delim; try easy.
    + cbn [odef]. apply (cuts_splits D _ _ (!"--" ++ crlf)).
      * replace (map render_part ps2) with (map piece_bytes (map APart ps2)) by now rewrite map_map.
        apply pieces_cuts; try easy. now apply parts_pieces.
      * apply tail_splits; [easy|]. apply (end_ok (fun _ => None) (fun _ => Ok tt) D HD3 HN).
Qed.

(** the result of a body in terms of the items of its pieces *)
Lemma body_run reg name2cp mk_temp st m D s csize len fuel b ts its :
  settings_ok reg st m -> can_create mk_temp -> delimiter D -> arrives s b csize len fuel ->
  splits D b ts -> Forall2 (item_of reg name2cp) ts its -> Forall2 small ts its ->
  fst (parse_src reg name2cp mk_temp st D fuel csize len default_handler s) =
    bind (u_run reg mk_temp st m its u_start) (fun u => Ok (u_post u, u_files u)).
Proof.
  intros HS Hmk HD (A1 & A2 & A3 & A4 & A5) Hsp HI Hsm. destruct (settings_qd reg st m HS) as [qd Hq]. destruct HS as (_ & Hst & Hm & _).
  rewrite <- A1 in Hsp, A5.
  pose proof (parse_src_det reg name2cp mk_temp st D (delim_dok D HD) s csize len m qd fuel ts its A3 A2 Hq A4 A5 Hst Hm
                (create_no_stop mk_temp Hmk) Hsp HI Hsm) as R.
  unfold default_handler. destruct (u_run reg mk_temp st m its u_start); now rewrite R.
Qed.
Lemma end_items reg name2cp : (item_of reg name2cp tail_piece KSkip /\ small tail_piece KSkip) /\ (item_of reg name2cp [] KSkip /\ small [] KSkip).
Proof. split; (split; [reflexivity|]); apply small_short; unfold head_size; cbn; lia. Qed.

Lemma piece_no_trace reg name2cp mk_temp st m D ps1 t ps2 s1 s2 csize1 csize2 len1 len2 fuel1 fuel2 :
  settings_ok reg st m -> can_create mk_temp -> delimiter D ->
  Forall (part_ok D) (ps1 ++ ps2) -> ~ occurs D t -> item_of reg name2cp t KSkip -> small t KSkip ->
  arrives s1 (form_with D ps1 t ps2) csize1 len1 fuel1 ->
  arrives s2 (render_form D (ps1 ++ ps2)) csize2 len2 fuel2 ->
  fst (parse_src reg name2cp mk_temp st D fuel1 csize1 len1 default_handler s1) =
  fst (parse_src reg name2cp mk_temp st D fuel2 csize2 len2 default_handler s2).
Proof.
  intros HS Hmk HD HP Ho Hit Hsm A1 A2. pose proof HD as [HD3 HN].
  pose proof HP as HP'. apply Forall_app in HP' as [HP1 HP2].
  destruct (form_items reg name2cp D ps1 HD HP1) as (i1 & I1 & _ & I2).
  destruct (form_items reg name2cp D ps2 HD HP2) as (i2 & J1 & _ & J2).
  destruct (end_items reg name2cp) as [[T1 T2] [O1 O2]].
  rewrite (body_run reg name2cp mk_temp st m D s1 csize1 len1 fuel1 _ _ ((KSkip :: i1) ++ KSkip :: i2 ++ [KSkip]) HS Hmk HD A1 (form_with_splits D ps1 t ps2 HD HP Ho)).
  2:{ cbn [app]. constructor; [easy|]. apply Forall2_app; [easy|]. constructor; [easy|]. apply Forall2_app; [easy|]. now constructor. }
  2:{ cbn [app]. constructor; [easy|]. apply Forall2_app; [easy|]. constructor; [easy|]. apply Forall2_app; [easy|]. now constructor. }
  rewrite (body_run reg name2cp mk_temp st m D s2 csize2 len2 fuel2 _ _ ((KSkip :: i1) ++ i2 ++ [KSkip]) HS Hmk HD A2 (body_splits D (ps1 ++ ps2) HD3 HN HP)).
  2:{ cbn [app]. constructor; [easy|]. rewrite map_app, <- app_assoc. apply Forall2_app; [easy|]. apply Forall2_app; [easy|]. now constructor. }
  2:{ cbn [app]. constructor; [easy|]. rewrite map_app, <- app_assoc. apply Forall2_app; [easy|]. apply Forall2_app; [easy|]. now constructor. }
  f_equal. rewrite !run_bind. destruct (u_run reg mk_temp st m (KSkip :: i1) u_start) as [u|e]; [|reflexivity].
  cbn [bind]. cbn [u_run u_step bind]. destruct (i2 ++ [KSkip]) as [|it its] eqn:E; [now destruct i2|]. apply run_finish.
Qed.

(** ** C23: a part without a name leaves no trace, whatever it contains
    (beyond the first 1024 bytes: nothing that reads like the head of a part) *)
Definition nameless (ps : list (str * pval)) (c : str) : str :=
  crlf ++ render !"Content-Disposition: form-data" ps ++ crlfcrlf ++ c.
Theorem C23_nameless_partial :
  forall reg name2cp mk_temp st m D ps1 ps c ps2 s1 s2 csize1 csize2 len1 len2 fuel1 fuel2,
  settings_ok reg st m -> can_create mk_temp -> delimiter D -> Forall (part_ok D) (ps1 ++ ps2) ->
  Forall (fun p => param_ok p = true) ps -> no_newline (render !"Content-Disposition: form-data" ps) ->
  length (render !"Content-Disposition: form-data" ps) + 6 <= 1024 ->
  last_value !"name" ps = None ->
  ~ occurs D (nameless ps c) -> ignorable (skipn 1024 (nameless ps c)) ->
  arrives s1 (form_with D ps1 (nameless ps c) ps2) csize1 len1 fuel1 ->
  arrives s2 (render_form D (ps1 ++ ps2)) csize2 len2 fuel2 ->
  fst (parse_src reg name2cp mk_temp st D fuel1 csize1 len1 default_handler s1) =
  fst (parse_src reg name2cp mk_temp st D fuel2 csize2 len2 default_handler s2).
Proof.
  intros reg name2cp mk_temp st m D ps1 ps c ps2 s1 s2 csize1 csize2 len1 len2 fuel1 fuel2 HS Hmk HD HP Hps Hnl Hlen Hv Ho Hi A1 A2.
  apply (piece_no_trace reg name2cp mk_temp st m D ps1 (nameless ps c) ps2 s1 s2 csize1 csize2 len1 len2 fuel1 fuel2
    HS Hmk HD HP Ho); [|exact (small_tail _ _ Hi)|exact A1|exact A2].
  set (L := render !"Content-Disposition: form-data" ps) in *.
  assert (Hne : L <> []) by (unfold L, render; discriminate).
  destruct (parse_header_render reg !"Content-Disposition: form-data" ps eq_refl Hps) as (d & H1 & H2).
  assert (HL : exists y X', L = y :: X' /\ y <> 13%N).
  { destruct L as [|y X'] eqn:E; [easy|]. exists y, X'. split; [reflexivity|]. intros ->. apply (proj1 Hnl). now left. }
  assert (HC : classify reg (nameless ps c) = let* h := header_meta reg ([] :: [L]) RAW [] in Ok (fst h, snd h, c)).
  { unfold classify, nameless. fold L. set (H := crlf ++ L). assert (HH : length H = length L + 2) by (unfold H; rewrite app_length; cbn; lia).
    replace (crlf ++ L ++ crlfcrlf ++ c) with (H ++ crlfcrlf ++ c) by (unfold H; now rewrite <- !app_assoc).
    assert (HF : firstn head_size (H ++ crlfcrlf ++ c) = H ++ crlfcrlf ++ firstn (head_size - length H - 4) c).
    { rewrite firstn_app. rewrite firstn_all2 by (unfold head_size; lia). f_equal.
      rewrite firstn_app. rewrite firstn_all2 by (change (length crlfcrlf) with 4; unfold head_size; lia). now f_equal. }
    rewrite HF.
    assert (HFi : find crlfcrlf (H ++ crlfcrlf ++ firstn (head_size - length H - 4) c) = Some (length H)).
    { unfold H. rewrite <- app_assoc.
      destruct HL as (y & X' & HX & Hy).
      match goal with |- context [firstn ?k c] => pose proof (find_lines (firstn k c) [] L Hnl Hne (Forall_nil _)) as HL end.
      cbn [join] in HL. rewrite HX in *. cbn [app] in *.
      match goal with |- find _ (crlf ++ y :: ?Z) = _ => pose proof (find_line [] y Z ltac:(split; easy) Hy) as HL2 end.
      cbn [app] in HL2. rewrite HL2, HL. reflexivity. }
    rewrite HFi. rewrite firstn_app_exact.
    replace (skipn (length H + 4) (H ++ crlfcrlf ++ c)) with c.
    2:{ rewrite <- skipn_skipn', skipn_app_exact. reflexivity. }
    unfold H. change (crlf ++ L) with (join crlf [[]; L]).
    rewrite split_lines; [reflexivity|split; intros []|]. constructor; [exact Hnl|constructor]. }
  unfold item_of. rewrite HC. cbn [header_meta]. change (part_header reg []) with (@Err (str * (str * dict pystr)) ValueError).
  cbn [is_value_error]. cbv iota.
  assert (HX : part_header reg L = Ok (CDISP, (!" form-data", d))) by (unfold part_header, L; rewrite H1; reflexivity).
  rewrite HX. cbn [fst snd bind]. change (seqb CDISP CDISP) with true. cbv iota. cbn [bind fst snd].
  assert (HA : forall ty, part_action name2cp ty (dset CDISP (!" form-data", d) []) = Ok ASkip).
  { intros ty. unfold part_action. change (dget CDISP (dset CDISP (!" form-data", d) [])) with (Some (!" form-data", d)). cbv iota beta. now rewrite H2, Hv. }
  now rewrite HA.
Qed.
Print Assumptions C23_nameless_partial.
Example C23_nameless_case :
  let ps := [(!"filename", Quo !"a.txt")] in let c := repeat 122%N 1500 in
  Forall (fun p => param_ok p = true) ps /\ last_value !"name" ps = None /\
  no_newline (render !"Content-Disposition: form-data" ps) /\ length (render !"Content-Disposition: form-data" ps) + 6 <= 1024 /\
  ~ occurs !"--X" (nameless ps c) /\ ignorable (skipn 1024 (nameless ps c)).
Proof.
  cbn zeta. split; [repeat constructor|]. split; [reflexivity|]. split; [now apply no_newline_check|]. split; [cbn; lia|].
  split; [apply find_None; vm_compute; reflexivity|]. split; [apply find_None; vm_compute; reflexivity|apply findc_None; vm_compute; reflexivity].
Qed.

(** ** C118: a part whose header block is longer than 1024 bytes leaves no trace *)
Theorem C118_long_head_all_refuted :
  forall reg name2cp mk_temp st m D ps1 p ps2 s1 s2 csize1 csize2 len1 len2 fuel1 fuel2,
  settings_ok reg st m -> can_create mk_temp -> delimiter D -> Forall (part_ok D) (ps1 ++ ps2) ->
  ~ occurs D (render_part p) -> ~ occurs crlfcrlf (firstn 1024 (render_part p)) -> ignorable (skipn 1024 (render_part p)) ->
  arrives s1 (render_form D (ps1 ++ p :: ps2)) csize1 len1 fuel1 ->
  arrives s2 (render_form D (ps1 ++ ps2)) csize2 len2 fuel2 ->
  fst (parse_src reg name2cp mk_temp st D fuel1 csize1 len1 default_handler s1) =
  fst (parse_src reg name2cp mk_temp st D fuel2 csize2 len2 default_handler s2).
Proof.
  intros reg name2cp mk_temp st m D ps1 p ps2 s1 s2 csize1 csize2 len1 len2 fuel1 fuel2 HS Hmk HD HP Ho Hh Hi A1 A2.
  apply (piece_no_trace reg name2cp mk_temp st m D ps1 (render_part p) ps2 s1 s2 csize1 csize2 len1 len2 fuel1 fuel2
    HS Hmk HD HP Ho); [| |clear A2|exact A2].
  - unfold item_of, classify. destruct (find crlfcrlf (firstn head_size (render_part p))) as [i|] eqn:E; [|reflexivity].
    exfalso. apply Hh. apply find_Some in E as [E _]. eexists _, _. exact E.
  - exact (small_tail _ _ Hi).
  - assert (EB : form_with D ps1 (render_part p) ps2 = render_form D (ps1 ++ p :: ps2)); [|now rewrite EB].
    unfold form_with, render_form. rewrite map_app, concat_app. cbn [map concat]. now rewrite <- !app_assoc.
Qed.
Print Assumptions C118_long_head_all_refuted.
Definition ex_long : part := mkPart !"a" None (Some (!"text/plain", [(!"x", Quo (repeat 122%N 1000))])) false !"v" !"v".
Example C118_long_head_all_case :
  ~ occurs !"--X" (render_part ex_long) /\ ~ occurs crlfcrlf (firstn 1024 (render_part ex_long)) /\ ignorable (skipn 1024 (render_part ex_long)).
Proof.
  split; [apply find_None; vm_compute; reflexivity|]. split; [apply find_None; vm_compute; reflexivity|].
  split; [apply find_None; vm_compute; reflexivity|apply findc_None; vm_compute; reflexivity].
Qed.

(** ** C23: text before the first delimiter is taken as a part, whatever part it is: without the
    first delimiter every form means the same *)
Theorem C23_preamble_all_refuted :
  forall reg name2cp mk_temp st m D p ps s1 s2 csize1 csize2 len1 len2 fuel1 fuel2,
  settings_ok reg st m -> can_create mk_temp -> delimiter D -> Forall (part_ok D) (p :: ps) ->
  arrives s1 (render_part p ++ crlf ++ render_form D ps) csize1 len1 fuel1 ->
  arrives s2 (render_form D (p :: ps)) csize2 len2 fuel2 ->
  fst (parse_src reg name2cp mk_temp st D fuel1 csize1 len1 default_handler s1) =
  fst (parse_src reg name2cp mk_temp st D fuel2 csize2 len2 default_handler s2).
Proof.
  intros reg name2cp mk_temp st m D p ps s1 s2 csize1 csize2 len1 len2 fuel1 fuel2 HS Hmk HD HP A1 A2. pose proof HD as [HD3 HN].
  destruct (form_items reg name2cp D (p :: ps) HD HP) as (its & I1 & _ & I2).
  destruct (end_items reg name2cp) as [[T1 T2] [O1 O2]].
  rewrite (body_run reg name2cp mk_temp st m D s1 csize1 len1 fuel1 _ (map render_part (p :: ps) ++ [tail_piece]) (its ++ [KSkip]) HS Hmk HD A1).
  2:{ assert (EB : render_part p ++ crlf ++ render_form D ps =
                 concat (map (fun e => piece_bytes e ++ crlf ++ D) (map APart (p :: ps))) ++ !"--" ++ crlf).
      { rewrite map_map. unfold render_form. cbn [map concat piece_bytes]. now rewrite <- !app_assoc. }
      rewrite EB. apply (cuts_splits D _ _ (!"--" ++ crlf)).
      - replace (map render_part (p :: ps)) with (map piece_bytes (map APart (p :: ps))) by now rewrite map_map.
        apply pieces_cuts; try easy. now apply parts_pieces.
      - apply tail_splits; [easy|]. apply (end_ok (fun _ => None) (fun _ => Ok tt) D HD3 HN). }
  2:{ apply Forall2_app; [easy|]. now constructor. }
  2:{ apply Forall2_app; [easy|]. now constructor. }
  rewrite (body_run reg name2cp mk_temp st m D s2 csize2 len2 fuel2 _ _ (KSkip :: its ++ [KSkip]) HS Hmk HD A2 (body_splits D (p :: ps) HD3 HN HP)).
  2:{ constructor; [easy|]. apply Forall2_app; [easy|]. now constructor. }
  2:{ constructor; [easy|]. apply Forall2_app; [easy|]. now constructor. }
  reflexivity.
Qed.
Print Assumptions C23_preamble_all_refuted.
Example C23_preamble_all_case :
  Forall (part_ok !"--X") ex_parts /\ ex_parse ex_ms (match ex_parts with p :: ps => render_part p ++ crlf ++ render_form !"--X" ps | [] => [] end) =
    ex_parse ex_ms (render_form !"--X" ex_parts).
Proof. split; [exact ex_parts_ok|vm_compute; reflexivity]. Qed.
