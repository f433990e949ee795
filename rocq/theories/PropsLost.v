(** * C118: a part of a form is kept, or the form is refused

    Kept parts are C22.  Here: parts that leave no trace. *)
From Coq Require Import ZifyBool ZifyN ZifyNat.
From Verif Require Import Py PyFacts PyDict Spec StreamModel StreamSpec CodecModel QueryModel Base64Model HeaderModel HeaderSpec
  BoundaryModel BoundarySpec BoundaryFacts UploadModel MultipartModel MultipartSem MultipartSpec MultipartDet FormSpec FormFacts
  MultipartInv BodySpec HeadLineFacts ItemFacts BodyFacts PropsData PropsPart PropsMultipart PropsDelim PartErrors.

(** the pieces of a form with one more part that is only known not to contain the delimiter *)
Lemma form_splits_with D ps1 p ps2 : delimiter D -> Forall (part_ok D) (ps1 ++ ps2) -> ~ occurs D (render_part p) ->
  splits D (render_form D (ps1 ++ p :: ps2)) ([] :: map render_part ps1 ++ render_part p :: map render_part ps2 ++ [tail_piece]).
Proof.
  intros HD HP Hp. pose proof HD as [HD3 HN]. apply Forall_app in HP as [HP1 HP2].
  rewrite form_body. unfold render_body.
  assert (EB : upto D None (map APart (ps1 ++ p :: ps2)) =
               upto D None (map APart ps1) ++ render_part p ++ crlf ++ D ++
               concat (map (fun e => piece_bytes e ++ crlf ++ D) (map APart ps2))).
  { unfold upto. rewrite map_app. rewrite map_app, concat_app. cbn [map concat piece_bytes]. now rewrite <- !app_assoc. }
  rewrite EB. rewrite <- !app_assoc.
  apply (cuts_splits D _ ([] :: map render_part ps1) (render_part p ++ crlf ++ D ++
           concat (map (fun e => piece_bytes e ++ crlf ++ D) (map APart ps2)) ++ !"--" ++ crlf)).
  - replace (map render_part ps1) with (map piece_bytes (map APart ps1)) by now rewrite map_map.
    apply (upto_cuts D None (map APart ps1)); try easy. now apply parts_pieces.
  - eapply sp_cons.
    + unfold render_part. intros E. apply (f_equal (@length N)) in E. rewrite !app_length in E. cbn in E. lia.
    + apply block_delim; try easy.
    + cbn [odef]. apply (cuts_splits D _ _ (!"--" ++ crlf)).
      * replace (map render_part ps2) with (map piece_bytes (map APart ps2)) by now rewrite map_map.
        apply pieces_cuts; try easy. now apply parts_pieces.
      * apply tail_splits; [easy|]. apply (end_ok (fun _ => None) (fun _ => Ok tt) D HD3 HN).
Qed.

Lemma form_items reg name2cp D ps : delimiter D -> Forall (part_ok D) ps ->
  exists its, Forall2 (item_of reg name2cp) (map render_part ps) its /\ Forall2 item_for ps its /\
              Forall2 small (map render_part ps) its.
Proof.
  intros HD. induction 1 as [|p ps Hp HF IH]; [exists []; split; [constructor|split; constructor]|]. destruct IH as (its & I1 & I2 & I3).
  destruct (item_part reg name2cp p D Hp) as (it & J1 & J2 & J3). exists (it :: its). cbn [map].
  split; [now constructor|]. split; [now constructor|]. constructor; [|easy]. now intros ->.
Qed.

(** the result of a form with one more piece, in terms of the items of the others *)
Lemma with_item reg name2cp mk_temp st m D ps1 p ps2 it s1 s2 csize1 csize2 len1 len2 fuel1 fuel2 :
  settings_ok reg st m -> can_create mk_temp -> delimiter D ->
  Forall (part_ok D) (ps1 ++ ps2) -> ~ occurs D (render_part p) ->
  item_of reg name2cp (render_part p) it -> small (render_part p) it ->
  arrives s1 (render_form D (ps1 ++ p :: ps2)) csize1 len1 fuel1 ->
  arrives s2 (render_form D (ps1 ++ ps2)) csize2 len2 fuel2 ->
  exists i1 i2, 
    fst (parse_src reg name2cp mk_temp st D fuel1 csize1 len1 default_handler s1) =
      bind (u_run reg mk_temp st m ((KSkip :: i1) ++ it :: i2 ++ [KSkip]) u_start) (fun u => Ok (u_post u, u_files u)) /\
    fst (parse_src reg name2cp mk_temp st D fuel2 csize2 len2 default_handler s2) =
      bind (u_run reg mk_temp st m ((KSkip :: i1) ++ i2 ++ [KSkip]) u_start) (fun u => Ok (u_post u, u_files u)).
Proof.
  intros HS Hmk HD HP Ho Hit Hsm (A1 & A2 & A3 & A4 & A5) (B1 & B2 & B3 & B4 & B5).
  pose proof HD as [HD3 HN].
  destruct (settings_qd reg st m HS) as [qd Hq]. destruct HS as (_ & Hst & Hm & _).
  pose proof (form_splits_with D ps1 p ps2 HD HP Ho) as S1.
  pose proof (body_splits D (ps1 ++ ps2) HD3 HN HP) as S2.
  pose proof HP as HP'. apply Forall_app in HP' as [HP1 HP2].
  destruct (form_items reg name2cp D ps1 HD HP1) as (i1 & I1 & _ & I2).
  destruct (form_items reg name2cp D ps2 HD HP2) as (i2 & J1 & _ & J2).
  assert (HT : item_of reg name2cp tail_piece KSkip /\ small tail_piece KSkip).
  { split; [reflexivity|]. apply small_short. unfold head_size. cbn. lia. }
  assert (HO : item_of reg name2cp [] KSkip /\ small [] KSkip).
  { split; [reflexivity|]. apply small_short. unfold head_size. cbn. lia. }
  rewrite <- A1 in S1, A5. rewrite <- B1 in S2, B5. unfold default_handler.
  pose proof (parse_src_det reg name2cp mk_temp st D (delim_dok D HD) s1 csize1 len1 m qd fuel1 _ ((KSkip :: i1) ++ it :: i2 ++ [KSkip]) A3 A2 Hq A4 A5 Hst Hm
                (create_no_stop mk_temp Hmk) S1) as R1.
  pose proof (parse_src_det reg name2cp mk_temp st D (delim_dok D HD) s2 csize2 len2 m qd fuel2 _ ((KSkip :: i1) ++ i2 ++ [KSkip]) B3 B2 Hq B4 B5 Hst Hm
                (create_no_stop mk_temp Hmk) S2) as R2.
  assert (F1 : forall P : str -> item -> Prop, Forall2 P (map render_part ps1) i1 -> Forall2 P (map render_part ps2) i2 ->
     P [] KSkip -> P (render_part p) it -> P tail_piece KSkip ->
     Forall2 P ([] :: map render_part ps1 ++ render_part p :: map render_part ps2 ++ [tail_piece]) ((KSkip :: i1) ++ it :: i2 ++ [KSkip]) /\
     Forall2 P ([] :: map render_part (ps1 ++ ps2) ++ [tail_piece]) ((KSkip :: i1) ++ i2 ++ [KSkip])).
  { intros P P1 P2 Q1 Q2 Q3. cbn [app]. rewrite map_app, <- !app_assoc. split; (constructor; [easy|]); (apply Forall2_app; [easy|]).
    - cbn [app]. constructor; [easy|]. apply Forall2_app; [easy|]. now constructor.
    - apply Forall2_app; [easy|]. now constructor. }
  specialize (R1 (proj1 (F1 _ I1 J1 (proj1 HO) Hit (proj1 HT))) (proj1 (F1 _ I2 J2 (proj2 HO) Hsm (proj2 HT)))).
  specialize (R2 (proj2 (F1 _ I1 J1 (proj1 HO) Hit (proj1 HT))) (proj2 (F1 _ I2 J2 (proj2 HO) Hsm (proj2 HT)))).
  exists i1, i2. split.
  - destruct (u_run reg mk_temp st m ((KSkip :: i1) ++ it :: i2 ++ [KSkip]) u_start); now rewrite R1.
  - destruct (u_run reg mk_temp st m ((KSkip :: i1) ++ i2 ++ [KSkip]) u_start); now rewrite R2.
Qed.

Lemma run_bind reg mk_temp st m a b u : u_run reg mk_temp st m (a ++ b) u =
  let* u' := u_run reg mk_temp st m a u in u_run reg mk_temp st m b u'.
Proof.
  revert u. induction a as [|it a IH]; intros u; [easy|]. cbn [app u_run].
  destruct (u_step reg mk_temp st m it u) as [u'|e]; [apply IH|easy].
Qed.
Lemma finish_twice u : u_finish (u_finish u) = u_finish u.
Proof. unfold u_finish. destruct (u_pend u) as [[n f]|] eqn:E; [easy|now rewrite E]. Qed.
Lemma run_finish reg mk_temp st m it its u : u_run reg mk_temp st m (it :: its) (u_finish u) = u_run reg mk_temp st m (it :: its) u.
Proof. cbn [u_run]. unfold u_step. now rewrite finish_twice. Qed.

Lemma ie_backslash a : ie_sanitize (a ++ [92%N]) = [].
Proof.
  unfold ie_sanitize. destruct (a ++ [92%N]) as [|x f] eqn:E; [reflexivity|]. rewrite <- E. change hback with 92%N.
  rewrite rfindc_app by easy. replace (S (length a)) with (length (a ++ [92%N])) by (rewrite app_length; cbn; lia).
  rewrite skipn_all. reflexivity.
Qed.

(** a file whose name ends in a backslash: whatever it contains, and whatever else the form
    contains, the result is the one without it *)
Theorem C118_backslash_refuted :
  forall reg name2cp mk_temp st m D ps1 p ps2 a s1 s2 csize1 csize2 len1 len2 fuel1 fuel2,
  settings_ok reg st m -> can_create mk_temp -> delimiter D ->
  Forall (part_ok D) (ps1 ++ ps2) -> head_ok p -> ~ occurs D (render_part p) -> ignorable (skipn 1024 (render_part p)) ->
  pt_file p = Some (a ++ [92%N]) -> ~ In 38%N a ->
  arrives s1 (render_form D (ps1 ++ p :: ps2)) csize1 len1 fuel1 ->
  arrives s2 (render_form D (ps1 ++ ps2)) csize2 len2 fuel2 ->
  fst (parse_src reg name2cp mk_temp st D fuel1 csize1 len1 default_handler s1) =
  fst (parse_src reg name2cp mk_temp st D fuel2 csize2 len2 default_handler s2).
Proof.
  intros reg name2cp mk_temp st m D ps1 p ps2 a s1 s2 csize1 csize2 len1 len2 fuel1 fuel2 HS Hmk HD HP HH Ho Hl Hf Ha A1 A2.
  assert (Hit : item_of reg name2cp (render_part p) KSkip).
  { unfold item_of. rewrite (classify_part reg p HH).
    destruct (header_meta_part reg p HH) as (h & d & -> & H1 & H2 & H3 & _). cbn [bind fst snd].
    unfold part_action. rewrite H1, H2. cbn [pstrip to_native bind]. unfold kind. rewrite Hf. cbn [option_map] in *.
    unfold filename_of. rewrite H3, Hf. cbn [option_map]. destruct (pnonempty _); [|reflexivity]. cbn [to_native bind].
    rewrite unescape_plain; [cbn [bind]; now rewrite ie_backslash|].
    intros H. apply in_app_or in H as [H|[H|[]]]; [easy|discriminate]. }
  destruct (with_item reg name2cp mk_temp st m D ps1 p ps2 KSkip s1 s2 csize1 csize2 len1 len2 fuel1 fuel2 HS Hmk HD HP Ho Hit (small_tail _ _ Hl) A1 A2)
    as (i1 & i2 & -> & ->). f_equal. rewrite !run_bind. destruct (u_run reg mk_temp st m (KSkip :: i1) u_start) as [u|e]; [|reflexivity].
  cbn [bind]. cbn [u_run u_step bind]. destruct (i2 ++ [KSkip]) as [|it its] eqn:E; [now destruct i2|]. apply run_finish.
Qed.
Print Assumptions C118_backslash_refuted.

(** a file without content: the result is the one without it, temporary files aside *)
Theorem C118_empty_file_refuted :
  forall reg name2cp mk_temp st m D ps1 p ps2 f s1 s2 csize1 csize2 len1 len2 fuel1 fuel2,
  settings_ok reg st m -> can_create mk_temp -> delimiter D ->
  Forall (part_ok D) (ps1 ++ ps2) -> head_ok p -> ~ occurs D (render_part p) ->
  pt_file p = Some f -> ~ In 38%N f -> ~ In 92%N f -> pt_raw p = [] ->
  arrives s1 (render_form D (ps1 ++ p :: ps2)) csize1 len1 fuel1 ->
  arrives s2 (render_form D (ps1 ++ ps2)) csize2 len2 fuel2 ->
  fst (parse_src reg name2cp mk_temp st D fuel1 csize1 len1 default_handler s1) =
  fst (parse_src reg name2cp mk_temp st D fuel2 csize2 len2 default_handler s2).
Proof.
  intros reg name2cp mk_temp st m D ps1 p ps2 f s1 s2 csize1 csize2 len1 len2 fuel1 fuel2 HS Hmk HD HP HH Ho Hf Ha Hb Hr A1 A2.
  assert (Hit : exists i, item_of reg name2cp (render_part p) (KFile i [])).
  { destruct (part_class reg name2cp p HH) as (h & E1 & _ & E2). destruct (E2 f Hf Ha Hb) as (i & E3 & _).
    exists i. unfold item_of. rewrite E1, E3. exists []. split; [|reflexivity]. rewrite Hr. now destruct (pt_b64 p). }
  destruct Hit as [i Hit].
  assert (Hsm : small (render_part p) (KFile i [])) by discriminate.
  destruct (with_item reg name2cp mk_temp st m D ps1 p ps2 _ s1 s2 csize1 csize2 len1 len2 fuel1 fuel2 HS Hmk HD HP Ho Hit Hsm A1 A2)
    as (i1 & i2 & -> & ->). f_equal. rewrite !run_bind. destruct (u_run reg mk_temp st m (KSkip :: i1) u_start) as [u|e]; [|reflexivity].
  cbn [bind]. cbn [u_run u_step]. unfold u_file.
  assert (EM : forall b : bool, exists x, (if b then mk_temp (temp_suffix (fi_name i)) else Ok tt) = Ok x).
  { intros [|]; [apply Hmk|now exists tt]. }
  destruct (EM (Z.ltb m (Z.of_nat (u_total (u_finish u) + length (@nil N))))) as [x ->]. cbn [bind].
  destruct (i2 ++ [KSkip]) as [|it its] eqn:E; [now destruct i2|]. rewrite <- run_finish, <- (run_finish _ _ _ _ _ _ u). f_equal.
  unfold u_finish at 1. cbn. rewrite andb_false_r. cbn [length]. rewrite Nat.add_0_r.
  unfold u_finish. destruct (u_pend u) as [[n g]|] eqn:EU; [reflexivity|]. destruct u; cbn in *; now subst.
Qed.
Print Assumptions C118_empty_file_refuted.

(** ** Files without a field name *)
(** two files that differ at most in where they are kept *)
Definition same_file (f g : ufile) : Prop :=
  uf_name f = uf_name g /\ uf_content f = uf_content g /\ uf_size f = uf_size g /\ uf_ctype f = uf_ctype g /\
  uf_charset f = uf_charset g /\ uf_extra f = uf_extra g /\ uf_tenc f = uf_tenc g.
Definition same_files (a b : dict (list ufile)) : Prop :=
  Forall2 (fun x y => fst x = fst y /\ Forall2 same_file (snd x) (snd y)) a b.
Lemma same_files_get a b k : same_files a b ->
  Forall2 same_file (match dget k a with Some l => l | None => [] end) (match dget k b with Some l => l | None => [] end).
Proof.
  induction 1 as [|[x l] [y l'] a b [H1 H2] H IH]; [constructor|]. cbn [fst snd] in *. subst y. cbn [dget].
  now destruct (seqb k x).
Qed.
Lemma same_files_set a b k l l' : same_files a b -> Forall2 same_file l l' -> same_files (dset k l a) (dset k l' b).
Proof.
  intros H Hl. induction H as [|[x v] [y v'] a b [H1 H2] H IH]; cbn [dset]; [constructor; [now split|constructor]|].
  cbn [fst snd] in *. subst y. destruct (seqb k x); constructor; try now split. exact H. exact IH.
Qed.
Definition alike (u v : ust) : Prop :=
  u_post u = u_post v /\ same_files (u_files u) (u_files v) /\ u_bytes u = u_bytes v /\ u_keys u = u_keys v /\
  match u_pend u, u_pend v with
  | Some (n, f), Some (n', g) => n = n' /\ same_file f g
  | None, None => True
  | _, _ => False
  end.
Definition alike_res (a b : res ust) : Prop :=
  match a, b with Ok u, Ok v => alike u v | Err e, Err e' => e = e' | _, _ => False end.
Lemma alike_finish u v : alike u v -> alike (u_finish u) (u_finish v).
Proof.
  intros (H1 & H2 & H3 & H4 & H5). unfold u_finish. destruct (u_pend u) as [[n f]|] eqn:EU, (u_pend v) as [[n' g]|] eqn:EV; try easy.
  - destruct H5 as [<- H5]. unfold alike. cbn. split; [easy|]. split; [|easy].
    assert (Hz : uf_size f = uf_size g) by apply H5. rewrite Hz. destruct (nonempty n && _); [|easy].
    unfold files_append. apply same_files_set; [easy|]. apply Forall2_app; [now apply same_files_get|]. now constructor.
  - unfold alike. now rewrite EU, EV.
Qed.
Lemma alike_run reg mk_temp st m : can_create mk_temp -> forall its u v, alike u v ->
  alike_res (u_run reg mk_temp st m its u) (u_run reg mk_temp st m its v).
Proof.
  intros Hmk. assert (HS : forall it u v, alike u v -> alike_res (u_step reg mk_temp st m it u) (u_step reg mk_temp st m it v)).
  { intros it u v H. apply alike_finish in H. unfold u_step. set (u1 := u_finish u) in *. set (v1 := u_finish v) in *. clearbody u1 v1.
    destruct H as (H1 & H2 & H3 & H4 & H5). destruct it as [e| |name tenc h payload|i w].
    - reflexivity.
    - unfold alike_res, alike. easy.
    - unfold u_field. rewrite H1, H3, H4. destruct (match ms_dnum st with Some _ => _ | None => _ end); [reflexivity|].
      destruct (match ms_dmem st with Some n => _ | None => _ end) as [raw|e]; [|reflexivity]. cbn [bind].
      destruct (if is_b64enc tenc then b64decode raw else Ok raw) as [data|e]; [|reflexivity]. cbn [bind].
      destruct (match ms_dmem st with Some _ => _ | None => _ end); [reflexivity|].
      destruct (post_append _ _ _ _ _) as [post|e]; [|reflexivity]. cbn [bind alike_res]. unfold alike. now cbn.
    - unfold u_file. assert (EM : forall b : bool, exists x, (if b then mk_temp (temp_suffix (fi_name i)) else Ok tt) = Ok x).
      { intros [|]; [apply Hmk|now exists tt]. }
      destruct (EM (Z.ltb m (Z.of_nat (u_total u1 + length w)))) as [x ->].
      destruct (EM (Z.ltb m (Z.of_nat (u_total v1 + length w)))) as [y ->]. cbn [bind alike_res]. unfold alike. cbn.
      repeat (split; [easy|]). easy. }
  induction its as [|it its IH]; intros u v H; [exact H|]. cbn [u_run]. specialize (HS it u v H).
  destruct (u_step _ _ _ _ it u) as [u'|e], (u_step _ _ _ _ it v) as [v'|e']; cbn [alike_res bind] in *; try easy. now apply IH.
Qed.
Lemma alike_refl u : alike u u.
Proof.
  unfold alike. repeat (split; [easy|]). split.
  - unfold same_files. induction (u_files u) as [|x l IH]; [constructor|]. constructor; [|exact IH]. split; [easy|].
    induction (snd x); constructor; [|easy]. unfold same_file. easy.
  - split; [easy|]. split; [easy|]. destruct (u_pend u) as [[n f]|]; [|easy]. split; [easy|]. unfold same_file. easy.
Qed.

(** a file whose field has no name, as a browser sends for an input element without a name: POST and
    FILES are as without it; other files may be kept on disk instead of in memory because of it *)
Theorem C118_nameless_file_refuted :
  forall reg name2cp mk_temp st m D ps1 p ps2 f s1 s2 csize1 csize2 len1 len2 fuel1 fuel2 post files,
  settings_ok reg st m -> can_create mk_temp -> delimiter D ->
  Forall (part_ok D) (ps1 ++ ps2) -> head_ok p -> ~ occurs D (render_part p) ->
  pt_name p = [] -> pt_file p = Some f -> ~ In 38%N f -> ~ In 92%N f -> pt_b64 p = false ->
  arrives s1 (render_form D (ps1 ++ p :: ps2)) csize1 len1 fuel1 ->
  arrives s2 (render_form D (ps1 ++ ps2)) csize2 len2 fuel2 ->
  fst (parse_src reg name2cp mk_temp st D fuel2 csize2 len2 default_handler s2) = Ok (post, files) ->
  exists files', fst (parse_src reg name2cp mk_temp st D fuel1 csize1 len1 default_handler s1) = Ok (post, files') /\
    same_files files' files.
Proof.
  intros reg name2cp mk_temp st m D ps1 p ps2 f s1 s2 csize1 csize2 len1 len2 fuel1 fuel2 post files HS Hmk HD HP HH Ho Hn Hf Ha Hb Hb64 A1 A2.
  assert (Hit : exists i, item_of reg name2cp (render_part p) (KFile i (pt_raw p)) /\ fi_field i = []).
  { destruct (part_class reg name2cp p HH) as (h & E1 & _ & E2). destruct (E2 f Hf Ha Hb) as (i & E3 & E4 & _).
    exists i. split; [|congruence]. unfold item_of. rewrite E1, E3, Hb64. now exists (pt_raw p). }
  destruct Hit as (i & Hit & Hfi).
  assert (Hsm : small (render_part p) (KFile i (pt_raw p))) by discriminate.
  destruct (with_item reg name2cp mk_temp st m D ps1 p ps2 _ s1 s2 csize1 csize2 len1 len2 fuel1 fuel2 HS Hmk HD HP Ho Hit Hsm A1 A2)
    as (i1 & i2 & -> & ->). rewrite !run_bind. destruct (u_run reg mk_temp st m (KSkip :: i1) u_start) as [u|e]; [|discriminate].
  cbn [bind]. remember (i2 ++ [KSkip]) as its0. cbn [u_run u_step]. unfold u_file.
  assert (EM : forall b : bool, exists x, (if b then mk_temp (temp_suffix (fi_name i)) else Ok tt) = Ok x).
  { intros [|]; [apply Hmk|now exists tt]. }
  destruct (EM (Z.ltb m (Z.of_nat (u_total (u_finish u) + length (pt_raw p))))) as [x ->]. cbn [bind].
  destruct its0 as [|it its]; [now destruct i2|]. rewrite <- (run_finish _ _ _ _ _ _ u), <- (run_finish _ _ _ _ _ _ (mkU _ _ _ _ _ _)).
  match goal with |- context [u_finish (mkU ?a ?b ?c ?d ?e ?g)] =>
    assert (HA : alike (u_finish (mkU a b c d e g)) (u_finish u)) end.
  { unfold u_finish at 1. cbn. rewrite Hfi. cbn [nonempty andb].
    assert (HE : u_pend (u_finish u) = None) by (unfold u_finish; destruct (u_pend u) as [[n g]|] eqn:EU; [reflexivity|exact EU]).
    destruct (alike_refl (u_finish u)) as (Q1 & Q2 & Q3 & Q4 & _). unfold alike. cbn. now rewrite HE. }
  pose proof (alike_run reg mk_temp st m Hmk (it :: its) _ _ HA) as HR. clear HA.
  destruct (u_run reg mk_temp st m (it :: its) (u_finish u)) as [u2|e]; cbn [bind]; [|discriminate]. intros [= <- <-].
  destruct (u_run reg mk_temp st m (it :: its) _) as [u1|e]; cbn [alike_res] in HR; [|easy]. cbn [bind].
  exists (u_files u1). destruct HR as (-> & H2 & _). split; [reflexivity|exact H2].
Qed.
Print Assumptions C118_nameless_file_refuted.

(** the cases meet the hypotheses *)
Definition ex_back : part := mkPart !"f" (Some (!"C:" ++ [92%N])) None false (repeat 122%N 1500) (repeat 122%N 1500).
Definition ex_noname : part := mkPart [] (Some !"x.txt") None false !"data" !"data".
Definition ex_nothing : part := mkPart !"f" (Some !"x.txt") None false [] [].
Example C118_case :
  Forall head_ok [ex_back; ex_noname; ex_nothing] /\
  Forall (fun p => ~ occurs !"--X" (render_part p)) [ex_back; ex_noname; ex_nothing] /\
  ignorable (skipn 1024 (render_part ex_back)) /\ ~ In 38%N !"C:" /\
  Forall (part_ok !"--X") [ex_field] /\
  summary (ex_parse ex_ms (render_form !"--X" [ex_back; ex_field; ex_noname; ex_nothing])) =
    Ok ([(!"a b", [pt_data ex_field])], []).
Proof.
  split; [repeat constructor; quot|]. split; [repeat constructor; apply find_None; vm_compute; reflexivity|].
  split; [split; [apply find_None; vm_compute; reflexivity|apply findc_None; vm_compute; reflexivity]|]. split; [intros H; cbn in H; repeat destruct H as [H|H]; easy|].
  split; [pose proof ex_parts_ok as H; inversion H; now constructor|]. vm_compute. reflexivity.
Qed.
(** a header block longer than 1024 bytes: the part is not seen either *)
Theorem C118_long_head_refuted :
  exists p, quotable (pt_name p) /\ pt_file p = None /\ pt_data p = !"v" /\ ~ occurs !"--X" (render_part p) /\
    ex_parse ex_ms (render_form !"--X" [p]) = Ok ([], []).
Proof.
  exists (mkPart !"a" None (Some (!"text/plain", [(!"x", Quo (repeat 122%N 1000))])) false !"v" !"v").
  split; [quot|]. split; [reflexivity|]. split; [reflexivity|]. split; [now apply find_None|]. vm_compute. reflexivity.
Qed.
Print Assumptions C118_long_head_refuted.
(** and so for every part with such a header, in every form: the result is the one without it *)
Definition long_head (p : part) : Prop :=
  quotable (pt_name p) /\ match pt_file p with Some f => quotable f | None => True end /\
  match pt_type p with Some t => type_ok t | None => True end /\ 1024 < length (part_head p) + 6.
Lemma long_lines p : long_head p -> no_newline (disp_line p) /\ disp_line p <> [] /\
  Forall (fun l => no_newline l /\ l <> []) (type_lines p ++ enc_lines p).
Proof.
  intros (Hn & Hf & Ht & _). destruct (disp_line_ok p Hn Hf) as [H1 H2]. split; [exact H1|]. split; [exact H2|].
  apply Forall_app. split.
  - unfold type_lines. destruct (pt_type p) as [[t ps]|]; [|constructor]. constructor; [|constructor]. now apply (type_line_ok (t, ps)).
  - unfold enc_lines. destruct (pt_b64 p); [|constructor]. constructor; [|constructor]. split; [now apply no_newline_check|discriminate].
Qed.
Lemma long_find p : long_head p -> find crlfcrlf (render_part p) = Some (length (part_head p) + 2).
Proof.
  intros HL. destruct (long_lines p HL) as (H1 & H2 & H3). unfold render_part, part_head.
  assert (HX : exists y X', join crlf (disp_line p :: type_lines p ++ enc_lines p) = y :: X' /\ y <> 13%N).
  { destruct (disp_line p) as [|y l']; [contradiction|]. exists y. destruct (type_lines p ++ enc_lines p); cbn; eexists; (split; [reflexivity|]);
      intros ->; apply (proj1 H1); now left. }
  destruct HX as (y & X' & HX & Hy). pose proof (find_lines (pt_raw p) _ _ H1 H2 H3) as HL'. rewrite HX in *. cbn [app] in *.
  match goal with |- find _ (crlf ++ y :: ?Z) = _ => pose proof (find_line [] y Z ltac:(split; easy) Hy) as HL2 end.
  cbn [app] in HL2. rewrite HL2, HL'. cbn [option_map length]. f_equal. lia.
Qed.
Theorem C118_long_head_all_refuted :
  forall reg name2cp mk_temp st m D ps1 p ps2 s1 s2 csize1 csize2 len1 len2 fuel1 fuel2,
  settings_ok reg st m -> can_create mk_temp -> delimiter D ->
  Forall (part_ok D) (ps1 ++ ps2) -> long_head p -> ~ occurs D (render_part p) -> ignorable (skipn 1024 (render_part p)) ->
  arrives s1 (render_form D (ps1 ++ p :: ps2)) csize1 len1 fuel1 ->
  arrives s2 (render_form D (ps1 ++ ps2)) csize2 len2 fuel2 ->
  fst (parse_src reg name2cp mk_temp st D fuel1 csize1 len1 default_handler s1) =
  fst (parse_src reg name2cp mk_temp st D fuel2 csize2 len2 default_handler s2).
Proof.
  intros reg name2cp mk_temp st m D ps1 p ps2 s1 s2 csize1 csize2 len1 len2 fuel1 fuel2 HS Hmk HD HP HH Ho Hl A1 A2.
  assert (Hit : item_of reg name2cp (render_part p) KSkip).
  { unfold item_of, classify. pose proof (long_find p HH) as HF.
    destruct (find crlfcrlf (firstn head_size (render_part p))) as [j|] eqn:Ej; [|reflexivity]. exfalso.
    pose proof (find_app_l _ _ (skipn head_size (render_part p)) _ Ej) as E2. rewrite firstn_skipn, HF in E2. injection E2 as <-.
    apply find_Some in Ej as [_ Ej]. rewrite firstn_length in Ej. destruct HH as (_ & _ & _ & HL). change (length crlfcrlf) with 4 in Ej. unfold head_size in Ej. lia. }
  destruct (with_item reg name2cp mk_temp st m D ps1 p ps2 KSkip s1 s2 csize1 csize2 len1 len2 fuel1 fuel2 HS Hmk HD HP Ho Hit (small_tail _ _ Hl) A1 A2)
    as (i1 & i2 & -> & ->). f_equal. rewrite !run_bind. destruct (u_run reg mk_temp st m (KSkip :: i1) u_start) as [u|e]; [|reflexivity].
  cbn [bind]. cbn [u_run u_step bind]. destruct (i2 ++ [KSkip]) as [|it its] eqn:E; [now destruct i2|]. apply run_finish.
Qed.
Print Assumptions C118_long_head_all_refuted.
Definition ex_long : part := mkPart !"a" None (Some (!"text/plain", [(!"x", Quo (repeat 122%N 1000))])) false !"v" !"v".
Example C118_long_case : long_head ex_long /\ ~ occurs !"--X" (render_part ex_long) /\ ignorable (skipn 1024 (render_part ex_long)).
Proof.
  split; [split; [quot|]; split; [exact I|]; split; [|apply Nat.ltb_lt; vm_compute; reflexivity]|
    split; [now apply find_None|split; [apply find_None; vm_compute; reflexivity|apply findc_None; vm_compute; reflexivity]]].
  cbn [pt_type ex_long]. split; [discriminate|]. split; [reflexivity|]. split.
  - constructor; [|constructor]. split; [reflexivity|]. split; [reflexivity|]. vm_compute. reflexivity.
  - now apply no_newline_check.
Qed.

(** parts that are kept: those of C22, each under its name *)
Lemma forall2_in {A B} (R : A -> B -> Prop) l l' y : Forall2 R l l' -> In y l' -> exists x, In x l /\ R x y.
Proof.
  induction 1 as [|a b l l' H HF IH]; [easy|]. intros [->|H']; [exists a; split; [now left|easy]|].
  destruct (IH H') as (x & H1 & H2). exists x. split; [now right|easy].
Qed.
Theorem C118_kept_partial :
  forall reg name2cp mk_temp st m D ps s csize len fuel,
  settings_ok reg st m -> can_create mk_temp -> delimiter D ->
  Forall (part_ok D) ps -> within st ps -> arrives s (render_form D ps) csize len fuel ->
  exists post files,
    fst (parse_src reg name2cp mk_temp st D fuel csize len default_handler s) = Ok (post, files) /\
    forall p, In p ps -> (exists e, In e (getl (pt_name p) post) /\ entry_for e p) \/
                         (exists f, In f (getl (pt_name p) files) /\ file_for f p).
Proof.
  intros reg name2cp mk_temp st m D ps s csize len fuel HS Hmk HD HP HW HA.
  destruct (C22_form_roundtrip_partial reg name2cp mk_temp st m D ps s csize len fuel HS Hmk HD HP HW HA) as (post & files & E & H1 & H2).
  exists post, files. split; [exact E|]. intros p Hp. destruct (pt_file p) as [f|] eqn:Ef.
  - right. apply (forall2_in file_for _ _ p (H2 (pt_name p))). unfold files_named. apply filter_In. split; [exact Hp|]. rewrite Ef. apply seqb_refl.
  - left. apply (forall2_in entry_for _ _ p (H1 (pt_name p))). unfold fields_named. apply filter_In. split; [exact Hp|]. rewrite Ef. apply seqb_refl.
Qed.
Print Assumptions C118_kept_partial.

(** ** C37, continued: a file name that ends in a slash leaves an upload without a name: that the
    name is not empty is checked before the path is taken off *)
Theorem C37_empty_name_refuted :
  forall reg name2cp mk_temp st m D p f s csize len fuel,
  settings_ok reg st m -> can_create mk_temp -> delimiter D ->
  head_ok p -> ~ occurs D (render_part p) -> pt_name p <> [] -> pt_file p = Some (f ++ [47%N]) -> ~ In 38%N f -> ~ In 92%N f ->
  pt_b64 p = false -> pt_raw p <> [] -> arrives s (render_form D [p]) csize len fuel ->
  exists u, fst (parse_src reg name2cp mk_temp st D fuel csize len default_handler s) = Ok ([], [(pt_name p, [u])]) /\
    uf_name u = [] /\ uf_content u = pt_raw p.
Proof.
  intros reg name2cp mk_temp st m D p f s csize len fuel HS Hmk HD HH Ho Hn Hf Ha Hb Hb64 Hr A1.
  assert (Hit : exists i, item_of reg name2cp (render_part p) (KFile i (pt_raw p)) /\ fi_field i = pt_name p /\ fi_name i = f ++ [47%N]).
  { destruct (part_class reg name2cp p HH) as (h & E1 & _ & E2). destruct (E2 _ Hf) as (i & E3 & E4).
    - intros H. apply in_app_or in H as [H|[H|[]]]; [easy|discriminate].
    - intros H. apply in_app_or in H as [H|[H|[]]]; [easy|discriminate].
    - exists i. split; [|exact E4]. unfold item_of. rewrite E1, E3, Hb64. now exists (pt_raw p). }
  destruct Hit as (i & Hit & Hfi & Hfn).
  assert (Hsm : small (render_part p) (KFile i (pt_raw p))) by discriminate.
  pose proof HD as [HD3 HN]. destruct (settings_qd reg st m HS) as [qd Hq]. destruct HS as (_ & Hst & Hm & _).
  destruct A1 as (A1 & A2 & A3 & A4 & A5).
  pose proof (form_splits_with D [] p [] HD (Forall_nil _) Ho) as S1. cbn [map app] in S1. rewrite <- A1 in S1, A5.
  pose proof (parse_src_det reg name2cp mk_temp st D (delim_dok D HD) s csize len m qd fuel _ [KSkip; KFile i (pt_raw p); KSkip] A3 A2 Hq A4 A5 Hst Hm
                (create_no_stop mk_temp Hmk) S1) as R1.
  assert (HT : item_of reg name2cp tail_piece KSkip /\ small tail_piece KSkip).
  { split; [reflexivity|]. apply small_short. unfold head_size. cbn. lia. }
  assert (HO : item_of reg name2cp [] KSkip /\ small [] KSkip).
  { split; [reflexivity|]. apply small_short. unfold head_size. cbn. lia. }
  specialize (R1 (Forall2_cons _ _ (proj1 HO) (Forall2_cons _ _ Hit (Forall2_cons _ _ (proj1 HT) (Forall2_nil _))))
                 (Forall2_cons _ _ (proj2 HO) (Forall2_cons _ _ Hsm (Forall2_cons _ _ (proj2 HT) (Forall2_nil _))))).
  cbn [u_run u_step bind u_finish u_start u_pend] in R1. unfold u_file in R1.
  assert (EM : forall b : bool, exists x, (if b then mk_temp (temp_suffix (fi_name i)) else Ok tt) = Ok x).
  { intros [|]; [apply Hmk|now exists tt]. }
  match type of R1 with context [if ?b then mk_temp _ else _] => destruct (EM b) as [x Ex]; rewrite Ex in R1 end.
  cbn [bind] in R1. unfold u_finish in R1. cbn [u_pend u_post u_files u_total u_bytes u_keys] in R1. rewrite Hfi in R1.
  unfold default_handler. rewrite R1. cbn [fst].
  destruct (pt_name p) as [|c n]; [easy|]. destruct (pt_raw p) as [|y w] eqn:Ew; [easy|].
  eexists. cbn [nonempty andb upload uf_size length Nat.eqb negb files_append dget dset app]. split; [reflexivity|].
  unfold upload. cbn [uf_name uf_content]. split; [|reflexivity]. rewrite Hfn. unfold set_name.
  assert (EB : basename (f ++ [47%N]) = []).
  { unfold basename. rewrite rfindc_app by easy. replace (S (length f)) with (length (f ++ [47%N])) by (rewrite app_length; cbn; lia).
    now rewrite skipn_all. }
  rewrite EB. reflexivity.
Qed.
Print Assumptions C37_empty_name_refuted.
Definition ex_slash : part := mkPart !"f" (Some !"dir/") None false !"data" !"data".
Example C37_empty_name_case : head_ok ex_slash /\ ~ occurs !"--X" (render_part ex_slash) /\ pt_file ex_slash = Some (!"dir" ++ [47%N]).
Proof. split; [quot|]. split; [now apply find_None|reflexivity]. Qed.

(** ** C23: a part before the first delimiter *)
(** the form without its first delimiter, so that the first part is what RFC 2046 calls the preamble *)
Definition headless_form (D : str) (ps : list part) : str :=
  concat (map (fun p => render_part p ++ crlf ++ D) ps) ++ !"--" ++ crlf.
Theorem C23_preamble_all_refuted :
  forall reg name2cp mk_temp st m D ps s1 s2 csize1 csize2 len1 len2 fuel1 fuel2,
  settings_ok reg st m -> can_create mk_temp -> delimiter D -> Forall (part_ok D) ps -> ps <> [] ->
  arrives s1 (headless_form D ps) csize1 len1 fuel1 ->
  arrives s2 (render_form D ps) csize2 len2 fuel2 ->
  fst (parse_src reg name2cp mk_temp st D fuel1 csize1 len1 default_handler s1) =
  fst (parse_src reg name2cp mk_temp st D fuel2 csize2 len2 default_handler s2).
Proof.
  intros reg name2cp mk_temp st m D ps s1 s2 csize1 csize2 len1 len2 fuel1 fuel2 HS Hmk HD HP Hne (A1 & A2 & A3 & A4 & A5) (B1 & B2 & B3 & B4 & B5).
  pose proof HD as [HD3 HN]. destruct (settings_qd reg st m HS) as [qd Hq]. destruct HS as (_ & Hst & Hm & _).
  assert (S2 : splits D (render_form D ps) ([] :: map render_part ps ++ [tail_piece])).
  { destruct ps as [|p ps]; [contradiction|]. inversion HP as [|? ? Hp HP2]; subst. cbn [map app].
    apply (form_splits_with D [] p ps HD HP2). apply Hp. }
  assert (S1 : splits D (headless_form D ps) (map render_part ps ++ [tail_piece])).
  { unfold headless_form. apply (cuts_splits D _ _ (!"--" ++ crlf)).
    - replace (map render_part ps) with (map piece_bytes (map APart ps)) by now rewrite map_map.
      replace (map (fun p => render_part p ++ crlf ++ D) ps) with (map (fun e => piece_bytes e ++ crlf ++ D) (map APart ps)) by now rewrite map_map.
      apply pieces_cuts; try easy. now apply parts_pieces.
    - apply tail_splits; [easy|]. apply (end_ok (fun _ => None) (fun _ => Ok tt) D HD3 HN). }
  destruct (form_items reg name2cp D ps HD HP) as (its & I1 & _ & I2).
  assert (HT : item_of reg name2cp tail_piece KSkip /\ small tail_piece KSkip).
  { split; [reflexivity|]. apply small_short. unfold head_size. cbn. lia. }
  assert (HO : item_of reg name2cp [] KSkip /\ small [] KSkip).
  { split; [reflexivity|]. apply small_short. unfold head_size. cbn. lia. }
  rewrite <- A1 in S1, A5. rewrite <- B1 in S2, B5. unfold default_handler.
  pose proof (parse_src_det reg name2cp mk_temp st D (delim_dok D HD) s1 csize1 len1 m qd fuel1 _ (its ++ [KSkip]) A3 A2 Hq A4 A5 Hst Hm
                (create_no_stop mk_temp Hmk) S1) as R1.
  pose proof (parse_src_det reg name2cp mk_temp st D (delim_dok D HD) s2 csize2 len2 m qd fuel2 _ (KSkip :: its ++ [KSkip]) B3 B2 Hq B4 B5 Hst Hm
                (create_no_stop mk_temp Hmk) S2) as R2.
  specialize (R1 (Forall2_app I1 (Forall2_cons _ _ (proj1 HT) (Forall2_nil _))) (Forall2_app I2 (Forall2_cons _ _ (proj2 HT) (Forall2_nil _)))).
  specialize (R2 (Forall2_cons _ _ (proj1 HO) (Forall2_app I1 (Forall2_cons _ _ (proj1 HT) (Forall2_nil _))))
                 (Forall2_cons _ _ (proj2 HO) (Forall2_app I2 (Forall2_cons _ _ (proj2 HT) (Forall2_nil _))))).
  assert (E : u_run reg mk_temp st m (KSkip :: its ++ [KSkip]) u_start = u_run reg mk_temp st m (its ++ [KSkip]) u_start).
  { cbn [u_run u_step bind]. destruct (its ++ [KSkip]) as [|it r] eqn:Ei; [now destruct its|]. apply run_finish. }
  rewrite E in R2. destruct (u_run reg mk_temp st m (its ++ [KSkip]) u_start); now rewrite R1, R2.
Qed.
Print Assumptions C23_preamble_all_refuted.
Example C23_preamble_case :
  Forall (part_ok !"--X") ex_parts /\ ex_parts <> [] /\
  summary (ex_parse ex_ms (headless_form !"--X" ex_parts)) = summary (ex_parse ex_ms (render_form !"--X" ex_parts)) /\
  exists x, summary (ex_parse ex_ms (headless_form !"--X" ex_parts)) = Ok x.
Proof. split; [exact ex_parts_ok|]. split; [discriminate|]. split; [vm_compute; reflexivity|]. eexists. vm_compute. reflexivity. Qed.
