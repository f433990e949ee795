(** * Theorems C98: failing reads *)
From Verif Require Import Py Spec HeadSpec PyFacts PyDict StreamModel StreamSpec StreamFacts StreamCalm CodecModel PercentModel
  QueryModel Base64Model HeadModel HeadFacts HeaderModel BoundaryModel PartFacts UploadModel MultipartModel MultipartDet RequestModel RequestSpec
  FormSpec HeaderRun BodyRun ParseRun TapeFacts CustomModel CustomGuard CustomLib CustomFail PropsPart PropsMultipart PropsRequest PropsBody.

Local Arguments querydict : simpl never.
Local Arguments decode : simpl never.
Local Arguments mp_parse : simpl never.

(** ** The multipart parser, with any handlers that do not ask for the connection to be reset *)
Theorem C98_handlers :
  forall reg name2cp st D fuel S F X (O : ops S F X) truthy len csize hs s e post files,
  never_resets O -> src_error s = Some e -> e <> InputStreamExhausted -> len <> 0%Z ->
  fst (fst (c_parse src_read it_exhaust reg name2cp st D fuel O truthy len csize hs s)) <> Good (Parsed post files).
Proof.
  intros reg name2cp st D fuel S F X O truthy len csize hs s e post files HO He Hne Hl E.
  pose proof (parse_keep src_read reg name2cp st D fuel O truthy broken broken_read it_exhaust broken_exhaust len csize hs s
                ltac:(now exists e) Hl) as H.
  rewrite E in H. destruct H as (hs1 & p' & _ & H & _). exact (nr_loop O truthy HO src_read reg name2cp st D fuel _ _ _ H).
Qed.
Print Assumptions C98_handlers.

Lemma lib_never_resets mk_temp max : never_resets (lib_ops mk_temp max).
Proof.
  repeat split; cbn.
  - intros i _ h. destruct (h_new_file mk_temp i h) as [[u|e] h1]; [easy|]. now destruct e.
  - intros d _ h. now destruct (h_receive mk_temp max d h) as [[u|e] h1].
  - intros n h. now destruct (h_complete n h).
  - easy.
Qed.
Lemma mp_fails {R} (rd : nat -> R -> res str * R) exh (J : R -> Prop) reg name2cp mk_temp st D fuel csize len hs r :
  (forall n r, J r -> rkeep J (rd n r)) -> (forall r, J r -> exists e, fst (exh r) = Err e) -> J r -> len <> 0%Z ->
  exists e, fst (mp_parse rd exh reg name2cp mk_temp st D fuel csize len hs r) = Err e.
Proof.
  intros H1 H2 H3 Hl. destruct (lib_parse rd exh reg name2cp mk_temp st D fuel csize len hs r) as [HP _].
  destruct (fst (mp_parse rd exh reg name2cp mk_temp st D fuel csize len hs r)) as [[post files]|e]; [|now exists e].
  pose proof (parse_keep rd reg name2cp st D fuel (lib_ops mk_temp (ms_fmem st)) file_truthy J H1 exh H2 len csize hs r H3 Hl) as H.
  rewrite HP in H. destruct H as (hs1 & p' & _ & H & _).
  destruct (nr_loop _ file_truthy (lib_never_resets mk_temp (ms_fmem st)) rd reg name2cp st D fuel _ _ _ H).
Qed.
Theorem C98_parser :
  forall reg name2cp mk_temp st D fuel csize len hs s e,
  src_error s = Some e -> e <> InputStreamExhausted -> len <> 0%Z ->
  exists e', fst (parse_src reg name2cp mk_temp st D fuel csize len hs s) = Err e'.
Proof.
  intros reg name2cp mk_temp st D fuel csize len hs s e He Hne Hl.
  apply (mp_fails src_read it_exhaust broken); [exact broken_read|exact broken_exhaust|now exists e|exact Hl].
Qed.
Print Assumptions C98_parser.
(** a complete form, and a failure after it; the form alone is parsed *)
Example C98_parser_case :
  src_error [SData (render_form !"--X" ex_parts); SFail IOError] = Some IOError /\
  fst (parse_src ex_reg no_cp ok_temp ex_ms !"--X" 600 4096 1%Z default_handler [SData (render_form !"--X" ex_parts); SFail IOError]) = Err IOError /\
  (exists x, fst (parse_src ex_reg no_cp ok_temp ex_ms !"--X" 600 4096 1%Z default_handler [SData (render_form !"--X" ex_parts)]) = Ok x).
Proof. split; [easy|]. split; [vm_compute; reflexivity|]. vm_compute. now eexists. Qed.
(** the exception: with StopUpload(connection_reset=True) the rest is not read *)
Example C98_reset_case :
  let x := c_parse src_read it_exhaust ex_reg no_cp ex_ms !"--X" 600
             (guard_ops ok_temp (ms_fmem ex_ms) (fun _ _ => Stop true)) file_truthy 1%Z 4096 [Guard; Lib (HConv new_conv)]
             [SData (render_form !"--X" [ex_field; ex_file]); SFail IOError] in
  match fst (fst x) with Good (Parsed [(k, _)] []) => k = !"a b" | _ => False end.
Proof. vm_compute. reflexivity. Qed.

(** ** The request object *)
(** a failure is ahead: some bytes [d], then the exception [e] *)
Definition ahead (s : l0) : Prop := exists d e t, pending s = map Byte d ++ Fail e :: t /\ e <> InputStreamExhausted.
Lemma flat_broken e t : e <> InputStreamExhausted -> forall p d, flat_map item_cells p = map Byte d ++ Fail e :: t -> broken p.
Proof.
  intros Hne. induction p as [|[x|x] p IH]; intros d H; cbn [flat_map item_cells] in H.
  - destruct d; discriminate H.
  - destruct (byte_split e t x d _ H) as (d' & -> & H2). destruct (IH d' H2) as (e1 & H3 & H4). now exists e1.
  - destruct d; [|discriminate H]. cbn in H. injection H as -> _. now exists e.
Qed.
Lemma ahead_broken s : ahead s -> prodI broken s.
Proof.
  intros (d & e & t & H & Hne). unfold pending in H. destruct (byte_split e t (ls_left s) d _ H) as (d' & -> & H2).
  destruct (ls_prod s) as [p|] eqn:Ep; [|destruct d'; discriminate H2]. exists p. split; [exact Ep|]. exact (flat_broken e t Hne p d' H2).
Qed.
Lemma rd_keep n s : prodI broken s -> rkeep (prodI broken) (l0_read n s).
Proof. exact (read_keep it_next broken (fun p H => proj1 (broken_next p H)) (4 + src_items s) n s). Qed.
Lemma rd_full n s : prodI broken s -> (0 < n)%Z -> match l0_read (Some n) s with (Ok [], _) => False | _ => True end.
Proof.
  intros H Hn. pose proof (broken_full (4 + src_items s) n [] s H ltac:(lia)) as HF. unfold l0_read, ls_read.
  destruct (ls_read_loop it_next (4 + src_items s) n [] s) as [[[|c d]|e] s1]; [|easy|easy]. unfold zlen in HF. cbn in HF. lia.
Qed.
Lemma join_fails : forall fuel out s, prodI broken s -> exists e, fst (ls_join it_next fuel out s) = Err e.
Proof.
  induction fuel as [|f IH]; intros out s H; [now eexists|]. cbn [ls_join].
  pose proof (next_keep it_next broken (fun p Hp => proj1 (broken_next p Hp)) s H) as HN.
  pose proof (broken_drain 1 s H) as (e & HD). cbn [ls_drain] in HD.
  destruct (ls_next it_next s) as [[c| |e1] s1]; [now apply IH|discriminate HD|now exists e1].
Qed.

(** what a failed parse leaves alone *)
Definition untouched (r r' : request) : Prop :=
  r_bp r' = r_bp r /\ r_post r' = r_post r /\ r_files r' = r_files r /\ r_body r' = r_body r.
Definition fails {A} (x : res A * world) (r : request) : Prop := (exists e, fst x = Err e) /\ untouched r (snd (snd x)).
Lemma BLOCK_pos : (0 < BLOCK)%Z.
Proof. reflexivity. Qed.
Lemma m_read_keep st r n : prodI broken (r_stream r) -> (0 < n)%Z ->
  match m_read (Some n) (st, r) with
  | (Ok d, w1) => d <> [] /\ exists s1, w1 = (st, set_stream s1 r) /\ prodI broken s1
  | (Err e, w1) => exists s1, w1 = (st, set_stream s1 r)
  end.
Proof.
  intros H Hn. unfold m_read, mstream. cbn [fst snd]. pose proof (rd_keep (Some n) _ H) as HK. pose proof (rd_full n _ H Hn) as HF.
  destruct (l0_read (Some n) (r_stream r)) as [[[|c d]|e] s1]; [easy| |].
  - split; [easy|]. exists s1. split; [reflexivity|exact HK].
  - destruct e; now exists s1.
Qed.
Lemma body_loop_keep max st : forall fuel r size chunk acc, prodI broken (r_stream r) -> chunk <> [] ->
  match body_loop fuel max size chunk acc (st, r) with
  | (Ok x, w1) => within_max (snd x) max = false /\ exists s1, w1 = (st, set_stream s1 r)
  | (Err e, w1) => exists s1, w1 = (st, set_stream s1 r)
  end.
Proof.
  assert (HS : forall r, exists s1, (st, r) = (st, set_stream s1 r)) by (intros r; exists (r_stream r); now destruct r).
  induction fuel as [|f IH]; intros r size chunk acc H Hc; cbn [body_loop]; [apply HS|].
  destruct chunk as [|c0 chunk]; [easy|]. cbn [nonempty]. destruct (within_max size max) eqn:EW; cbn [andb].
  - unfold mbind. pose proof (m_read_keep st r BLOCK H BLOCK_pos) as HM.
    destruct (m_read (Some BLOCK) (st, r)) as [[d|e] w1]; [|exact HM]. destruct HM as (Hd & s1 & -> & HK).
    specialize (IH (set_stream s1 r) (size + zlen d)%Z d (acc ++ c0 :: chunk) HK Hd).
    destruct (body_loop f max (size + zlen d)%Z d (acc ++ c0 :: chunk) (st, set_stream s1 r)) as [[x|e] w1]; [|exact IH].
    exact IH.
  - unfold mret. cbn [snd]. split; [exact EW|apply HS].
Qed.
Lemma read_body_fails st r : prodI broken (r_stream r) -> fails (read_body (st, r)) r.
Proof.
  intros H. unfold read_body. unfold mbind at 1, msett. unfold mbind at 1, mreq. cbn [fst snd]. unfold mbind at 1.
  pose proof (m_read_keep st r BLOCK H BLOCK_pos) as HM. destruct (m_read (Some BLOCK) (st, r)) as [[d|e] w1].
  2:{ destruct HM as (s1 & ->). split; [now exists e|]. now repeat split. }
  destruct HM as (Hd & s1 & -> & HK). unfold mbind at 1.
  pose proof (body_loop_keep (s_dmem st) st (2 + l0_total (r_stream r)) (set_stream s1 r) (zlen d) d [] HK Hd) as HL.
  destruct (body_loop (2 + l0_total (r_stream r)) (s_dmem st) (zlen d) d [] (st, set_stream s1 r)) as [[x|e] w1].
  - destruct HL as (HW & s2 & ->). rewrite HW. split; [now eexists|]. now repeat split.
  - destruct HL as (s2 & ->). split; [now exists e|]. now repeat split.
Qed.
Theorem C98_body :
  forall reg st r, r_hp r = true -> r_bp r = false -> r_body r = None -> ahead (r_stream r) -> fails (body reg (st, r)) r.
Proof.
  intros reg st r H1 H2 H3 H. rewrite body_reads; [|assumption|now left|assumption]. apply read_body_fails. now apply ahead_broken.
Qed.
Print Assumptions C98_body.

Lemma upload_keep reg name2cp mk_temp st r : prodI broken (r_stream r) ->
  let x := parse_file_upload reg name2cp mk_temp (st, r) in
  exists s1, snd x = (st, set_stream s1 r) /\ match fst x with Ok _ => prodI broken s1 | Err _ => True end.
Proof.
  intros H. cbv zeta. assert (HS : exists s1, (st, r) = (st, set_stream s1 r) /\ True) by (exists (r_stream r); now destruct r).
  set (x := parse_file_upload reg name2cp mk_temp (st, r)). pose proof (eq_refl x) as EX. unfold x at 2 in EX. unfold parse_file_upload in EX.
  unfold mbind at 1, mreq in EX. unfold mbind at 1, msett in EX. cbn [fst snd] in EX.
  destruct (r_meta r) as [m|]; [|rewrite EX; exact HS]. destruct (m_headers m) as [h|]; [|rewrite EX; exact HS]. unfold mbind at 1, mlift at 1 in EX.
  destruct (mp_init reg (header !"Content-Type" h) (header !"Content-Length" h)) as [[b len]|e]; [|rewrite EX; exact HS]. cbn [fst snd] in EX.
  unfold mbind, mstream in EX. cbn [fst snd] in EX. rewrite EX. clear EX x.
  match goal with |- context [mp_parse l0_rd l0_exh ?a ?b ?c ?d ?e ?f ?g ?h ?i ?j] => set (o := mp_parse l0_rd l0_exh a b c d e f g h i j); cut (exists s1, snd o = s1 /\ match fst o with Ok _ => prodI broken s1 | Err _ => True end) end.
  { intros (s1 & E1 & E2). destruct o as [[pf|e] s2]; cbn [fst snd] in E1; subst s2; exists s1; now split. }
  eexists. split; [reflexivity|]. destruct (Z.eqb_spec len 0) as [->|Hl].
  - subst o. unfold mp_parse. cbv [Z.eqb]. destruct (querydict reg (Some (ms_query (s_multi st))) None true); [exact H|exact I].
  - destruct (mp_fails l0_rd l0_exh (prodI broken) reg name2cp mk_temp (s_multi st) (!"--" ++ pchars b) (2 * l0_total (r_stream r) + 4)
                (mp_chunk (s_handlers st)) len (map new_handler (s_handlers st)) (r_stream r)) as (e & HE); [| |exact H|exact Hl|].
    + intros n s Hs. apply rd_keep. exact Hs.
    + intros s Hs. now apply broken_drain.
    + subst o. now rewrite HE.
Qed.
Lemma finish_fails reg name2cp mk_temp st r : r_hp r = true -> r_bp r = false -> r_body r = None -> prodI broken (r_stream r) ->
  fails (finish reg name2cp mk_temp (st, r)) r.
Proof.
  intros H1 H2 H3 H. unfold finish. unfold mbind at 1.
  assert (HP : match parse_post reg name2cp mk_temp (st, r) with
               | (Ok _, w1) => exists s1 h, w1 = (st, set_hasfiles h (set_stream s1 r)) /\ prodI broken s1
               | (Err _, w1) => untouched r (snd w1)
               end).
  { unfold parse_post. unfold mbind at 1, mreq. cbn [snd]. destruct (a_ctype (r_attrs r)) as [c|]; [|now repeat split].
    destruct (match c with Some c => seqb c CT_MULTI | None => false end).
    - destruct (upload_keep reg name2cp mk_temp st r H) as (s1 & E1 & E2).
      destruct (parse_file_upload reg name2cp mk_temp (st, r)) as [[pf|e] w1]; cbn [fst snd] in E1, E2; subst w1.
      + exists s1, true. now split.
      + assert (HU : forall e : exn, untouched r (snd (st, set_stream s1 r))) by now repeat split.
        destruct e; try exact (HU IOError). unfold mbind. rewrite empty_post_eq.
        destruct (querydict reg (Some (s_query st)) None false); now repeat split.
    - destruct (match c with Some c => seqb c CT_FORM | None => false end).
      + unfold mbind at 1. rewrite body_reads; [|assumption|now left|assumption]. destruct (read_body_fails st r H) as ((e & HE) & HU).
        destruct (read_body (st, r)) as [[b|e1] w1]; [discriminate HE|exact HU].
      + unfold mbind. rewrite empty_post_eq. destruct (querydict reg (Some (s_query st)) None false).
        * exists (r_stream r), true. split; [now destruct r|exact H].
        * now repeat split. }
  destruct (parse_post reg name2cp mk_temp (st, r)) as [[pf|e] w1]; [|split; [now exists e|exact HP]].
  destruct HP as (s1 & h & -> & HK). unfold mbind at 1.
  rewrite body_reads; [|exact H1|now left|exact H3].
  destruct (read_body_fails st (set_hasfiles h (set_stream s1 r)) HK) as ((e & HE) & HU).
  destruct (read_body (st, set_hasfiles h (set_stream s1 r))) as [[b|e1] w1]; [discriminate HE|]. split; [now exists e1|exact HU].
Qed.
Theorem C98_request :
  forall reg name2cp mk_temp st r, r_bp r = false -> r_body r = None -> ahead (r_stream r) ->
  fails (parse_request_body reg name2cp mk_temp (st, r)) r.
Proof.
  intros reg name2cp mk_temp st r H2 H3 H%ahead_broken. destruct (r_hp r) eqn:H1.
  - rewrite parse_body_eq by assumption. pose proof (rd_keep (Some 1%Z) _ H) as HK. pose proof (rd_full 1 _ H ltac:(lia)) as HF.
    destruct (l0_read (Some 1%Z) (r_stream r)) as [[[|c d]|e] s1]; [easy| |split; [now exists e|now repeat split]].
    pose proof (unget_keep broken (c :: d) s1 HK) as HU.
    destruct (ls_unget (c :: d) s1) as [[u|e] s2]; [|split; [now exists e|now repeat split]].
    exact (finish_fails reg name2cp mk_temp st (set_stream s2 (at_body st r)) H1 H2 H3 HU).
  - rewrite parse_body_early by assumption.
    destruct (querydict reg (Some (s_query st)) None false); (split; [now eexists|now repeat split]).
Qed.
Print Assumptions C98_request.

(** from the start: a request over a source that fails before its end is never parsed successfully *)
Lemma frame_keep max : forall fuel h b s, prodI broken s ->
  match frame_loop fuel max h b s with (Ok _, _, s1) => prodI broken s1 | _ => True end.
Proof.
  induction fuel as [|f IH]; intros h b s H; [easy|]. cbn [frame_loop]. pose proof (rd_keep max s H) as HK.
  destruct (l0_read max s) as [[[|c d]|e] s1]; [easy| |easy]. cbv zeta.
  destruct (find crlfcrlf (h ++ c :: d)); [exact HK|now apply IH].
Qed.
Lemma header_keep reg st r : r_hp r = false -> prodI broken (r_stream r) ->
  match parse_request_header reg (st, r) with
  | (Ok _, (_, r')) => prodI broken (r_stream r') /\ r_bp r' = r_bp r /\ (r_body r = None -> r_body r' = None)
  | _ => True
  end.
Proof.
  intros H1 H. rewrite header_eq by exact H1. unfold frame.
  pose proof (frame_keep (s_hdr st) (2 + l0_total (r_stream r)) [] false (r_stream r) H) as HF.
  destruct (frame_loop (2 + l0_total (r_stream r)) (s_hdr st) [] false (r_stream r)) as [[[[h rest]|e] b] s1]; [|easy].
  pose proof (unget_keep broken rest s1 HF) as HU. destruct (ls_unget rest s1) as [[u|e] s2]; [|easy]. cbv zeta.
  destruct (parse_request_headers (h ++ crlf)) as [[l0 d]|e]; [|easy].
  destruct (parse_request_line l0) as [l|e]; [|easy]. rewrite populate_eq.
  destruct (pick_host l d) as [[host hs]|e]; [|easy]. destruct (ctype_of reg hs) as [[c ch]|e]; [|easy]. cbv zeta.
  destruct (r_meta _) as [m|]; [|easy]. destruct (query_of reg (charset_after ch st) (rl_query l)) as [g|e]; [|easy].
  destruct ch; cbn; (split; [exact HU|]; now split).
Qed.
Theorem C98_parse :
  forall reg name2cp mk_temp st s r e, request_init reg st s = Ok r -> src_error s = Some e -> e <> InputStreamExhausted ->
  exists e', fst (parse reg name2cp mk_temp (st, r)) = Err e'.
Proof.
  intros reg name2cp mk_temp st s r e Hi He Hne. rewrite init_eq in Hi.
  destruct (querydict reg (Some (s_query st)) None true) as [q|x]; [|easy]. injection Hi as <-.
  unfold parse. unfold mbind. assert (HB : prodI broken (r_stream (fresh q s))) by (exists s; split; [reflexivity|now exists e]).
  pose proof (header_keep reg st (fresh q s) eq_refl HB) as HK.
  destruct (parse_request_header reg (st, fresh q s)) as [[u|x] [st1 r1]]; [|now exists x]. destruct HK as (H1 & H2 & H3).
  destruct (r_hp r1) eqn:H4.
  - assert (HA : exists d e1 t, pending (r_stream r1) = map Byte d ++ Fail e1 :: t /\ e1 <> InputStreamExhausted).
    { destruct H1 as (p & Hp & e1 & HE & Hn). unfold pending. rewrite Hp. exists (ls_left (r_stream r1) ++ src_bytes p), e1.
      clear - HE Hn. revert HE. induction p as [|[d|y] p IH]; intros HE; [easy| |].
      - destruct (IH HE) as (t & IH1 & _). cbn [flat_map item_cells src_bytes].
        rewrite map_app, <- app_assoc in IH1. apply app_inv_head in IH1. exists t. split; [|exact Hn]. now rewrite IH1, !map_app, <- !app_assoc.
      - cbn in HE. injection HE as ->. exists (flat_map item_cells p). split; [|exact Hn]. cbn. now rewrite app_nil_r. }
    exact (proj1 (C98_request reg name2cp mk_temp st1 r1 H2 (H3 eq_refl) HA)).
  - rewrite parse_body_early by assumption. destruct (querydict reg (Some (s_query st1)) None false); now eexists.
Qed.
Print Assumptions C98_parse.
Example C98_parse_case :
  let s := [SData (lines_text [!"POST / HTTP/1.1"; !"Host: a"; !"Content-Type: application/x-www-form-urlencoded"]); SData crlf; SData !"a=1&b"] in
  src_error (s ++ [SFail IOError]) = Some IOError /\ fst (run (parse ex_reg no_cp ok_temp) ex_set s) = Ok tt /\
  fst (run (parse ex_reg no_cp ok_temp) ex_set (s ++ [SFail IOError])) = Err TypeError /\
  r_bp (snd (snd (run (parse ex_reg no_cp ok_temp) ex_set (s ++ [SFail IOError])))) = false.
Proof. vm_compute. repeat split; reflexivity. Qed.
