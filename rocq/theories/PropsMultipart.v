(** * Claims about multipart bodies: C22-C33, C36, C43 *)
From Coq Require Import ZifyBool ZifyN ZifyNat Sorted.
From Verif Require Import Py PyFacts PyDict Spec StreamModel StreamSpec StreamFacts CodecModel CodecFacts QueryModel QuerySpec QueryFacts
  Base64Model HeaderModel HeaderSpec HeaderFacts BoundaryModel BoundarySpec BoundaryFacts PartFacts UploadModel UploadFacts
  MultipartModel MultipartSem MultipartFacts MultipartSpec MultipartDet FormSpec FormFacts MultipartInv BodySpec
  HeadLineFacts ItemFacts BodyFacts Base64Facts PartErrors MultipartRun LimitFacts PropsData PropsPart.

(** a body that arrives in any chunks and is read with any chunk size; the Content-Length is not 0
    (it is not used otherwise: C34); fuel enough for every run that ends *)
Definition arrives (s : src) (body : str) (csize : nat) (len : Z) (fuel : nat) : Prop :=
  src_bytes s = body /\ src_error s = None /\ 0 < csize /\ len <> 0%Z /\ 2 * length body + 4 <= fuel.
(** two hyphens and a boundary *)
Definition delimiter (D : str) : Prop := 3 <= length D /\ no_newline D.
(** a charset that extends ASCII, and limits that are not negative *)
Definition settings_ok (reg : registry) (st : mset) (m : Z) : Prop :=
  (exists c, reg (ms_charset st) = Some c /\ codec_ok c) /\ ms_fmem st = Some m /\ (0 <= m)%Z /\
  match ms_dnum st with Some n => (0 <= n)%Z | None => True end.
(** temporary files can be created *)
Definition can_create (mk_temp : str -> res unit) : Prop := forall s, exists x, mk_temp s = Ok x.
(** the default handler, ConvenientFileUploadHandler *)
Definition default_handler : list handler := [HConv new_conv].

Lemma create_no_stop mk_temp : can_create mk_temp -> forall x, mk_temp x <> Err StopFutureHandlers.
Proof. intros H x. now destruct (H x) as [y ->]. Qed.
Lemma delim_dok D : delimiter D -> Dok D.
Proof.
  intros [H1 [H2 H3]]. split; [|easy]. destruct D as [|x D]; [cbn in H1; lia|]. cbn.
  split; intros ->; [apply H2|apply H3]; now left.
Qed.
Lemma settings_qd reg st m : settings_ok reg st m -> exists qd, querydict reg (Some (ms_query st)) None true = Ok qd.
Proof. intros ((c & Hr & Hc) & _ & _ & Hn). apply (querydict_none reg st c Hr Hc true Hn). Qed.

(** ** C22: forms round-trip *)
Theorem C22_form_roundtrip_partial :
  forall reg name2cp mk_temp st m D ps s csize len fuel,
  settings_ok reg st m -> can_create mk_temp -> delimiter D ->
  Forall (part_ok D) ps -> within st ps -> arrives s (render_form D ps) csize len fuel ->
  exists post files,
    fst (parse_src reg name2cp mk_temp st D fuel csize len default_handler s) = Ok (post, files) /\
    (forall k, Forall2 entry_for (getl k post) (fields_named k ps)) /\
    (forall k, Forall2 file_for (getl k files) (files_named k ps)).
Proof.
  intros reg name2cp mk_temp st m D ps s csize len fuel ((c & Hr & Hc) & Hst & Hm & _) Hmk [HD HN] HP HW (Hs & He & Hcs & Hl & Hf).
  destruct (parse_form reg name2cp mk_temp st m c Hr Hc Hmk D ps s csize len fuel HD HN HP HW Hst Hm Hs He Hcs Hl) as (post & files & E & H).
  { unfold enough. now rewrite Hs. }
  exists post, files. unfold default_handler. now rewrite E.
Qed.
Print Assumptions C22_form_roundtrip_partial.

Lemma ex_settings : settings_ok ex_reg ex_ms 100.
Proof. split; [|split; [easy|split; [lia|cbn; lia]]]. exists (utf8 (fun s => s)). split; [reflexivity|]. apply utf8_ok. Qed.

(** an example: a field, a file and a base64 file of the same name *)
Definition ex_field : part := mkPart !"a b" None None false (!"v1" ++ crlf ++ !"--") (!"v1" ++ crlf ++ !"--").
Definition ex_file : part :=
  mkPart !"f" (Some !"x;1.txt") (Some (!"Text/plain", [(!"Charset", Tok !"utf-8")])) false [0%N; 255%N; 13%N; 10%N] [0%N; 255%N; 13%N; 10%N].
Definition ex_b64 : part := mkPart !"f" (Some !"y") None true (!"YW" ++ crlf ++ !" Jj") !"abc".
Definition ex_parts : list part := [ex_field; ex_file; ex_b64].
Ltac quot := repeat split; try reflexivity; try (now apply no_newline_check); try (cbn; lia); try discriminate;
  try (intros Hbad; cbn in Hbad; repeat destruct Hbad as [Hbad|Hbad]; easy).
Lemma ex_parts_ok : Forall (part_ok !"--X") ex_parts.
Proof.
  assert (HO : forall p, find !"--X" (render_part p) = None -> ~ occurs !"--X" (render_part p)) by (intros p; apply find_None).
  repeat constructor; try (now apply HO); quot.
Qed.
Definition in_bytes (body : str) : src := map (fun c => SData [c]) body.
Lemma in_bytes_arrives body csize len : 0 < csize -> len <> 0%Z -> arrives (in_bytes body) body csize len (2 * length body + 4).
Proof.
  intros Hc Hl. assert (H : src_bytes (in_bytes body) = body /\ src_error (in_bytes body) = None).
  { unfold in_bytes. induction body as [|c b [IH1 IH2]]; [easy|]. cbn in *. now rewrite IH1, IH2. }
  repeat split; [easy|easy|easy|easy|]. lia.
Qed.
Example C22_case : settings_ok ex_reg ex_ms 100 /\ can_create ok_temp /\ delimiter !"--X" /\ Forall (part_ok !"--X") ex_parts /\
  within ex_ms ex_parts /\ arrives (in_bytes (render_form !"--X" ex_parts)) (render_form !"--X" ex_parts) 7 9 (2 * length (render_form !"--X" ex_parts) + 4) /\
  map pt_data (files_named !"f" ex_parts) = [[0%N; 255%N; 13%N; 10%N]; !"abc"] /\
  map pt_data (fields_named !"a b" ex_parts) = [!"v1" ++ crlf ++ !"--"].
Proof.
  split; [apply ex_settings|]. split; [intros s; now exists tt|]. split; [split; [cbn; lia|now apply no_newline_check]|].
  split; [apply ex_parts_ok|]. split; [split; vm_compute; discriminate|]. split; [apply in_bytes_arrives; lia|]. split; reflexivity.
Qed.

(** what is missing: an empty file is lost, and a field name that is not ASCII makes the parse fail *)
Definition ex_parse (st : mset) (body : str) :=
  fst (parse_src ex_reg no_cp ok_temp st !"--X" (2 * length body + 4) 4096 1%Z default_handler [SData body]).
Theorem C22_empty_file_refuted :
  exists p, pt_file p = Some !"x" /\ pt_data p = [] /\ ex_parse ex_ms (render_form !"--X" [p]) = Ok ([], []).
Proof. exists (mkPart !"f" (Some !"x") None false [] []). split; [reflexivity|]. split; [reflexivity|]. vm_compute. reflexivity. Qed.
Print Assumptions C22_empty_file_refuted.
Theorem C22_nonascii_name_refuted :
  exists p, pt_name p = [195%N; 169%N] /\ ex_parse ex_ms (render_form !"--X" [p]) = Err UnicodeDecodeError.
Proof. exists (mkPart [195%N; 169%N] None None false !"v" !"v"). split; [reflexivity|]. vm_compute. reflexivity. Qed.
Print Assumptions C22_nonascii_name_refuted.

(** ** C23: what is not a part of the form leaves no trace *)
Theorem C23_no_trace_partial :
  forall reg name2cp mk_temp st m D pre es epi s1 s2 csize1 csize2 len1 len2 fuel1 fuel2,
  settings_ok reg st m -> can_create mk_temp -> delimiter D ->
  pre_ok D pre -> Forall (piece_ok D) es -> junk_ok D (!"--" ++ epi) ->
  arrives s1 (render_body D pre es epi) csize1 len1 fuel1 ->
  arrives s2 (render_form D (parts_of es)) csize2 len2 fuel2 ->
  fst (parse_src reg name2cp mk_temp st D fuel1 csize1 len1 default_handler s1) =
  fst (parse_src reg name2cp mk_temp st D fuel2 csize2 len2 default_handler s2).
Proof.
  intros reg name2cp mk_temp st m D pre es epi s1 s2 csize1 csize2 len1 len2 fuel1 fuel2 HS Hmk [HD HN] HP HF HE
    (A1 & A2 & A3 & A4 & A5) (B1 & B2 & B3 & B4 & B5). destruct (settings_qd reg st m HS) as [qd Hq]. destruct HS as (_ & Hst & Hm & _).
  apply (junk_no_trace reg name2cp mk_temp D HD HN st m s1 s2 csize1 csize2 len1 len2 fuel1 fuel2 qd pre es epi); try easy;
    try (now apply create_no_stop); unfold enough; now rewrite ?A1, ?B1.
Qed.
Print Assumptions C23_no_trace_partial.
Example C23_case : pre_ok !"--X" (Some !"hello") /\
  Forall (piece_ok !"--X") [AJunk (crlf ++ !"X-Other: 1" ++ crlfcrlf ++ repeat 122%N 1500); APart ex_b64] /\ junk_ok !"--X" (!"--" ++ !" bye") /\
  parts_of [AJunk (crlf ++ !"X-Other: 1" ++ crlfcrlf ++ repeat 122%N 1500); APart ex_b64] = [ex_b64].
Proof.
  assert (HJ : forall j, find !"--X" j = None -> find !"content-disposition" (lower j) = None -> findc 42%N j = None -> junk_ok !"--X" j).
  { intros j H1 H2 H3. split; [now apply find_None|]. split; [now apply find_None|]. now apply findc_None. }
  split; [now apply HJ|]. split.
  - constructor; [apply HJ; vm_compute; reflexivity|]. constructor; [|constructor].
    pose proof ex_parts_ok as H. inversion_clear H as [|? ? _ H']. inversion_clear H' as [|? ? _ H'']. now inversion_clear H''.
  - split; [now apply HJ|reflexivity].
Qed.
(** what is missing: text before the first delimiter that looks like a part is a part *)
Theorem C23_preamble_refuted :
  exists pre, match ex_parse ex_ms (pre ++ crlf ++ !"--X--") with
              | Ok (post, _) => map en_data (getl !"a" post) = [!"v"] | Err _ => False end.
Proof. exists (!"Content-Disposition: form-data; name=a" ++ crlfcrlf ++ !"v"). vm_compute. reflexivity. Qed.
Print Assumptions C23_preamble_refuted.
(** and the end of a skipped part of more than 1024 bytes can become a field *)
Theorem C23_leak_refuted :
  exists x y, x ++ y = crlf ++ repeat 122%N 1040 ++ crlf ++ !"Content-Disposition: form-data; name=a" ++ crlfcrlf ++ !"v" /\
    forall body, body = !"--X" ++ x ++ y ++ crlf ++ !"--X--" ->
    match fst (parse_src ex_reg no_cp ok_temp ex_ms !"--X" (2 * length body + 4) 4096 1%Z default_handler
                 [SData (!"--X" ++ x); SData (y ++ crlf ++ !"--X--")]) with
    | Ok (post, _) => map en_data (getl !"a" post) = [!"v"] | Err _ => False end.
Proof.
  exists (crlf ++ repeat 122%N 1040), (crlf ++ !"Content-Disposition: form-data; name=a" ++ crlfcrlf ++ !"v").
  split; [reflexivity|]. intros body ->. vm_compute. reflexivity.
Qed.
Print Assumptions C23_leak_refuted.

(** ** C24: the limit on the number of fields *)
(** for every body, way of reading it and list of handlers: the limit [n] rejects the body exactly when it has more than
    [n] fields, and otherwise makes no difference *)
Theorem C24_limit_exact :
  forall R (rd : nat -> R -> res str * R) exh reg name2cp mk_temp st D fuel csize len hs r n c,
  reg (ms_charset st) = Some c -> codec_ok c -> (0 <= n)%Z ->
  let run lim := mp_parse rd exh reg name2cp mk_temp (with_dnum st lim) D fuel csize len hs r in
  (forall post files r', run None = (Ok (post, files), r') ->
     if Z.ltb n (Z.of_nat (entries post)) then fst (run (Some n)) = Err TooManyFieldsSent else run (Some n) = run None) /\
  (forall e r', run None = (Err e, r') -> run (Some n) = run None \/ fst (run (Some n)) = Err TooManyFieldsSent).
Proof.
  intros R rd exh reg name2cp mk_temp st D fuel csize len hs r n c Hr Hc Hn run.
  pose proof (count_limit rd exh reg name2cp mk_temp st D fuel c Hr Hc n csize len hs r Hn) as H. fold (run None) (run (Some n)) in H.
  split.
  - intros post files r' E. now rewrite E in *.
  - intros e r' E. now rewrite E in *.
Qed.
Print Assumptions C24_limit_exact.

(** for a form: the fields are the parts without a file name *)
Theorem C24_form_limit :
  forall reg name2cp mk_temp st m D pre es epi s csize len fuel n r,
  settings_ok reg (with_dnum st None) m -> can_create mk_temp -> delimiter D ->
  pre_ok D pre -> Forall (piece_ok D) es -> junk_ok D (!"--" ++ epi) ->
  arrives s (render_body D pre es epi) csize len fuel -> (0 <= n)%Z ->
  fst (parse_src reg name2cp mk_temp (with_dnum st None) D fuel csize len default_handler s) = Ok r ->
  fst (parse_src reg name2cp mk_temp (with_dnum st (Some n)) D fuel csize len default_handler s) =
    if Z.ltb n (Z.of_nat (field_count (parts_of es))) then Err TooManyFieldsSent else Ok r.
Proof.
  intros reg name2cp mk_temp st m D pre es epi s csize len fuel n r ((c & Hr & Hc) & Hst & Hm & _) Hmk [HD HN] HP HF HE
    (A1 & A2 & A3 & A4 & A5) Hn HR.
  apply (field_limit reg name2cp mk_temp D HD HN st m s csize len fuel pre es epi n r c); try easy; try (now apply create_no_stop).
  unfold enough. now rewrite A1.
Qed.
Print Assumptions C24_form_limit.

(** for every body and handlers: never more than [n] fields *)
Theorem C24_bounded :
  forall reg name2cp mk_temp st D s csize len fuel hs qd body post files n,
  delimiter D -> arrives s body csize len fuel -> querydict reg (Some (ms_query st)) None true = Ok qd ->
  ms_dnum st = Some n -> fst (parse_src reg name2cp mk_temp st D fuel csize len hs s) = Ok (post, files) ->
  (Z.of_nat (entries post) <= Z.max 0 n)%Z.
Proof.
  intros reg name2cp mk_temp st D s csize len fuel hs qd body post files n HD (A1 & A2 & A3 & A4 & A5) Hq Hn HR.
  destruct (parse_src_sem reg name2cp mk_temp st D (delim_dok D HD) s csize len hs qd fuel A3 A2 Hq A4) as (o & HP & HO).
  { unfold enough. now rewrite A1. }
  destruct o as [p|e]; [|congruence]. rewrite HO in HR. cbn [fst] in HR. injection HR as <- <-.
  destruct (parses_inv reg name2cp mk_temp st D (countI st) (step_countI reg name2cp mk_temp st) _ _ _ HP) with (p' := p)
    as (H1 & _ & _ & _ & H5 & _); [|easy|].
  { unfold countI, start_state. cbn. destruct (ms_dnum st), (ms_dmem st); lia. }
  rewrite Hn in H5. lia.
Qed.
Print Assumptions C24_bounded.

Definition ex_st (dmem dnum : option Z) : mset := mkMS !"utf-8" (Some 100%Z) dmem dnum.
Definition summary (o : res (dict (list entry) * dict (list ufile))) : res (list (str * list str) * list (str * list str)) :=
  match o with
  | Ok (post, files) => Ok (map (fun e => (fst e, map en_data (snd e))) post, map (fun e => (fst e, map uf_content (snd e))) files)
  | Err e => Err e
  end.
Definition two_fields : list part :=
  [mkPart !"a" None None false !"1" !"1"; mkPart !"f" (Some !"x") None false !"d" !"d"; mkPart !"a" None None false !"2" !"2"].
Example C24_case : field_count two_fields = 2 /\
  summary (ex_parse (ex_st None None) (render_form !"--X" two_fields)) = Ok ([(!"a", [!"1"; !"2"])], [(!"f", [!"d"])]) /\
  summary (ex_parse (ex_st None (Some 2%Z)) (render_form !"--X" two_fields)) = Ok ([(!"a", [!"1"; !"2"])], [(!"f", [!"d"])]) /\
  summary (ex_parse (ex_st None (Some 1%Z)) (render_form !"--X" two_fields)) = Err TooManyFieldsSent.
Proof. vm_compute. repeat split. Qed.

(** ** C25: the limit on the memory for fields *)
Theorem C25_memory_limit_partial :
  forall reg name2cp mk_temp st m D pre es epi s csize len fuel n r,
  settings_ok reg (with_dmem st None) m -> can_create mk_temp -> delimiter D ->
  pre_ok D pre -> Forall (piece_ok D) es -> junk_ok D (!"--" ++ epi) ->
  arrives s (render_body D pre es epi) csize len fuel -> (0 <= n)%Z ->
  fst (parse_src reg name2cp mk_temp (with_dmem st None) D fuel csize len default_handler s) = Ok r ->
  fst (parse_src reg name2cp mk_temp (with_dmem st (Some n)) D fuel csize len default_handler s) =
    if Z.ltb n (Z.of_nat (field_bytes (parts_of es))) then Err RequestDataTooBig else Ok r.
Proof.
  intros reg name2cp mk_temp st m D pre es epi s csize len fuel n r ((c & Hr & Hc) & Hst & Hm & Hk) Hmk [HD HN] HP HF HE
    (A1 & A2 & A3 & A4 & A5) Hn HR.
  apply (memory_limit reg name2cp mk_temp D HD HN st m s csize len fuel pre es epi n r c); try easy; try (now apply create_no_stop).
  unfold enough. now rewrite A1.
Qed.
Print Assumptions C25_memory_limit_partial.
(** for every body and handlers: never more than [n] bytes of field data *)
Theorem C25_bounded :
  forall reg name2cp mk_temp st D s csize len fuel hs qd body post files n,
  delimiter D -> arrives s body csize len fuel -> querydict reg (Some (ms_query st)) None true = Ok qd ->
  ms_dmem st = Some n -> fst (parse_src reg name2cp mk_temp st D fuel csize len hs s) = Ok (post, files) ->
  (Z.of_nat (data_bytes post) <= Z.max 0 n)%Z.
Proof.
  intros reg name2cp mk_temp st D s csize len fuel hs qd body post files n HD (A1 & A2 & A3 & A4 & A5) Hq Hn HR.
  destruct (parse_src_sem reg name2cp mk_temp st D (delim_dok D HD) s csize len hs qd fuel A3 A2 Hq A4) as (o & HP & HO).
  { unfold enough. now rewrite A1. }
  destruct o as [p|e]; [|congruence]. rewrite HO in HR. cbn [fst] in HR. injection HR as <- <-.
  destruct (parses_inv reg name2cp mk_temp st D (countI st) (step_countI reg name2cp mk_temp st) _ _ _ HP) with (p' := p)
    as (_ & H2 & _ & _ & _ & H6); [|easy|].
  { unfold countI, start_state. cbn. destruct (ms_dnum st), (ms_dmem st); lia. }
  rewrite Hn in H6. lia.
Qed.
Print Assumptions C25_bounded.
Example C25_case : field_bytes two_fields = 8 /\
  summary (ex_parse (ex_st (Some 8%Z) None) (render_form !"--X" two_fields)) = Ok ([(!"a", [!"1"; !"2"])], [(!"f", [!"d"])]) /\
  summary (ex_parse (ex_st (Some 7%Z) None) (render_form !"--X" two_fields)) = Err RequestDataTooBig.
Proof. vm_compute. repeat split. Qed.
(** what is missing: a base64 field that is cut by the limit is a TypeError instead *)
Theorem C25_base64_field_refuted :
  exists p, field_bytes [p] > 3 /\
    summary (ex_parse (ex_st None None) (render_form !"--X" [p])) = Ok ([(!"a", [!"abc"])], []) /\
    ex_parse (ex_st (Some 3%Z) None) (render_form !"--X" [p]) = Err TypeError.
Proof. exists (mkPart !"a" None None true !"YWJj" !"abc"). split; [cbn; lia|]. split; vm_compute; reflexivity. Qed.
Print Assumptions C25_base64_field_refuted.

(** ** C26: nothing limits the number of files *)
Theorem C26_files_unbounded_refuted :
  forall k, exists body, forall dmem dnum, (0 <= dmem)%Z -> (0 <= dnum)%Z ->
  forall s csize len fuel, arrives s body csize len fuel ->
  exists post files,
    fst (parse_src ex_reg no_cp ok_temp (ex_st (Some dmem) (Some dnum)) !"--X" fuel csize len default_handler s) = Ok (post, files) /\
    length (getl !"f" files) = k.
Proof.
  intros k. set (p := mkPart !"f" (Some !"x") None false !"d" !"d"). exists (render_form !"--X" (repeat p k)).
  intros dmem dnum H1 H2 s csize len fuel HA.
  assert (HB : filter is_field (repeat p k) = []) by (clear; induction k; [easy|]; cbn; easy).
  assert (HF : files_named !"f" (repeat p k) = repeat p k).
  { clear. induction k; [easy|]. cbn [repeat files_named filter]. change (pt_file p) with (Some !"x"). change (pt_name p) with !"f".
    rewrite seqb_refl. now f_equal. }
  destruct (C22_form_roundtrip_partial ex_reg no_cp ok_temp (ex_st (Some dmem) (Some dnum)) 100 !"--X" (repeat p k) s csize len fuel)
    as (post & files & E & _ & HG); try easy.
  - split; [|split; [easy|split; [lia|exact H2]]]. exists (utf8 (fun s => s)). split; [reflexivity|apply utf8_ok].
  - intros x. now exists tt.
  - split; [cbn; lia|now apply no_newline_check].
  - clear. induction k; [constructor|]. cbn [repeat]. constructor; [|easy].
    assert (HO : ~ occurs !"--X" (render_part p)) by now apply find_None. quot; try exact HO.
  - unfold within, field_count, field_bytes. rewrite HB. cbn. lia.
  - exists post, files. split; [easy|]. specialize (HG !"f"). apply forall2_length in HG. rewrite HG, HF. apply repeat_length.
Qed.
Print Assumptions C26_files_unbounded_refuted.
Example C26_case : summary (ex_parse (ex_st (Some 0%Z) (Some 0%Z)) (render_form !"--X" (repeat (mkPart !"f" (Some !"x") None false !"d" !"d") 3)))
  = Ok ([], [(!"f", [!"d"; !"d"; !"d"])]).
Proof. vm_compute. reflexivity. Qed.

(** ** C27: base64 files *)
Theorem C27_base64_file :
  forall reg name2cp mk_temp st m D a p b s csize len fuel,
  settings_ok reg st m -> can_create mk_temp -> delimiter D ->
  Forall (part_ok D) (a ++ p :: b) -> within st (a ++ p :: b) ->
  pt_file p <> None -> pt_b64 p = true ->
  arrives s (render_form D (a ++ p :: b)) csize len fuel ->
  exists post files f,
    fst (parse_src reg name2cp mk_temp st D fuel csize len default_handler s) = Ok (post, files) /\
    nth_error (getl (pt_name p) files) (length (files_named (pt_name p) a)) = Some f /\
    remove_ws (pt_raw p) = b64encode (uf_content f).
Proof.
  intros reg name2cp mk_temp st m D a p b s csize len fuel HS Hmk HD HF HW Hf Hb HA.
  destruct (C22_form_roundtrip_partial reg name2cp mk_temp st m D (a ++ p :: b) s csize len fuel HS Hmk HD HF HW HA)
    as (post & files & E & _ & HG).
  assert (Hp : part_ok D p) by (rewrite Forall_forall in HF; apply HF, in_or_app; right; now left).
  specialize (HG (pt_name p)). unfold files_named in HG. rewrite filter_app in HG. cbn [filter] in HG.
  destruct (pt_file p) as [fn|] eqn:EF; [|easy]. rewrite seqb_refl in HG.
  apply Forall2_app_inv_r in HG as (l1 & l2 & G1 & G2 & EG). inversion G2 as [|g q l2' ps' Hg _ E1 E2]. subst l2.
  exists post, files, g. split; [easy|]. split.
  - rewrite EG. unfold files_named. rewrite <- (forall2_length _ _ _ G1), nth_error_app2, Nat.sub_diag by lia. reflexivity.
  - destruct Hg as (-> & _). destruct Hp as (_ & Hp & _). rewrite EF, Hb in Hp. now destruct Hp as (_ & _ & _ & _ & Hp).
Qed.
Print Assumptions C27_base64_file.
Example C27_case : ex_parts = [ex_field; ex_file] ++ ex_b64 :: [] /\ pt_b64 ex_b64 = true /\ pt_file ex_b64 <> None /\
  remove_ws (pt_raw ex_b64) = b64encode !"abc" /\
  summary (ex_parse ex_ms (render_form !"--X" [ex_b64])) = Ok ([], [(!"f", [!"abc"])]).
Proof. repeat split; try discriminate. Qed.

(** ** C28: termination *)
(** the parser runs forever on a base64 file whose number of base64 characters is not a multiple of four *)
Theorem C28_endless_refuted :
  forall reg name2cp mk_temp st m D pre p f rest s csize len,
  settings_ok reg st m -> can_create mk_temp -> delimiter D -> pre_ok D pre ->
  ~ occurs D (render_part p) -> head_ok p -> pt_file p = Some f -> ~ In 38%N f -> ~ In 92%N f -> pt_b64 p = true ->
  forallb is_b64 (remove_ws (pt_raw p)) = true -> length (remove_ws (pt_raw p)) mod 4 <> 0 ->
  forall fuel, arrives s (upto D pre [] ++ render_part p ++ crlf ++ D ++ rest) csize len fuel ->
  fst (parse_src reg name2cp mk_temp st D fuel csize len default_handler s) = Err OutOfFuel.
Proof.
  intros reg name2cp mk_temp st m D pre p f rest s csize len HS Hmk [HD HN] HP HO HH Hf H1 H2 Hb HA HL fuel (A1 & A2 & A3 & A4 & A5).
  destruct (settings_qd reg st m HS) as [qd Hq]. destruct HS as (_ & Hst & Hm & _).
  apply (hang_part reg name2cp mk_temp st m D HD HN Hmk Hst Hm s csize len fuel qd pre p rest f); try easy. unfold enough. now rewrite A1.
Qed.
Print Assumptions C28_endless_refuted.
Example C28_case : let p := mkPart !"f" (Some !"x") None true !"YWJ" [] in
  head_ok p /\ ~ occurs !"--X" (render_part p) /\ pre_ok !"--X" None /\ forallb is_b64 (remove_ws (pt_raw p)) = true /\
  length (remove_ws (pt_raw p)) mod 4 <> 0.
Proof.
  cbv zeta. split; [|split; [now apply find_None|split; [easy|split; [reflexivity|easy]]]]. quot.
Qed.
(** otherwise it ends: a body that never says base64 cannot make it run forever *)
Theorem C28_terminates_partial :
  forall reg name2cp mk_temp st m D s body csize len hs fuel,
  settings_ok reg st m -> (forall x, mk_temp x <> Err OutOfFuel) -> delimiter D ->
  ~ occurs !"base64" (lower body) -> arrives s body csize len fuel ->
  fst (parse_src reg name2cp mk_temp st D fuel csize len hs s) <> Err OutOfFuel.
Proof.
  intros reg name2cp mk_temp st m D s body csize len hs fuel HS Hmk HD HB (A1 & A2 & A3 & A4 & A5) HR.
  destruct (settings_qd reg st m HS) as [qd Hq].
  destruct (parse_src_sem reg name2cp mk_temp st D (delim_dok D HD) s csize len hs qd fuel A3 A2 Hq A4) as (o & HP & HO).
  { unfold enough. now rewrite A1. }
  destruct o as [p|e]; [rewrite HO in HR; easy|]. assert (e = OutOfFuel) as -> by congruence.
  assert (HC : countI st (start_state st len hs)).
  { destruct HS as (_ & _ & _ & Hn). unfold countI, start_state. cbn. destruct (ms_dnum st), (ms_dmem st); lia. }
  destruct (parses_exn reg name2cp mk_temp st D _ _ _ HP HC OutOfFuel eq_refl) as [H|[H|(_ & t & H1 & H2)]].
  - destruct H as [H|[H _]]; [|easy]. cbn in H. repeat destruct H as [H|H]; easy.
  - destruct H as (x & H). now apply (Hmk x).
  - apply HB. apply b64_part_mentions in H2. rewrite A1 in H1. apply (occurs_trans _ (lower t)); [easy|]. now apply occurs_lower.
Qed.
Print Assumptions C28_terminates_partial.
Example C28_terminates_case : ~ occurs !"base64" (lower (render_form !"--X" two_fields)).
Proof. now apply find_None. Qed.

(** ** C29: bad base64 *)
(** a bad base64 field is a TypeError, not its raw data *)
Theorem C29_field_refuted :
  forall reg name2cp mk_temp st m D pre p rest s csize len fuel,
  settings_ok reg st m -> can_create mk_temp -> delimiter D -> pre_ok D pre ->
  ~ occurs D (render_part p) -> head_ok p -> pt_file p = None -> pt_b64 p = true -> (exists e, b64decode (pt_raw p) = Err e) ->
  match ms_dnum st with Some n => (1 <= n)%Z | None => True end ->
  match ms_dmem st with Some n => (Z.of_nat (length (pt_raw p)) <= n)%Z | None => True end ->
  arrives s (upto D pre [] ++ render_part p ++ crlf ++ D ++ rest) csize len fuel ->
  fst (parse_src reg name2cp mk_temp st D fuel csize len default_handler s) = Err TypeError.
Proof.
  intros reg name2cp mk_temp st m D pre p rest s csize len fuel HS Hmk [HD HN] HP HO HH Hf Hb HE Hn Hd (A1 & A2 & A3 & A4 & A5).
  destruct (settings_qd reg st m HS) as [qd Hq]. destruct HS as (_ & Hst & Hm & _).
  apply (bad_field reg name2cp mk_temp st m D HD HN Hmk Hst Hm s csize len fuel qd pre p rest); try easy. unfold enough. now rewrite A1.
Qed.
Print Assumptions C29_field_refuted.
(** a bad base64 file is a TypeError, not a MultiPartParserError *)
Theorem C29_file_refuted :
  forall reg name2cp mk_temp st m D pre p f rest s csize len fuel,
  settings_ok reg st m -> can_create mk_temp -> delimiter D -> pre_ok D pre ->
  ~ occurs D (render_part p) -> head_ok p -> pt_file p = Some f -> ~ In 38%N f -> ~ In 92%N f -> pt_b64 p = true ->
  length (remove_ws (pt_raw p)) = 4 -> (exists e, b64decode (remove_ws (pt_raw p)) = Err e) ->
  arrives s (upto D pre [] ++ render_part p ++ crlf ++ D ++ rest) csize len fuel ->
  fst (parse_src reg name2cp mk_temp st D fuel csize len default_handler s) = Err TypeError.
Proof.
  intros reg name2cp mk_temp st m D pre p f rest s csize len fuel HS Hmk [HD HN] HP HO HH Hf H1 H2 Hb HL HE (A1 & A2 & A3 & A4 & A5).
  destruct (settings_qd reg st m HS) as [qd Hq]. destruct HS as (_ & Hst & Hm & _).
  apply (bad_file reg name2cp mk_temp st m D HD HN Hmk Hst Hm s csize len fuel qd pre p rest f); try easy. unfold enough. now rewrite A1.
Qed.
Print Assumptions C29_file_refuted.
Example C29_case :
  let p := mkPart !"a" None None true !"YWJ" [] in let q := mkPart !"f" (Some !"x") None true !"Y W=J" [] in
  head_ok p /\ head_ok q /\ b64decode (pt_raw p) = Err TypeError /\ length (remove_ws (pt_raw q)) = 4 /\
  b64decode (remove_ws (pt_raw q)) = Err TypeError /\
  ex_parse ex_ms (render_form !"--X" [p]) = Err TypeError /\ ex_parse ex_ms (render_form !"--X" [q]) = Err TypeError.
Proof. cbv zeta. split; [quot|]. split; [quot|]. vm_compute. repeat split. Qed.

(** ** C30: truncated uploads *)
(** every file in FILES, of every body, is a part that a delimiter closes, with all of its content;
    the parts are distinct and in order *)
Theorem C30_files_complete :
  forall reg name2cp mk_temp st m D s body csize len fuel post files,
  settings_ok reg st m -> (forall x, mk_temp x <> Err StopFutureHandlers) -> delimiter D -> arrives s body csize len fuel ->
  fst (parse_src reg name2cp mk_temp st D fuel csize len default_handler s) = Ok (post, files) ->
  forall k, exists ps : list (nat * finfo * str),
    StronglySorted lt (map (fun p => fst (fst p)) ps) /\
    Forall2 (fun p f => let '(n, i, w) := p in complete_part reg name2cp D body n i w /\ fi_field i = k /\
                        uf_content f = w /\ uf_size f = length w) ps (getl k files).
Proof.
  intros reg name2cp mk_temp st m D s body csize len fuel post files HS Hmk HD (A1 & A2 & A3 & A4 & A5) HR k.
  destruct (settings_qd reg st m HS) as [qd Hq]. destruct HS as (_ & Hst & Hm & _).
  destruct (parse_src_sem reg name2cp mk_temp st D (delim_dok D HD) s csize len default_handler qd fuel A3 A2 Hq A4) as (o & HP & HO).
  { unfold enough. now rewrite A1. }
  destruct o as [p|e]; [|congruence]. rewrite HO in HR. cbn [fst] in HR. injection HR as <- <-. rewrite A1 in HP.
  assert (HD0 : D <> []) by (intros ->; destruct HD as [HD _]; cbn in HD; lia).
  destruct (all_files_complete reg name2cp mk_temp st m D HD0 Hst Hm Hmk body len p HP k) as (ps & P1 & P2).
  exists ps. split; [easy|]. eapply forall2_impl; [|exact P2]. intros [[n i] w] f (C1 & C2 & tot & C3 & ->). now split.
Qed.
Print Assumptions C30_files_complete.
(** a form cut anywhere after some of its parts: no more than the files before the cut *)
Theorem C30_truncated_form :
  forall reg name2cp mk_temp st m D pre es x s csize len fuel post files,
  settings_ok reg st m -> can_create mk_temp -> delimiter D ->
  pre_ok D pre -> Forall (piece_ok D) es -> ~ occurs D x ->
  arrives s (upto D pre es ++ x) csize len fuel ->
  fst (parse_src reg name2cp mk_temp st D fuel csize len default_handler s) = Ok (post, files) ->
  forall k, exists n, Forall2 file_for (getl k files) (firstn n (files_named k (parts_of es))) /\
                      (x <> [] -> n = length (files_named k (parts_of es))).
Proof.
  intros reg name2cp mk_temp st m D pre es x s csize len fuel post files HS Hmk [HD HN] HP HF HX (A1 & A2 & A3 & A4 & A5) HR k.
  destruct (settings_qd reg st m HS) as [qd Hq]. destruct HS as (_ & Hst & Hm & _).
  apply (truncated_files reg name2cp mk_temp D HD HN st m s csize len fuel qd pre es x post files); try easy;
    try (now apply create_no_stop). unfold enough. now rewrite A1.
Qed.
Print Assumptions C30_truncated_form.
Example C30_case :
  let cut := upto !"--X" None [APart ex_b64] ++ firstn 60 (render_part (mkPart !"f" (Some !"z") None false !"dddd" !"dddd")) in
  let cut2 := upto !"--X" None [APart ex_b64] ++ render_part (mkPart !"f" (Some !"z") None false !"dddd" !"dddd") in
  summary (ex_parse ex_ms cut) = Ok ([], [(!"f", [!"abc"])]) /\ summary (ex_parse ex_ms cut2) = Ok ([], [(!"f", [!"abc"])]).
Proof. vm_compute. split; reflexivity. Qed.

(** ** C31: every file appears *)
Theorem C31_files_appear_partial :
  forall reg name2cp mk_temp st m D pre es epi s csize len fuel post files,
  settings_ok reg st m -> can_create mk_temp -> delimiter D ->
  pre_ok D pre -> Forall (piece_ok D) es -> junk_ok D (!"--" ++ epi) ->
  arrives s (render_body D pre es epi) csize len fuel ->
  fst (parse_src reg name2cp mk_temp st D fuel csize len default_handler s) = Ok (post, files) ->
  forall k, Forall2 file_for (getl k files) (files_named k (parts_of es)).
Proof.
  intros reg name2cp mk_temp st m D pre es epi s csize len fuel post files HS Hmk [HD HN] HP HF HE (A1 & A2 & A3 & A4 & A5) HR.
  destruct (settings_qd reg st m HS) as [qd Hq]. destruct HS as (_ & Hst & Hm & _).
  apply (files_kept reg name2cp mk_temp D HD HN st m s csize len fuel qd pre es epi post files); try easy;
    try (now apply create_no_stop). unfold enough. now rewrite A1.
Qed.
Print Assumptions C31_files_appear_partial.
(** what is missing: no body and no handler ever gives an empty file *)
Theorem C31_empty_files_refuted :
  forall reg name2cp mk_temp st m D s body csize len hs fuel post files,
  settings_ok reg st m -> delimiter D -> arrives s body csize len fuel -> hs_infos hs = [] ->
  fst (parse_src reg name2cp mk_temp st D fuel csize len hs s) = Ok (post, files) ->
  forall k f, In f (getl k files) -> uf_size f <> 0.
Proof.
  intros reg name2cp mk_temp st m D s body csize len hs fuel post files HS [HD HN] (A1 & A2 & A3 & A4 & A5) Hh HR k f Hin.
  destruct (settings_qd reg st m HS) as [qd Hq]. destruct (delim_dok D (conj HD HN)) as [H1 _].
  destruct (parse_good_files reg name2cp mk_temp st D s csize len hs fuel qd post files HD) with (k := k) (f := f) as (i & _ & _ & H); try easy.
  - destruct D; [easy|]. cbn in H1. easy.
  - now rewrite A1.
Qed.
Print Assumptions C31_empty_files_refuted.
Example C31_case :
  summary (ex_parse ex_ms (render_form !"--X" [mkPart !"f" (Some !"x") None false [] []; ex_b64])) = Ok ([], [(!"f", [!"abc"])]).
Proof. vm_compute. reflexivity. Qed.

(** ** C32: the guard against stuck parsers *)
Theorem C32_guard_unreachable :
  forall reg name2cp mk_temp st m D s body csize len hs fuel,
  settings_ok reg st m -> (forall x, mk_temp x <> Err SuspiciousMultipartForm) -> delimiter D ->
  arrives s body csize len fuel ->
  fst (parse_src reg name2cp mk_temp st D fuel csize len hs s) <> Err SuspiciousMultipartForm.
Proof.
  intros reg name2cp mk_temp st m D s body csize len hs fuel HS Hmk HD (A1 & A2 & A3 & A4 & A5) HR.
  destruct (settings_qd reg st m HS) as [qd Hq].
  destruct (parse_src_sem reg name2cp mk_temp st D (delim_dok D HD) s csize len hs qd fuel A3 A2 Hq A4) as (o & HP & HO).
  { unfold enough. now rewrite A1. }
  destruct o as [p|e]; [rewrite HO in HR; easy|]. assert (e = SuspiciousMultipartForm) as -> by congruence.
  assert (HC : countI st (start_state st len hs)).
  { destruct HS as (_ & _ & _ & Hn). unfold countI, start_state. cbn. destruct (ms_dnum st), (ms_dmem st); lia. }
  destruct (parses_exn reg name2cp mk_temp st D _ _ _ HP HC _ eq_refl) as [H|[H|(H & _)]]; [| |easy].
  - destruct H as [H|[H _]]; [|easy]. cbn in H. repeat destruct H as [H|H]; easy.
  - destruct H as (x & H). now apply (Hmk x).
Qed.
Print Assumptions C32_guard_unreachable.
Example C32_case : let body := concat (repeat !"--X" 60) in
  arrives (in_bytes body) body 1 1 (2 * length body + 4) /\
  summary (fst (parse_src ex_reg no_cp ok_temp ex_ms !"--X" (2 * length body + 4) 1 1%Z default_handler (in_bytes body))) = Ok ([], []).
Proof. cbv zeta. split; [apply in_bytes_arrives; lia|]. vm_compute. reflexivity. Qed.

(** ** C33: the request is read to its end *)
Theorem C33_fully_consumed :
  forall reg name2cp mk_temp st m D s body csize len hs fuel r s',
  settings_ok reg st m -> delimiter D -> arrives s body csize len fuel ->
  parse_src reg name2cp mk_temp st D fuel csize len hs s = (Ok r, s') -> s' = [].
Proof.
  intros reg name2cp mk_temp st m D s body csize len hs fuel r s' HS HD (A1 & A2 & A3 & A4 & A5) HR.
  destruct (settings_qd reg st m HS) as [qd Hq].
  destruct (parse_src_sem reg name2cp mk_temp st D (delim_dok D HD) s csize len hs qd fuel A3 A2 Hq A4) as (o & HP & HO).
  { unfold enough. now rewrite A1. }
  destruct o as [p|e]; rewrite HR in HO; [now injection HO|easy].
Qed.
Print Assumptions C33_fully_consumed.
Example C33_case : let body := render_form !"--X" [ex_b64] ++ !"trailing" in
  exists r, parse_src ex_reg no_cp ok_temp ex_ms !"--X" (2 * length body + 4) 5 1%Z default_handler (in_bytes body) = (Ok r, []).
Proof. cbv zeta. vm_compute. eexists. reflexivity. Qed.

(** ** C36: where files are kept makes no other difference *)
Theorem C36_spill_transparent :
  forall reg name2cp mk_temp st m1 m2 D pre es epi s1 s2 csize1 csize2 len1 len2 fuel1 fuel2,
  settings_ok reg (with_fmem st (Some m1)) m1 -> settings_ok reg (with_fmem st (Some m2)) m2 -> can_create mk_temp -> delimiter D ->
  pre_ok D pre -> Forall (piece_ok D) es -> junk_ok D (!"--" ++ epi) ->
  arrives s1 (render_body D pre es epi) csize1 len1 fuel1 -> arrives s2 (render_body D pre es epi) csize2 len2 fuel2 ->
  match fst (parse_src reg name2cp mk_temp (with_fmem st (Some m1)) D fuel1 csize1 len1 default_handler s1),
        fst (parse_src reg name2cp mk_temp (with_fmem st (Some m2)) D fuel2 csize2 len2 default_handler s2) with
  | Ok (post1, files1), Ok (post2, files2) => post1 = post2 /\ forall k, Forall2 same_file (getl k files1) (getl k files2)
  | Err e1, Err e2 => e1 = e2
  | _, _ => False
  end.
Proof.
  intros reg name2cp mk_temp st m1 m2 D pre es epi s1 s2 csize1 csize2 len1 len2 fuel1 fuel2 HS HS2 Hmk [HD HN] HP HF HE
    (A1 & A2 & A3 & A4 & A5) (B1 & B2 & B3 & B4 & B5).
  assert (HS3 : settings_ok reg (with_fmem st (ms_fmem st)) m1 \/ True) by now right.
  destruct (settings_qd reg _ _ HS) as [qd Hq]. destruct HS as (_ & _ & Hm1 & _), HS2 as (_ & _ & Hm2 & _).
  apply (spill_transparent reg name2cp mk_temp D HD HN Hmk st m1 m2 s1 s2 csize1 csize2 len1 len2 fuel1 fuel2 qd pre es epi); try easy;
    unfold enough; now rewrite ?A1, ?B1.
Qed.
Print Assumptions C36_spill_transparent.
(** a file is in memory exactly when the bytes of all files up to its end are at most the limit *)
Theorem C36_in_memory :
  forall reg name2cp mk_temp st m D pre a p b epi s csize len fuel post files,
  settings_ok reg st m -> can_create mk_temp -> delimiter D ->
  pre_ok D pre -> Forall (piece_ok D) (a ++ APart p :: b) -> junk_ok D (!"--" ++ epi) -> pt_file p <> None ->
  arrives s (render_body D pre (a ++ APart p :: b) epi) csize len fuel ->
  fst (parse_src reg name2cp mk_temp st D fuel csize len default_handler s) = Ok (post, files) ->
  exists f, nth_error (getl (pt_name p) files) (length (files_named (pt_name p) (parts_of a))) = Some f /\ file_for f p /\
    uf_kind f = if Z.ltb m (Z.of_nat (file_bytes (parts_of a ++ [p]))) then Temporary (temp_suffix (uf_name f)) else InMemory (pt_name p).
Proof.
  intros reg name2cp mk_temp st m D pre a p b epi s csize len fuel post files HS Hmk [HD HN] HP HF HE Hp (A1 & A2 & A3 & A4 & A5) HR.
  destruct (settings_qd reg st m HS) as [qd Hq]. destruct HS as (_ & Hst & Hm & _).
  destruct (files_kept reg name2cp mk_temp D HD HN st m s csize len fuel qd pre (a ++ APart p :: b) epi post files) as [_ H]; try easy;
    try (now apply create_no_stop). { unfold enough. now rewrite A1. }
  destruct (H a p b eq_refl Hp) as (g & G1 & G2 & G3). now exists g.
Qed.
Print Assumptions C36_in_memory.
Example C36_case :
  let body := render_form !"--X" [ex_file; ex_b64] in
  let kinds m := match ex_parse (mkMS !"utf-8" (Some m) None None) body with Ok (_, files) => map uf_kind (getl !"f" files) | Err _ => [] end in
  kinds 7%Z = [InMemory !"f"; InMemory !"f"] /\ kinds 6%Z = [InMemory !"f"; Temporary !".upload"] /\
  kinds 3%Z = [Temporary !".upload.txt"; Temporary !".upload"].
Proof. vm_compute. repeat split. Qed.

(** ** C43: the limit for urlencoded and for multipart bodies *)
Theorem C43_limits_agree_partial :
  forall reg name2cp mk_temp st m D pre es epi s csize len fuel n r qs blank enc l,
  settings_ok reg (with_dnum st None) m -> can_create mk_temp -> delimiter D ->
  pre_ok D pre -> Forall (piece_ok D) es -> junk_ok D (!"--" ++ epi) ->
  arrives s (render_body D pre es epi) csize len fuel -> (1 <= n)%Z ->
  field_count (parts_of es) = S (separators qs) ->
  fst (parse_src reg name2cp mk_temp (with_dnum st None) D fuel csize len default_handler s) = Ok r ->
  limited_parse_qsl reg qs blank enc None = Ok l ->
  fst (parse_src reg name2cp mk_temp (with_dnum st (Some n)) D fuel csize len default_handler s) =
    (if Z.ltb n (Z.of_nat (field_count (parts_of es))) then Err TooManyFieldsSent else Ok r) /\
  limited_parse_qsl reg qs blank enc (Some n) =
    (if Z.ltb n (Z.of_nat (field_count (parts_of es))) then Err TooManyFieldsSent else Ok l).
Proof.
  intros reg name2cp mk_temp st m D pre es epi s csize len fuel n r qs blank enc l HS Hmk HD HP HF HE HA Hn HK HR HL.
  split; [apply (C24_form_limit reg name2cp mk_temp st m D pre es epi); try easy; lia|].
  destruct (C42_limit_exact reg qs blank enc n ltac:(lia)) as [H1 H2]. rewrite HK.
  destruct (Z.ltb_spec n (Z.of_nat (S (separators qs)))); [apply H1; lia|rewrite H2 by lia; exact HL].
Qed.
Print Assumptions C43_limits_agree_partial.
(** what is missing: 0 means no limit for one and no fields for the other *)
Theorem C43_zero_refuted :
  exists qs ps l, separators qs = 0 /\ field_count ps = 1 /\ limited_parse_qsl ex_reg qs true !"utf-8" (Some 0%Z) = Ok l /\
    ex_parse (ex_st None (Some 0%Z)) (render_form !"--X" ps) = Err TooManyFieldsSent.
Proof.
  exists !"a=1", [mkPart !"a" None None false !"1" !"1"], [(!"a", !"1")].
  split; [reflexivity|]. split; [reflexivity|]. split; vm_compute; reflexivity.
Qed.
Print Assumptions C43_zero_refuted.
Example C43_case : separators !"a=1&a=2" = 1 /\ field_count two_fields = 2 /\
  limited_parse_qsl ex_reg !"a=1&a=2" true !"utf-8" (Some 1%Z) = Err TooManyFieldsSent /\
  ex_parse (ex_st None (Some 1%Z)) (render_form !"--X" two_fields) = Err TooManyFieldsSent.
Proof. vm_compute. repeat split. Qed.
