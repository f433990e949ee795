(** * Claims about header parameters, parts, set-up and file names:
    C19-C21, C34, C35, C37-C39 *)
From Coq Require Import ZifyBool ZifyN ZifyNat.
From Verif Require Import Py PyFacts PyDict Spec StreamModel StreamSpec StreamFacts CodecModel CodecFacts QueryModel QueryFacts Base64Model HeaderModel
  HeaderSpec HeaderFacts BoundaryModel BoundarySpec BoundaryFacts PartFacts PartsSpec PartsFacts UploadModel UploadFacts
  MultipartModel MultipartSem MultipartFacts MultipartSpec MultipartDet FormSpec FormFacts MultipartInv BodySpec
  HeadLineFacts ItemFacts BodyFacts.

Definition ex_reg : registry := fun n => if seqb n !"ISO-8859-1" then Some latin1
                                       else if seqb n !"utf-8" then Some (utf8 (fun s => s)) else None.
Definition ok_temp : str -> res unit := fun _ => Ok tt.
Definition no_cp : str -> option N := fun _ => None.

(** ** C19: header parameters *)
(** the values that survive: tokens, and quoted strings in which every ';' and the end
    have an even number of double quotes before them *)
Theorem C19_header_roundtrip_partial :
  forall reg main ps, ascii_only main = true -> ~ In 59%N main -> ~ In 34%N main ->
  Forall (fun p => is_token (fst p) = true /\ endswith (fst p) !"*" = false /\
                   match snd p with Tok v => is_token v = true | Quo v => balanced false v = true end) ps ->
  exists d, parse_header reg (render main ps) = Ok (lower (strip main), d) /\
            forall n, dget n d = option_map PB (last_value n ps).
Proof.
  intros reg main ps H1 H2 H3 H4. apply parse_header_render.
  - unfold main_ok. apply mem_nIn in H2, H3. rewrite H1. change hsemi with 59%N. change hquote with 34%N. now rewrite H2, H3.
  - eapply Forall_impl; [|exact H4]. intros [n v] (A & B & C). unfold param_ok, pname_ok, pval_ok in *. cbn [fst snd] in *.
    change [hstar] with !"*". rewrite A, B. now destruct v.
Qed.
Print Assumptions C19_header_roundtrip_partial.

(** what is missing: a quoted value with a ';' after an odd number of quotes is cut *)
Theorem C19_quoted_semicolon_refuted :
  exists v, forall reg, exists d, parse_header reg (render !"form-data" [(!"name", Quo v)]) = Ok (!"form-data", d) /\
    dget !"name" d <> Some (PB v).
Proof.
  exists !"a"";b". intros reg. eexists. split; [vm_compute; reflexivity|]. vm_compute. discriminate.
Qed.
Print Assumptions C19_quoted_semicolon_refuted.

Example C19_case : exists d, parse_header ex_reg (render !" Form-Data " [(!"Name", Quo !"a\b; ""c"" d"); (!"x", Tok !"1"); (!"X", Tok !"2")])
    = Ok (!"form-data", d) /\ dget !"name" d = Some (PB !"a\b; ""c"" d") /\ dget !"x" d = Some (PB !"2").
Proof.
  destruct (C19_header_roundtrip_partial ex_reg !" Form-Data " [(!"Name", Quo !"a\b; ""c"" d"); (!"x", Tok !"1"); (!"X", Tok !"2")])
    as (d & E & H); [reflexivity|now cbn; intros H; repeat destruct H as [H|H]|now cbn; intros H; repeat destruct H as [H|H]|..].
  - repeat constructor.
  - exists d. split; [exact E|]. split; rewrite H; reflexivity.
Qed.

(** ** C20: cutting a line at its semicolons *)
Definition quotes_before (s : str) : nat := countc 34%N s.
Theorem C20_split_params :
  forall s, exists ps, parse_header_params (59%N :: s) = map strip ps /\ ps <> [] /\ join !";" ps = s /\
    forall a b, s = a ++ [59%N] ++ b ->
      (Nat.even (quotes_before a) = true <-> exists k, S k < length ps /\ join !";" (firstn (S k) ps) = a).
Proof.
  intros s. exists (qsplit false s). split; [apply parse_header_params_spec|]. split; [apply qsplit_nonnil|].
  split; [apply qsplit_join|]. intros a b E. destruct (qsplit_cut s false a b E) as [H1 H2].
  assert (HQ : Nat.even (quotes_before a) = negb (qodd a)).
  { unfold quotes_before, qodd. now rewrite Nat.negb_odd. }
  rewrite HQ, negb_true_iff. destruct (qodd a); cbn [xorb] in *; split; try easy.
  - intros (k & K1 & K2). now apply (H2 k).
  - intros H. destruct (H1 H) as (k & K1 & K2). now exists k.
Qed.
Print Assumptions C20_split_params.
(** a text that does not begin with a semicolon has no pieces at all *)
Theorem C20_no_semicolon_first :
  forall s, parse_header_params s = [] <-> hd_error s <> Some 59%N.
Proof.
  intros [|c s]; [split; [discriminate|reflexivity]|]. cbn [hd_error]. destruct (N.eq_dec c 59) as [->|Hc].
  - destruct (C20_split_params s) as (ps & -> & Hp & _). split; [|congruence]. intros H. now destruct ps.
  - split; [congruence|]. intros _. unfold parse_header_params. cbn [raw_pieces]. apply N.eqb_neq in Hc. unfold hsemi. now rewrite Hc.
Qed.
Print Assumptions C20_no_semicolon_first.
Example C20_case : parse_header_params !";a; b="";"" ;c" = [!"a"; !"b="";"""; !"c"].
Proof. vm_compute. reflexivity. Qed.
Example C20_no_semicolon_case : parse_header_params !"a; b=1; c=2" = [].
Proof. vm_compute. reflexivity. Qed.

(** ** C21: a part delivers exactly its bytes, whatever the chunking and however it is read *)
Theorem C21_parts_delimited :
  forall D s csize pats ts fuel, 3 <= length D -> match D with c :: _ => c <> 10%N /\ c <> 13%N | [] => False end ->
  0 < csize -> src_error s = None -> pieces D (src_bytes s) ts -> 2 * length (src_bytes s) + 4 <= fuel ->
  let got := read_parts (ci_next src_read) fuel D fuel pats (ls_init (mkCI s csize) None) in
  length got = length ts /\
  forall i t os, nth_error ts i = Some t -> nth_error got i = Some os -> delivers (pats i ++ [RdAll]) t os.
Proof.
  intros D s csize pats ts fuel HD HN Hc He Hp Hf got. unfold got. apply src_parts; try easy.
  split; [|easy]. destruct D as [|x D]; [easy|]. cbn. easy.
Qed.
Print Assumptions C21_parts_delimited.

(** a delimiter without line break before it, one with CRLF, an empty part, a part without end,
    and a mixed pattern of reads *)
Example C21_case :
  let body := !"ab--XX" ++ crlf ++ !"--XX--XXend" in
  pieces !"--XX" body [!"ab"; []; []; !"end"] /\
  read_parts (ci_next src_read) 100 !"--XX" 100 (fun _ => [RdN 1; RdNext]) (ls_init (mkCI [SData !"ab-"; SData (skipn 3 body)] 3) None)
    = [[RoBytes !"a"; RoBytes !"b"; RoBytes []]; [RoBytes []; RoStop; RoBytes []];
       [RoBytes []; RoStop; RoBytes []]; [RoBytes !"e"; RoBytes !"nd"; RoBytes []]].
Proof.
  cbv zeta. split; [|vm_compute; reflexivity].
  assert (F : forall u v, find !"--XX" (u ++ !"--XX" ++ v) = Some (length u) ->
                     first_occ !"--XX" (u ++ !"--XX" ++ v) u v).
  { intros u v (u1 & v1 & HF & HL)%find_first_occ. destruct HF as [E HM]. split; [easy|]. intros a b Hab. rewrite <- HL. now apply (HM a b). }
  apply (pc_cut _ _ !"ab" (crlf ++ !"--XX--XXend")); [easy|now apply (F !"ab")|].
  apply (pc_cut _ _ crlf !"--XXend"); [easy|now apply (F crlf)|].
  apply (pc_cut _ _ [] !"end"); [easy|now apply (F [])|].
  apply pc_last; [easy|]. apply find_None. reflexivity.
Qed.

(** ** C34: Content-Length *)
Section C34.
  Context (reg : registry) (name2cp : str -> option N) (mk_temp : str -> res unit) (st : mset).

  (** no length, a length that is not a number, or zero: nothing is read *)
  Theorem C34_no_length_reads_nothing :
    forall R (rd : nat -> R -> res str * R) exh D fuel csize hs r qd b len ctype clen,
    mp_init reg ctype clen = Ok (b, len) ->
    match clen with None => True | Some v => match py_int 10 v with Some z => z = 0%Z | None => True end end ->
    querydict reg (Some (ms_query st)) None true = Ok qd ->
    mp_parse rd exh reg name2cp mk_temp st D fuel csize len hs r = (Ok ([], []), r).
  Proof.
    intros R rd exh D fuel csize hs r qd b len ctype clen Hi Hc Hq.
    assert (Hl : len = 0%Z).
    { unfold mp_init in Hi. destruct (negb _); [easy|]. destruct (negb _); [easy|].
      destruct (parse_header reg _); cbn [bind] in Hi; [|easy].
      match type of Hi with (let* b := ?x in _) = _ => destruct x as [b1|e]; cbn [bind] in Hi; [|easy] end.
      match type of Hi with (if Z.ltb ?z 0 then _ else _) = _ => set (z0 := z) in *; destruct (Z.ltb z0 0); [easy|] end.
      injection Hi as <- <-. unfold z0. destruct clen as [v|]; [|easy]. now destruct (py_int 10 v). }
    unfold mp_parse. rewrite Hq, Hl. reflexivity.
  Qed.

  (** a negative length is rejected *)
  Theorem C34_negative_length_rejected :
    forall ctype v z, py_int 10 v = Some z -> (z < 0)%Z ->
    (exists b, mp_init reg ctype None = Ok b) -> mp_init reg ctype (Some v) = Err MultiPartParserError.
  Proof.
    intros ctype v z Hv Hz (b & Hb). unfold mp_init in *. destruct (negb _); [easy|]. destruct (negb _); [easy|].
    destruct (parse_header reg _); cbn [bind] in *; [|easy].
    match type of Hb with (let* b := ?x in _) = _ => destruct x as [b1|e]; cbn [bind] in *; [|easy] end.
    rewrite Hv. now replace (Z.ltb z 0) with true by lia.
  Qed.

  (** with the default handler the value of a non-zero length is not used *)
  Theorem C34_length_does_not_matter :
    forall R (rd : nat -> R -> res str * R) exh D fuel csize r len1 len2, len1 <> 0%Z -> len2 <> 0%Z ->
    mp_parse rd exh reg name2cp mk_temp st D fuel csize len1 [HConv new_conv] r =
    mp_parse rd exh reg name2cp mk_temp st D fuel csize len2 [HConv new_conv] r.
  Proof.
    intros R rd exh D fuel csize r len1 len2 H1 H2. unfold mp_parse.
    replace (Z.eqb len1 0) with false by lia. replace (Z.eqb len2 0) with false by lia. reflexivity.
  Qed.
End C34.
Print Assumptions C34_no_length_reads_nothing.
Print Assumptions C34_negative_length_rejected.
Print Assumptions C34_length_does_not_matter.

Example C34_case :
  mp_init ex_reg (Some !"multipart/form-data; boundary=X") (Some !"1_0") = Ok (PB !"X", 0%Z) /\
  mp_init ex_reg (Some !"multipart/form-data; boundary=X") (Some !" +12 ") = Ok (PB !"X", 12%Z) /\
  mp_init ex_reg (Some !"multipart/form-data; boundary=X") (Some !"-1") = Err MultiPartParserError /\
  querydict ex_reg (Some (ms_query (mkMS !"utf-8" None None None))) None true = Ok (mkQD !"utf-8" true []).
Proof. vm_compute. repeat split. Qed.

(** ** C35: the boundary *)
(** 1 to 201 printable characters, the last one not a space *)
Definition good_boundary (s : str) : Prop :=
  1 <= length s <= 201 /\ (forall c, In c s -> (32 <= c <= 126)%N) /\ last s 0%N <> 32%N.

Lemma boundary_match_iff s : boundary_match s = true <-> good_boundary s.
Proof.
  unfold boundary_match, good_boundary. pose proof (rev_involutive s) as ER. destruct (rev s) as [|c r]; rewrite <- ER.
  - split; [easy|]. cbn. lia.
  - cbn [rev]. rewrite app_length, rev_length, last_last. cbn [length]. rewrite !andb_true_iff, forallb_forall.
    unfold is_printable. split.
    + intros (((H1 & H2) & H3) & H4). split; [lia|]. split; [|lia].
      intros x [Hx%in_rev|[<-|[]]]%in_app_or; [specialize (H3 x Hx)|]; lia.
    + intros (H1 & H2 & H3). assert (Hc : (32 <= c <= 126)%N) by (apply H2, in_or_app; right; now left).
      repeat split; try lia. intros x Hx. assert (32 <= x <= 126)%N by (apply H2, in_or_app; left; now apply -> in_rev). lia.
Qed.

Theorem C35_accepted_boundary_partial :
  forall reg ctype clen b len, mp_init reg ctype clen = Ok (b, len) ->
  exists s, (pchars b = s \/ pchars b = s ++ [10%N]) /\ good_boundary s.
Proof.
  intros reg ctype clen b len H. unfold mp_init in H. destruct (negb _); [easy|]. destruct (negb _); [easy|].
  destruct (parse_header reg _) as [h|e]; cbn [bind] in H; [|easy].
  destruct (dget !"boundary" (snd h)) as [b1|]; [|easy].
  destruct (pnonempty b1 && valid_boundary (pchars b1)) eqn:E; cbn [bind] in H.
  - match type of H with (if ?x then _ else _) = _ => destruct x; [easy|] end. injection H as <- <-.
    apply andb_prop in E as [_ E]. unfold valid_boundary in E. apply orb_prop in E as [E|E].
    + exists (pchars b1). split; [now left|]. now apply boundary_match_iff.
    + destruct (rev (pchars b1)) as [|c r] eqn:ER; [easy|]. apply andb_prop in E as [E1 E2]. exists (rev r). split.
      * right. rewrite <- (rev_involutive (pchars b1)), ER. cbn. apply N.eqb_eq in E1. now rewrite E1.
      * now apply boundary_match_iff.
  - destruct (to_native b1); easy.
Qed.
Print Assumptions C35_accepted_boundary_partial.

(** a boundary ending in a line feed is accepted *)
Theorem C35_newline_boundary_refuted :
  exists ctype, forall reg, mp_init reg (Some ctype) (Some !"5") = Ok (PB (!"X" ++ [10%N]), 5%Z).
Proof. exists (!"multipart/form-data; boundary=""X" ++ [10%N] ++ !""""). intros reg. vm_compute. reflexivity. Qed.
Print Assumptions C35_newline_boundary_refuted.

Theorem C35_not_multipart_rejected :
  forall reg ctype clen, ~ (exists t, ctype = Some (!"multipart/" ++ t)) ->
  mp_init reg ctype clen = Err MultiPartParserError.
Proof.
  intros reg ctype clen H. unfold mp_init.
  destruct (startswith _ !"multipart/") eqn:E; [|easy]. exfalso. apply H. unfold startswith in E.
  apply prefixb_iff in E as (t & E). destruct ctype as [v|]; [|easy]. exists t. now rewrite E.
Qed.
Print Assumptions C35_not_multipart_rejected.

(** an ASCII Content-Type written with a boundary parameter: accepted or rejected as documented *)
Theorem C35_boundary_parameter :
  forall reg main ps b clen, startswith main !"multipart/" = true -> ascii_only (render main ps) = true ->
  ~ In 59%N main -> ~ In 34%N main ->
  Forall (fun p => is_token (fst p) = true /\ endswith (fst p) !"*" = false /\
                   match snd p with Tok v => is_token v = true | Quo v => balanced false v = true end) ps ->
  last_value !"boundary" ps = Some b -> ~ In 10%N b ->
  (good_boundary b -> match clen with None => True | Some v => match py_int 10 v with Some z => (0 <= z)%Z | None => True end end ->
     exists len, mp_init reg (Some (render main ps)) clen = Ok (PB b, len)) /\
  (~ good_boundary b -> mp_init reg (Some (render main ps)) clen = Err MultiPartParserError).
Proof.
  intros reg main ps b clen Hm Ha H1 H2 HF HL Hb.
  assert (Ham : ascii_only main = true).
  { unfold render in Ha. rewrite ascii_only_app in Ha. now apply andb_prop in Ha as [Ha _]. }
  destruct (C19_header_roundtrip_partial reg main ps Ham H1 H2 HF) as (d & E & HD).
  assert (HS : startswith (render main ps) !"multipart/" = true).
  { unfold startswith in *. apply prefixb_iff in Hm as (t & ->). unfold render. rewrite <- app_assoc. apply prefixb_app. }
  assert (HV : valid_boundary b = boundary_match b).
  { unfold valid_boundary. destruct (rev b) as [|c r] eqn:ER; [now rewrite orb_false_r|].
    replace (N.eqb c LF) with false; [now rewrite orb_false_r|]. symmetry. apply N.eqb_neq. intros ->. apply Hb.
    apply in_rev. rewrite ER. now left. }
  unfold mp_init. rewrite HS, Ha, E. cbn [negb bind snd]. rewrite HD, HL. cbn [option_map pchars]. rewrite HV. split.
  - intros HG%boundary_match_iff Hl. rewrite HG. assert (HN : pnonempty (PB b) = true) by (destruct b; [easy|reflexivity]).
    rewrite HN. cbn [andb bind].
    match goal with |- context [Z.ltb ?z 0] => replace (Z.ltb z 0) with false; [now exists z|] end.
    destruct clen as [v|]; [|easy]. destruct (py_int 10 v); [|easy]. symmetry. now apply Z.ltb_ge.
  - intros HG. destruct (boundary_match b) eqn:EB; [apply boundary_match_iff in EB; easy|].
    now rewrite andb_false_r.
Qed.
Print Assumptions C35_boundary_parameter.
Example C35_case : last_value !"boundary" [(!"boundary", Tok !"a'b"); (!"Boundary", Quo !"x y")] = Some !"x y" /\ good_boundary !"x y" /\
  mp_init ex_reg (Some (render !"multipart/mixed" [(!"boundary", Tok !"a%b"); (!"Boundary", Quo !"x y")])) None = Ok (PB !"x y", 0%Z) /\
  mp_init ex_reg (Some !"multipart/mixed; boundary=""x """) None = Err MultiPartParserError.
Proof.
  split; [reflexivity|]. split; [|split; vm_compute; reflexivity]. split; [cbn; lia|]. split; [|easy].
  cbn. intros c [<-|[<-|[<-|[]]]]; lia.
Qed.

(** a missing boundary is an AttributeError instead *)
Theorem C35_missing_boundary_refuted :
  exists ctype, forall reg clen, mp_init reg (Some ctype) clen = Err AttributeError.
Proof. exists !"multipart/form-data". intros reg clen. vm_compute. reflexivity. Qed.
Print Assumptions C35_missing_boundary_refuted.

(** ** C37: the names of uploaded files *)
Lemma raw_all_infos max len hs : hs_infos (map (h_raw_input max len) hs) = hs_infos hs.
Proof. unfold hs_infos. induction hs as [|h hs IH]; [easy|]. cbn [map flat_map]. now rewrite raw_infos, IH. Qed.
Lemma parse_good_files reg name2cp mk_temp st D s csize len hs fuel qd post files :
  3 <= length D -> match D with c :: _ => c <> 10%N /\ c <> 13%N | [] => False end ->
  0 < csize -> src_error s = None -> querydict reg (Some (ms_query st)) None true = Ok qd -> len <> 0%Z ->
  2 * length (src_bytes s) + 4 <= fuel -> hs_infos hs = [] ->
  fst (parse_src reg name2cp mk_temp st D fuel csize len hs s) = Ok (post, files) ->
  forall k f, In f (getl k files) -> good_file f.
Proof.
  intros HD HN Hc He Hq Hl Hf Hh HR k f Hin.
  assert (HDok : Dok D) by (split; [|easy]; destruct D as [|x D]; [easy|cbn; easy]).
  destruct (parse_src_sem reg name2cp mk_temp st D HDok s csize len hs qd fuel Hc He Hq Hl Hf) as (o & HP & HO).
  destruct o as [p|e]; [|congruence]. rewrite HO in HR. cbn [fst] in HR. injection HR as <- <-.
  assert (HI : filesI (start_state st len hs)).
  { split; [easy|]. intros i Hi. exfalso. unfold start_state in Hi. cbn [p_hs] in Hi. now rewrite raw_all_infos, Hh in Hi. }
  destruct (parses_inv reg name2cp mk_temp st D filesI (step_filesI reg name2cp mk_temp st) _ _ _ HP HI p eq_refl) as [HG _].
  now apply (HG k f).
Qed.
Theorem C37_names_safe_partial :
  forall reg name2cp mk_temp st D s csize len hs fuel qd post files,
  3 <= length D -> match D with c :: _ => c <> 10%N /\ c <> 13%N | [] => False end ->
  0 < csize -> src_error s = None -> querydict reg (Some (ms_query st)) None true = Ok qd -> len <> 0%Z ->
  2 * length (src_bytes s) + 4 <= fuel ->
  hs_infos hs = [] ->
  fst (parse_src reg name2cp mk_temp st D fuel csize len hs s) = Ok (post, files) ->
  forall k f, In f (getl k files) ->
    ~ In 47%N (uf_name f) /\ ~ In 92%N (uf_name f) /\ length (uf_name f) <= 255.
Proof.
  intros reg name2cp mk_temp st D s csize len hs fuel qd post files HD HN Hc He Hq Hl Hf Hh HR k f Hin.
  destruct (parse_good_files reg name2cp mk_temp st D s csize len hs fuel qd post files HD HN Hc He Hq Hl Hf Hh HR k f Hin)
    as (i & (Hn & _) & Hb & _). rewrite Hn. split; [|split].
  - intros Hx. apply set_name_In in Hx. now apply basename_sep in Hx.
  - intros Hx. apply set_name_In in Hx. now apply basename_In in Hx.
  - apply set_name_length.
Qed.
Print Assumptions C37_names_safe_partial.

(** what is missing: a file can be called '..' *)
Definition ex_ms : mset := mkMS !"utf-8" (Some 100%Z) (Some 1000%Z) (Some 10%Z).
Definition upload_body (fname : str) : str :=
  !"--X" ++ crlf ++ !"Content-Disposition: form-data; name=""f""; filename=""" ++ fname ++ !"""" ++ crlfcrlf ++ !"d" ++ crlf ++ !"--X--".
Definition ex_names (o : res (list (str * list entry) * list (str * list ufile))) : option (list str) :=
  match o with Ok (_, files) => Some (map uf_name (getl !"f" files)) | Err _ => None end.
Theorem C37_dotdot_refuted :
  exists body, ex_names
    (fst (parse_src ex_reg no_cp ok_temp ex_ms !"--X" (2 * length body + 4) 4096 1%Z [HConv new_conv] [SData body]))
    = Some [!".."].
Proof. exists (upload_body !"../.."). vm_compute. reflexivity. Qed.
Print Assumptions C37_dotdot_refuted.
Example C37_case :
  let body := upload_body !"C:\tmp/../x.txt" in
  querydict ex_reg (Some (ms_query ex_ms)) None true = Ok (mkQD !"utf-8" true []) /\
  hs_infos [HConv new_conv] = [] /\
  ex_names (fst (parse_src ex_reg no_cp ok_temp ex_ms !"--X" (2 * length body + 4) 4096 1%Z [HConv new_conv] [SData body]))
    = Some [!"x.txt"].
Proof. vm_compute. repeat split. Qed.

(** ** C38: the suffix of temporary files *)
Theorem C38_suffix_no_separator :
  forall name, ~ In 47%N (temp_suffix name) /\ exists ext, temp_suffix name = !".upload" ++ ext.
Proof.
  intros name. unfold temp_suffix. split; [|now eexists]. intros [H|H]%in_app_or; [|now apply splitext_sep in H].
  cbn in H. repeat destruct H as [H|H]; easy.
Qed.
Print Assumptions C38_suffix_no_separator.
Theorem C38_files_on_disk :
  forall reg name2cp mk_temp st D s csize len hs fuel qd post files,
  3 <= length D -> match D with c :: _ => c <> 10%N /\ c <> 13%N | [] => False end ->
  0 < csize -> src_error s = None -> querydict reg (Some (ms_query st)) None true = Ok qd -> len <> 0%Z ->
  2 * length (src_bytes s) + 4 <= fuel -> hs_infos hs = [] ->
  fst (parse_src reg name2cp mk_temp st D fuel csize len hs s) = Ok (post, files) ->
  forall k f suffix, In f (getl k files) -> uf_kind f = Temporary suffix -> ~ In 47%N suffix.
Proof.
  intros reg name2cp mk_temp st D s csize len hs fuel qd post files HD HN Hc He Hq Hl Hf Hh HR k f suffix Hin Hk.
  destruct (parse_good_files reg name2cp mk_temp st D s csize len hs fuel qd post files HD HN Hc He Hq Hl Hf Hh HR k f Hin)
    as (i & (_ & _ & _ & _ & _ & HK) & _). rewrite Hk in HK. subst suffix. apply C38_suffix_no_separator.
Qed.
Print Assumptions C38_files_on_disk.
Example C38_case : temp_suffix !"../../etc/x.tar/..b" = !".upload" /\ temp_suffix !"a/b.c" = !".upload.c" /\
  (let body := upload_body !"a.b" in
   match fst (parse_src ex_reg no_cp ok_temp (mkMS !"utf-8" (Some 0%Z) (Some 1000%Z) (Some 10%Z)) !"--X"
     (2 * length body + 4) 4096 1%Z [HConv new_conv] [SData body]) with
   | Ok (_, files) => map uf_kind (getl !"f" files) | Err _ => [] end) = [Temporary !".upload.b"].
Proof. vm_compute. repeat split. Qed.

(** ** C39: entities *)
(** what a complete entity is: & #? [xX]? then hex digits or 1 to 8 word characters, then ; *)
Definition word_char (c : char) : Prop := (97 <= c <= 122 \/ 65 <= c <= 90 \/ 48 <= c <= 57 \/ c = 95)%N.
Definition hex_char (c : char) : Prop := (97 <= c <= 102 \/ 65 <= c <= 70 \/ 48 <= c <= 57)%N.
Definition entity_text (t : str) : Prop :=
  exists h x core, t = h ++ x ++ core /\ (h = [] \/ h = !"#") /\ (x = [] \/ x = !"x" \/ x = !"X") /\
    core <> [] /\ (Forall hex_char core \/ (length core <= 8 /\ Forall word_char core)).

Lemma ent_core_iff t : ent_core t = true <-> t <> [] /\ (Forall hex_char t \/ (length t <= 8 /\ Forall word_char t)).
Proof.
  unfold ent_core. rewrite andb_true_iff, orb_true_iff, andb_true_iff, Nat.leb_le, !forallb_forall, !Forall_forall.
  unfold is_hex, is_word, is_alnum, is_alpha, is_digit, is_upper, is_lower, hex_char, word_char.
  assert (HN : nonempty t = true <-> t <> []) by (destruct t; cbn; split; easy). rewrite HN.
  split; intros [H1 H2]; (split; [easy|]).
  - destruct H2 as [H2|[H2 H3]]; [left; intros x Hx; specialize (H2 x Hx); lia|right].
    split; [easy|]. intros x Hx. specialize (H3 x Hx). lia.
  - destruct H2 as [H2|[H2 H3]]; [left; intros x Hx; specialize (H2 x Hx); lia|right].
    split; [easy|]. intros x Hx. specialize (H3 x Hx). lia.
Qed.
Lemma ent_text_iff t : ent_text t = true <-> entity_text t.
Proof.
  unfold ent_text. set (t1 := match t with c :: r => if N.eqb c ehash then r else t | [] => t end).
  split.
  - intros H. assert (HT : exists h, t = h ++ t1 /\ (h = [] \/ h = !"#")).
    { unfold t1. destruct t as [|c r]; [exists []; split; [easy|now left]|]. destruct (N.eqb_spec c ehash) as [->|];
        [exists !"#"|exists []]; (split; [easy|]); [now right|now left]. }
    destruct HT as (h & Et & Hh). apply orb_prop in H as [H|H].
    + apply ent_core_iff in H as [H1 H2]. exists h, [], t1. now repeat split; try easy; left.
    + destruct t1 as [|c r] eqn:E1; [easy|]. apply andb_prop in H as [Hx H]. apply ent_core_iff in H as [H1 H2].
      exists h, [c], r. repeat split; try easy. unfold is_x in Hx. apply orb_prop in Hx as [Hx|Hx]; apply N.eqb_eq in Hx as ->; auto.
  - intros (h & x & core & Et & Hh & Hx & Hc). apply ent_core_iff in Hc.
    assert (HF : match core with c :: _ => N.eqb c ehash = false | [] => False end).
    { apply ent_core_iff in Hc as [Hn Hc]. destruct core as [|c core]; [easy|]. apply N.eqb_neq. intros ->.
      destruct Hc as [Hc|[_ Hc]]; inversion_clear Hc as [|? ? H _]; unfold hex_char, word_char, ehash in H; lia. }
    assert (E1 : t1 = x ++ core).
    { unfold t1. destruct Hh as [-> | ->]; rewrite Et; [|reflexivity]. cbn [app].
      destruct Hx as [-> | [-> | ->]]; cbn [app]; [|reflexivity|reflexivity]. destruct core as [|c core]; [easy|]. now rewrite HF. }
    rewrite E1. apply orb_true_iff. destruct Hx as [-> | [-> | ->]]; [now left| |]; right; exact Hc.
Qed.

Lemma unescape_fuel name2cp : forall f1 f2 s, length s < f1 -> length s < f2 -> unescape_loop f1 name2cp s = unescape_loop f2 name2cp s.
Proof.
  induction f1 as [|f1 IH]; intros f2 s H1 H2; [lia|]. destruct f2 as [|f2]; [lia|]. cbn [unescape_loop].
  destruct s as [|c r]; [easy|]. cbn in H1, H2.
  destruct (if N.eqb c eamp then split1 hsemi r else None) as [[t rest]|] eqn:E0.
  - assert (length rest < length r).
    { destruct (N.eqb c eamp); [|easy]. destruct (split1_cases hsemi r) as [(n & v & E & _ & E2)|[_ E2]]; [|congruence].
      rewrite E2 in E0. injection E0 as -> ->. rewrite E, app_length. cbn. lia. }
    rewrite (IH f2 r) by lia. rewrite (IH f2 rest) by lia. easy.
  - now rewrite (IH f2 r) by lia.
Qed.
Lemma unescape_cons name2cp c r : unescape_entities name2cp (c :: r) =
  match (if N.eqb c eamp then split1 hsemi r else None) with
  | Some (t, rest) => if ent_text t
                      then let* a := replace_entity name2cp t in let* b := unescape_entities name2cp rest in Ok (a ++ b)
                      else let* b := unescape_entities name2cp r in Ok (c :: b)
  | None => let* b := unescape_entities name2cp r in Ok (c :: b)
  end.
Proof.
  unfold unescape_entities at 1. change (S (length (c :: r))) with (S (S (length r))).
  remember (S (length r)) as f eqn:Ef. cbn [unescape_loop]. unfold unescape_entities. rewrite <- Ef.
  destruct (if N.eqb c eamp then split1 hsemi r else None) as [[t rest]|] eqn:E0; [|easy].
  rewrite (unescape_fuel name2cp f (S (length rest)) rest); [easy| |lia].
  destruct (N.eqb c eamp); [|easy]. destruct (split1_cases hsemi r) as [(n & v & E & _ & E2)|[_ E2]]; [|congruence].
  rewrite E2 in E0. injection E0 as -> ->. subst f. rewrite E, app_length. cbn. lia.
Qed.
Lemma unescape_skip name2cp u : ~ In 38%N u -> forall v,
  unescape_entities name2cp (u ++ v) = let* w := unescape_entities name2cp v in Ok (u ++ w).
Proof.
  induction u as [|c u IH]; intros Hu v.
  - cbn [app]. now destruct (unescape_entities name2cp v).
  - cbn [app]. rewrite unescape_cons. destruct (N.eqb_spec c eamp) as [->|_]; [exfalso; apply Hu; now left|].
    rewrite IH by (intros H; apply Hu; now right). now destruct (unescape_entities name2cp v).
Qed.
(** one entity *)
Lemma unescape_one name2cp t v : entity_text t -> ~ In 59%N t ->
  unescape_entities name2cp (38%N :: t ++ 59%N :: v) =
  let* a := replace_entity name2cp t in let* w := unescape_entities name2cp v in Ok (a ++ w).
Proof.
  intros HT Hs. rewrite unescape_cons. change (N.eqb 38 eamp) with true. cbn iota.
  change hsemi with 59%N. rewrite (split1_in 59%N t v Hs). apply ent_text_iff in HT. now rewrite HT.
Qed.
Lemma entity_semi t : entity_text t -> ~ In 59%N t.
Proof.
  intros (h & x & core & -> & Hh & Hx & Hn & Hc) H. apply in_app_or in H as [H|H].
  - destruct Hh as [-> | ->]; [easy|]. destruct H as [H|[]]; easy.
  - apply in_app_or in H as [H|H].
    + destruct Hx as [-> | [-> | ->]]; [easy| |]; destruct H as [H|[]]; easy.
    + destruct Hc as [Hc|[_ Hc]]; rewrite Forall_forall in Hc; specialize (Hc _ H); unfold hex_char, word_char in Hc; lia.
Qed.

Theorem C39_no_entity_unchanged :
  forall name2cp s, (forall u t v, s = u ++ !"&" ++ t ++ !";" ++ v -> ~ entity_text t) -> unescape_entities name2cp s = Ok s.
Proof.
  intros name2cp s. induction s as [|c r IH]; intros H; [reflexivity|].
  assert (HR : unescape_entities name2cp r = Ok r).
  { apply IH. intros u t v E. apply (H (c :: u) t v). now rewrite E. }
  rewrite unescape_cons.
  assert (HX : (let* b := unescape_entities name2cp r in Ok (c :: b)) = Ok (c :: r)) by now rewrite HR.
  destruct (N.eqb_spec c eamp) as [->|_]; [|exact HX].
  destruct (split1_cases hsemi r) as [(n & v & E & _ & E2)|[_ E2]]; rewrite E2; [|exact HX].
  destruct (ent_text n) eqn:ET; [|exact HX]. exfalso. apply (H [] n v); [now rewrite E|]. now apply ent_text_iff.
Qed.
Print Assumptions C39_no_entity_unchanged.

(** the value of a numeral *)
Definition digit_of (c : char) : N :=
  if N.leb c 57 then (c - 48)%N else if N.leb c 70 then (c - 55)%N else (c - 87)%N.
Definition numeral (base : N) (t : str) : N := fold_left (fun a c => (a * base + digit_of c)%N) t 0%N.

Lemma int_digits_val base : (base = 10 \/ base = 16)%N -> forall t a,
  Forall (fun c => hex_char c /\ digit_of c < base)%N t ->
  int_digits base a t = Some (fold_left (fun a c => (a * base + digit_of c)%N) t a).
Proof.
  intros Hb t. induction t as [|c t IH]; intros a HF; [reflexivity|]. inversion_clear HF as [|? ? [H1 H2] HF'].
  cbn [int_digits fold_left].
  assert (E : digit_val c = Some (digit_of c)).
  { unfold digit_val, digit_of, is_digit, is_lower, is_upper, hex_char in *.
    destruct (N.leb_spec 48 c), (N.leb_spec c 57), (N.leb_spec 97 c), (N.leb_spec c 122), (N.leb_spec 65 c), (N.leb_spec c 90),
      (N.leb_spec c 70); cbn; try reflexivity; exfalso; lia. }
  rewrite E. replace (N.ltb (digit_of c) base) with true by lia. now apply IH.
Qed.
Lemma digit10 c : (48 <= c <= 57)%N -> hex_char c /\ (digit_of c < 10)%N.
Proof. intros H. unfold hex_char, digit_of. destruct (N.leb_spec c 57); lia. Qed.
Lemma digit16 c : hex_char c -> hex_char c /\ (digit_of c < 16)%N.
Proof. intros H. split; [easy|]. unfold hex_char, digit_of in *. destruct (N.leb_spec c 57), (N.leb_spec c 70); lia. Qed.

(** decimal and hexadecimal entities below 256, anywhere after text without '&' *)
Theorem C39_numeric_entities :
  forall name2cp u t v w, ~ In 38%N u -> t <> [] -> unescape_entities name2cp v = Ok w ->
  (Forall (fun c => (48 <= c <= 57)%N) t -> (numeral 10 t < 256)%N ->
     unescape_entities name2cp (u ++ !"&#" ++ t ++ !";" ++ v) = Ok (u ++ [numeral 10 t] ++ w)) /\
  (Forall hex_char t -> (numeral 16 t < 256)%N ->
     unescape_entities name2cp (u ++ !"&#x" ++ t ++ !";" ++ v) = Ok (u ++ [numeral 16 t] ++ w) /\
     unescape_entities name2cp (u ++ !"&#X" ++ t ++ !";" ++ v) = Ok (u ++ [numeral 16 t] ++ w)).
Proof.
  intros name2cp u t v w Hu Hn Hv.
  assert (HC : forall x t2 n, entity_text (35%N :: x) -> replace_entity name2cp (35%N :: x) = Ok [n] -> t2 = 35%N :: x ->
            unescape_entities name2cp (u ++ 38%N :: t2 ++ 59%N :: v) = Ok (u ++ [n] ++ w)).
  { intros x t2 n HE HR ->. rewrite unescape_skip by easy. rewrite (unescape_one name2cp (35%N :: x) v HE (entity_semi _ HE)).
    rewrite HR, Hv. reflexivity. }
  split.
  - intros HF Hlt.
    assert (HD : Forall (fun c => hex_char c /\ digit_of c < 10)%N t) by (eapply Forall_impl; [|exact HF]; intros c; apply digit10).
    assert (HH : Forall hex_char t) by (eapply Forall_impl; [|exact HD]; now intros c [H _]).
    apply (HC t (35%N :: t)); [| |easy].
    + exists !"#", [], t. repeat split; auto.
    + unfold replace_entity. change (N.eqb 35 ehash) with true. cbn iota. destruct t as [|c r]; [easy|].
      assert (Hc : is_x c = false).
      { inversion_clear HF as [|? ? H _]. unfold is_x. lia. }
      rewrite Hc. unfold int_nat. rewrite (int_digits_val 10) by auto. fold (numeral 10 (c :: r)).
      unfold py_chr. replace (N.leb 9223372036854775808 (numeral 10 (c :: r))) with false by lia. cbn [bind].
      now replace (N.ltb (numeral 10 (c :: r)) 256) with true by lia.
  - intros HF Hlt.
    assert (HD : Forall (fun c => hex_char c /\ digit_of c < 16)%N t) by (eapply Forall_impl; [|exact HF]; intros c; apply digit16).
    assert (HR : forall x, is_x x = true -> replace_entity name2cp (35%N :: x :: t) = Ok [numeral 16 t]).
    { intros x Hx. unfold replace_entity. change (N.eqb 35 ehash) with true. cbn iota. rewrite Hx.
      assert (E : int16 t = int_nat 16 t).
      { unfold int16. destruct t as [|a [|b r]]; try easy.
        assert (Hb : is_x b = false).
        { inversion_clear HF as [|? ? _ H]. inversion_clear H as [|? ? H2 _]. unfold hex_char, is_x in *. lia. }
        now rewrite Hb, andb_false_r. }
      rewrite E. unfold int_nat. destruct t as [|c r]; [easy|]. rewrite (int_digits_val 16) by auto. fold (numeral 16 (c :: r)).
      unfold py_chr. replace (N.leb 9223372036854775808 (numeral 16 (c :: r))) with false by lia. cbn [bind].
      now replace (N.ltb (numeral 16 (c :: r)) 256) with true by lia. }
    split; [apply (HC (120%N :: t) (35%N :: 120%N :: t))|apply (HC (88%N :: t) (35%N :: 88%N :: t))]; try easy; try (now apply HR).
    + exists !"#", !"x", t. repeat split; auto.
    + exists !"#", !"X", t. repeat split; auto.
Qed.
Print Assumptions C39_numeric_entities.
Example C39_case : unescape_entities no_cp !"a&#65;&#x4a;&#X4A;&amp;&#300;&#0x41;&#x0x41;&&#66;" = Ok !"aAJJ&amp;&#300;&#0x41;A&B" /\
  numeral 10 !"065" = 65%N /\ numeral 16 !"4a" = 74%N /\ ~ entity_text !"a b".
Proof. repeat split; try (vm_compute; reflexivity). intros H%ent_text_iff. vm_compute in H. discriminate. Qed.

(** only numbers beyond a C long raise, and then OverflowError *)
Lemma int_digits_bound base : (1 < base)%N -> forall t a n, int_digits base a t = Some n -> (n < (a + 1) * base ^ N.of_nat (length t))%N.
Proof.
  intros Hb t. induction t as [|c t IH]; intros a n H; cbn [int_digits] in H.
  - injection H as <-. cbn. lia.
  - destruct (digit_val c) as [d|]; [|easy]. destruct (N.ltb_spec d base); [|easy]. apply IH in H.
    cbn [length]. rewrite Nat2N.inj_succ, N.pow_succ_r'. eapply N.lt_le_trans; [exact H|]. rewrite N.mul_assoc.
    apply N.mul_le_mono_r. nia.
Qed.
Theorem C39_total_partial :
  forall name2cp s, (forall t c, name2cp t = Some c -> (c < 2 ^ 63)%N) ->
  (forall u t v, s = u ++ !"&#" ++ t ++ !";" ++ v -> ~ In 59%N t -> length t <= 16) ->
  exists r, unescape_entities name2cp s = Ok r.
Proof.
  intros name2cp s Hcp. remember (length s) as n eqn:En. revert s En.
  induction n as [n IH] using lt_wf_ind. intros s En H. destruct s as [|c r]; [now exists []|]. cbn in En.
  assert (HS : forall x y, c :: r = x ++ y -> x <> [] -> exists w, unescape_entities name2cp y = Ok w).
  { intros x y E Hx. destruct x as [|x0 x]; [easy|]. apply (IH (length y)); [|easy|].
    - injection E as -> ->. rewrite app_length in En. lia.
    - intros u t v Ey Ht. apply (H ((x0 :: x) ++ u) t v); [|easy]. rewrite E, Ey. now rewrite <- app_assoc. }
  destruct (HS [c] r eq_refl ltac:(easy)) as (w & Hw).
  rewrite unescape_cons. destruct (N.eqb_spec c eamp) as [->|_]; [|rewrite Hw; now eexists].
  destruct (split1_cases hsemi r) as [(t & v & E & Hs & E2)|[_ E2]]; rewrite E2; [|rewrite Hw; now eexists].
  destruct (ent_text t); [|rewrite Hw; now eexists].
  destruct (HS (eamp :: t ++ [hsemi]) v) as (w2 & Hw2); [cbn; now rewrite <- app_assoc, E|easy|].
  rewrite Hw2.
  assert (HE : exists a, replace_entity name2cp t = Ok a).
  { unfold replace_entity.
    match goal with |- context [match ?x with Some c => _ | None => Ok _ end] => destruct x as [n0|] eqn:EN end; [|now eexists].
    assert (HB : (n0 < 9223372036854775808)%N).
    { destruct t as [|x t]; [easy|]. destruct (N.eqb_spec x ehash) as [->|_]; [|change 9223372036854775808%N with (2 ^ 63)%N; now apply Hcp in EN].
      assert (Hlen : length t <= 16).
      { apply (H [] t v); [now rewrite E|]. intros Hin. apply Hs. now right. }
      destruct t as [|y t]; [easy|]. cbn in Hlen.
      assert (HI : forall b q, (b = 10 \/ b = 16)%N -> length q <= (if N.eqb b 10 then 16 else 15) -> int_nat b q = Some n0 ->
                (n0 < 9223372036854775808)%N).
      { intros b q Hb Hq Hi. unfold int_nat in Hi. destruct q as [|z q]; [easy|].
        apply int_digits_bound in Hi; [|destruct Hb; subst; lia]. eapply N.lt_le_trans; [exact Hi|].
        destruct Hb as [-> | ->].
        - change (N.eqb 10 10) with true in Hq. cbn iota in Hq.
          apply N.le_trans with ((0 + 1) * 10 ^ 16)%N; [apply N.mul_le_mono_l, N.pow_le_mono_r; [easy|]|now vm_compute].
          clear -Hq. change (length (z :: q)) with (S (length q)) in *. lia.
        - change (N.eqb 16 10) with false in Hq. cbn iota in Hq.
          apply N.le_trans with ((0 + 1) * 16 ^ 15)%N; [apply N.mul_le_mono_l, N.pow_le_mono_r; [easy|]|now vm_compute].
          clear -Hq. change (length (z :: q)) with (S (length q)) in *. lia. }
      destruct (is_x y).
      - assert (HQ : exists q, int_nat 16 q = Some n0 /\ length q <= 15).
        { unfold int16 in EN. destruct t as [|a [|b q]].
          - easy.
          - exists [a]. split; [easy|cbn; lia].
          - cbn [length] in Hlen. destruct (N.eqb a 48 && is_x b); [exists q|exists (a :: b :: q)]; (split; [easy|cbn [length]; lia]). }
        destruct HQ as (q & Hq1 & Hq2). now apply (HI 16%N q); auto.
      - now apply (HI 10%N (y :: t)); auto. }
    unfold py_chr. replace (N.leb 9223372036854775808 n0) with false by lia. cbn [bind]. destruct (N.ltb n0 256); now eexists. }
  destruct HE as (a & ->). now eexists.
Qed.
Print Assumptions C39_total_partial.

(** what is missing: a large number escapes as OverflowError *)
Theorem C39_overflow_refuted :
  exists s, forall name2cp, unescape_entities name2cp s = Err OverflowError.
Proof. exists !"&#xffffffffffffffff;". intros name2cp. vm_compute. reflexivity. Qed.
Print Assumptions C39_overflow_refuted.
Theorem C39_only_overflow_partial :
  forall name2cp s e, unescape_entities name2cp s = Err e -> e = OverflowError.
Proof. intros name2cp s e. apply unescape_err. Qed.
Print Assumptions C39_only_overflow_partial.
