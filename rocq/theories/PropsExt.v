(** * C113: extended parameters (RFC 2231 / RFC 5987), name*=charset'language'value *)
From Coq Require Import ZifyBool ZifyN ZifyNat.
From Verif Require Import Py Spec HeadSpec PyFacts PyDict StreamModel StreamFacts CodecModel CodecFacts PercentModel
  QueryModel QuerySpec QueryFacts HeadModel HeaderModel HeaderSpec HeaderFacts UploadModel MultipartModel
  RequestModel RequestSpec BodyRun PropsData PropsPart PropsRequest PropsBody.

(** ** Parameters as they are written *)
Inductive par := Ord (n : str) (v : pval) | Ext (n charset lang v text : str).
Definition par_name (p : par) : str := match p with Ord n _ => n | Ext n _ _ _ _ => n end.
Definition par_text (p : par) : str :=
  match p with
  | Ord n v => n ++ !"=" ++ render_val v
  | Ext n charset lang v _ => n ++ !"*=" ++ charset ++ !"'" ++ lang ++ !"'" ++ v
  end.
Definition render_pars (main : str) (ps : list par) : str := main ++ flat_map (fun p => !"; " ++ par_text p) ps.
(** [Ext n charset lang v text]: [v] is a percent-encoding of the bytes of [text] in [charset] *)
Definition par_good (reg : registry) (p : par) : Prop :=
  match p with
  | Ord n v => is_token n = true /\ endswith n !"*" = false /\ match v with Tok t => is_token t = true | Quo t => balanced false t = true end
  | Ext n charset lang v text =>
      is_token n = true /\ is_token charset = true /\ forallb is_token_char lang = true /\ forallb is_token_char v = true /\
      (exists c b, reg charset = Some c /\ codec_ok c /\ c_enc c text = Some b /\ pct_decodes v b) /\
      ~ exists w, text = [34%N] ++ w ++ [34%N]
  end.
(** the value: bytes for an ordinary parameter, text for an extended one *)
Definition par_value (p : par) : pystr := match p with Ord _ v => PB (pval_of v) | Ext _ _ _ _ text => PU text end.
Definition last_par (n : str) (ps : list par) : option pystr :=
  fold_left (fun acc p => if seqb (lower (par_name p)) n then Some (par_value p) else acc) ps None.

(** ** Proof *)
Lemma tchars_notin c s : forallb (fun x => negb (N.eqb x c)) token_chars = true -> forallb is_token_char s = true -> ~ In c s.
Proof.
  intros H Hs Hin. rewrite forallb_forall in Hs. pose proof (token_check _ H c (Hs c Hin)) as E. cbn beta in E. now rewrite N.eqb_refl in E.
Qed.
Lemma tchars_of s : is_token s = true -> forallb is_token_char s = true.
Proof. now intros [_ H]%andb_true_iff. Qed.
Lemma tchars_ascii s : forallb is_token_char s = true -> ascii_only s = true.
Proof.
  intros H. unfold ascii_only. rewrite forallb_forall in *. intros c Hc. apply (token_check is_ascii); [reflexivity|now apply H].
Qed.
Lemma tchars_ws s c : forallb is_token_char s = true -> In c s -> is_ws c = false.
Proof.
  intros H Hc. rewrite forallb_forall in H. apply negb_true_iff. apply (token_check (fun c => negb (is_ws c))); [reflexivity|now apply H].
Qed.
Lemma ext_chars n enc lang v c : is_token n = true -> is_token enc = true -> forallb is_token_char lang = true -> forallb is_token_char v = true ->
  In c (n ++ !"*=" ++ enc ++ !"'" ++ lang ++ !"'" ++ v) -> is_token_char c = true \/ c = 61%N \/ c = 39%N.
Proof.
  intros Hn He Hl Hv. apply tchars_of in Hn, He. rewrite forallb_forall in *.
  rewrite !in_app_iff. cbn [In]. intros [H|[[H|[H|[]]]|[H|[[H|[]]|[H|[[H|[]]|H]]]]]]; auto; subst; auto.
Qed.
Lemma ext_quiet n enc lang v text : is_token n = true -> is_token enc = true -> forallb is_token_char lang = true -> forallb is_token_char v = true ->
  qend false (32%N :: par_text (Ext n enc lang v text)) = None /\ qodd (32%N :: par_text (Ext n enc lang v text)) = false.
Proof.
  intros Hn He Hl Hv. cbn [par_text].
  assert (HN : forall c, (is_token_char c = false /\ c <> 61 /\ c <> 39 /\ c <> 32)%N -> ~ In c (32%N :: n ++ !"*=" ++ enc ++ !"'" ++ lang ++ !"'" ++ v)).
  { intros c (C1 & C2 & C3 & C4) [H|H]; [congruence|]. destruct (ext_chars n enc lang v c Hn He Hl Hv H) as [H'|[H'|H']]; congruence. }
  split; [apply qend_none|apply qodd_notin]; apply HN; repeat split; discriminate.
Qed.
Lemma ord_ok reg n v : par_good reg (Ord n v) -> param_ok (n, v) = true.
Proof.
  intros (A & B & C). unfold param_ok, pname_ok, pval_ok. cbn [fst snd]. change [hstar] with !"*". rewrite A, B. now destruct v.
Qed.
Lemma par_quiet reg p : par_good reg p -> qend false (32%N :: par_text p) = None /\ qodd (32%N :: par_text p) = false.
Proof.
  destruct p as [n v|n enc lang v text].
  - intros H. apply (piece_quiet (n, v)). now apply (ord_ok reg).
  - intros (H1 & H2 & H3 & H4 & _). now apply ext_quiet.
Qed.
Lemma qsplit_pars reg : forall ps u, Forall (par_good reg) ps -> qend false u = None -> qodd u = false ->
  qsplit false (u ++ flat_map (fun p => !"; " ++ par_text p) ps) = u :: map (fun p => 32%N :: par_text p) ps.
Proof.
  induction ps as [|p ps IH]; intros u H H1 H2; cbn [flat_map map].
  - rewrite app_nil_r. now apply qsplit_single.
  - inversion H as [|? ? Hp Hps]; subst. destruct (par_quiet reg p Hp) as [Q1 Q2].
    change ((!"; " ++ par_text p) ++ flat_map (fun p0 => !"; " ++ par_text p0) ps) with (hsemi :: (32%N :: par_text p) ++ flat_map (fun p0 => !"; " ++ par_text p0) ps).
    rewrite qsplit_piece by easy. now rewrite IH.
Qed.
Lemma not_quoted t : ~ (exists w, t = [34%N] ++ w ++ [34%N]) -> unquote_value t = t.
Proof.
  intros H. unfold unquote_value. destruct (Nat.leb 2 (length t) && N.eqb (hd 0%N t) hquote && N.eqb (last t 0%N) hquote) eqn:E; [|reflexivity].
  exfalso. apply H. apply andb_true_iff in E as [E E3]. apply andb_true_iff in E as [E1 E2]. apply Nat.leb_le in E1.
  destruct t as [|x t]; [cbn in E1; lia|]. cbn [hd] in E2. apply N.eqb_eq in E2, E3. subst x.
  destruct (last_nonnil t 0%N) as [w Ew]; [now destruct t; [cbn in E1; lia|]|]. exists w.
  assert (El : last (hquote :: t) 0%N = last t 0%N) by (destruct t; [cbn in E1; lia|reflexivity]).
  rewrite El in E3. rewrite Ew, E3. reflexivity.
Qed.
Lemma lower_app a b : lower (a ++ b) = lower a ++ lower b.
Proof. apply map_app. Qed.
Lemma parse_ext_eq reg n enc lang v text : is_token n = true -> is_token enc = true -> forallb is_token_char lang = true -> forallb is_token_char v = true ->
  parse_param reg (strip (32%N :: par_text (Ext n enc lang v text))) = let* u := unquote reg enc v in Ok (Some (lower n, PU (unquote_value u))).
Proof.
  intros Hn He Hl Hv. cbn [par_text].
  set (value := enc ++ !"'" ++ lang ++ !"'" ++ v).
  assert (HWS : forall x, In x (n ++ !"*=" ++ value) -> is_ws x = false).
  { intros x Hx. destruct (ext_chars n enc lang v x Hn He Hl Hv Hx) as [H'|[->| ->]]; [|reflexivity..].
    apply negb_true_iff. now apply (token_check (fun c => negb (is_ws c))). }
  assert (HS : strip (32%N :: n ++ !"*=" ++ value) = n ++ !"*=" ++ value).
  { pose proof (strip_by_pad is_ws [32%N] (n ++ !"*=" ++ value) []) as HP. rewrite app_nil_r in HP. apply HP; try easy; [apply tight_by_all; exact HWS|]. intros E. now apply app_eq_nil in E as [_ E]. }
  rewrite HS. unfold parse_param.
  assert (E1 : n ++ !"*=" ++ value = (n ++ !"*") ++ hequal :: value) by (rewrite <- app_assoc; reflexivity).
  rewrite E1. rewrite findc_app.
  2:{ intros [H|[H|[]]]%in_app_or; [|discriminate H]. revert H. now apply (tchars_notin hequal n eq_refl), tchars_of. }
  rewrite firstn_app_exact.
  assert (HSn : strip (n ++ !"*") = n ++ !"*").
  { apply strip_by_tight, tight_by_all. intros x Hx. apply HWS. rewrite E1. apply in_or_app. now left. }
  rewrite HSn, lower_app. change (lower !"*") with [hstar].
  assert (HA : ascii_only (lower n ++ [hstar]) = true).
  { change [hstar] with (lower [hstar]). rewrite <- lower_app. apply lower_ascii. unfold ascii_only. rewrite forallb_app. fold (ascii_only n). rewrite (tchars_ascii n) by now apply tchars_of. reflexivity. }
  unfold decode_ascii at 1. rewrite HA. cbn [bind].
  assert (HE : endswith (lower n ++ [hstar]) [hstar] = true) by (unfold endswith; rewrite rev_app_distr; cbn; reflexivity).
  rewrite HE, removelast_last.
  assert (HV : skipn (S (length (n ++ !"*"))) ((n ++ !"*") ++ hequal :: value) = value).
  { change (hequal :: value) with ([hequal] ++ value). rewrite app_assoc. replace (S (length (n ++ !"*"))) with (length ((n ++ !"*") ++ [hequal])) by (rewrite (app_length _ [hequal]); cbn; lia).
    apply skipn_app_exact. }
  rewrite HV.
  assert (HSv : strip value = value).
  { apply strip_by_tight, tight_by_all. intros x Hx. apply HWS. apply in_or_app. right. apply in_or_app. now right. }
  rewrite HSv.
  assert (T1 : ~ In htick n) by (apply (tchars_notin htick); [reflexivity|now apply tchars_of]).
  assert (T2 : ~ In htick enc) by (apply (tchars_notin htick); [reflexivity|now apply tchars_of]).
  assert (T3 : ~ In htick lang) by (now apply (tchars_notin htick)).
  assert (T4 : ~ In htick v) by (now apply (tchars_notin htick)).
  assert (HP : splitc htick value = [enc; lang; v]).
  { unfold value. change (!"'" ++ lang ++ !"'" ++ v) with (htick :: lang ++ htick :: v). rewrite splitc_cons by exact T2. rewrite splitc_cons by exact T3. now rewrite splitc_notin. }
  assert (HC : countc htick ((n ++ !"*") ++ hequal :: value) = 2).
  { pose proof (splitc_length htick value) as L. rewrite HP in L. cbn [length] in L. unfold countc in *. rewrite !count_occ_app.
    rewrite (proj1 (count_occ_not_In N.eq_dec n htick) T1). cbn [count_occ]. cbn. lia. }
  rewrite HC. cbn [andb Nat.eqb]. rewrite HP. unfold decode_ascii. rewrite (tchars_ascii v Hv). cbn [bind]. rewrite (tchars_ascii enc) by now apply tchars_of. cbn [bind].
  now destruct (unquote reg enc v).
Qed.
Lemma parse_ext reg n enc lang v text : par_good reg (Ext n enc lang v text) ->
  parse_param reg (strip (32%N :: par_text (Ext n enc lang v text))) = Ok (Some (lower n, PU text)).
Proof.
  intros (Hn & He & Hl & Hv & (c & b & R1 & R2 & R3 & R4) & HQ). rewrite parse_ext_eq by assumption.
  rewrite (unquote_ascii reg enc c v R1 R2) by now apply tchars_ascii. cbn [bind].
  rewrite <- (pct_decodes_unquote v b R4). rewrite (cok_rep c R2 b text) by now apply (cok_roundtrip c R2). now rewrite not_quoted.
Qed.
Lemma parse_par reg p : par_good reg p -> parse_param reg (strip (32%N :: par_text p)) = Ok (Some (lower (par_name p), par_value p)).
Proof.
  destruct p as [n v|n enc lang v text]; intros H; [|now apply parse_ext].
  apply (parse_param_render reg (n, v)). now apply (ord_ok reg).
Qed.
Lemma parse_pars reg : forall ps d, Forall (par_good reg) ps ->
  parse_params reg (map strip (map (fun p => 32%N :: par_text p) ps)) d = Ok (fold_left (fun d p => dset (lower (par_name p)) (par_value p) d) ps d).
Proof.
  induction ps as [|p ps IH]; intros d H; [easy|]. inversion H as [|? ? Hp Hps]; subst.
  cbn [map parse_params fold_left]. rewrite parse_par by easy. cbn [bind]. now apply IH.
Qed.
Lemma fold_pars n : forall ps d acc, dget n d = acc ->
  dget n (fold_left (fun d p => dset (lower (par_name p)) (par_value p) d) ps d) =
  fold_left (fun acc p => if seqb (lower (par_name p)) n then Some (par_value p) else acc) ps acc.
Proof.
  induction ps as [|p ps IH]; intros d acc H; [easy|]. cbn [fold_left]. apply IH.
  rewrite dget_dset. destruct (seqb n (lower (par_name p))) eqn:E.
  - apply seqb_eq in E. subst. now rewrite seqb_refl.
  - destruct (seqb (lower (par_name p)) n) eqn:E2; [|easy]. apply seqb_eq in E2. subst. now rewrite seqb_refl in E.
Qed.

(** ** C113 *)
Theorem C113_extended_parameters :
  forall reg main ps, ascii_only main = true -> ~ In 59%N main -> ~ In 34%N main -> Forall (par_good reg) ps ->
  exists d, parse_header reg (render_pars main ps) = Ok (lower (strip main), d) /\ forall n, dget n d = last_par n ps.
Proof.
  intros reg main ps H1 H2 H3 H4. eexists. split.
  - unfold parse_header, render_pars. rewrite parse_header_params_spec, (qsplit_pars reg); [|exact H4|now apply qend_none|now apply qodd_notin].
    cbn [map]. unfold decode_ascii. rewrite lower_ascii by now apply strip_ascii. cbn [bind]. rewrite parse_pars by exact H4. cbn [bind]. reflexivity.
  - intros n. now apply fold_pars.
Qed.
Print Assumptions C113_extended_parameters.
Definition ex113 : list par :=
  [Ord !"name" (Quo !"a;b"); Ext !"FileName" !"utf-8" !"en" !"%e2%82%ac.txt" [8364%N; 46; 116; 120; 116]%N; Ext !"x" !"ISO-8859-1" [] !"%E9" [233%N]; Ord !"X" (Tok !"y")].
Lemma ex113_good : Forall (par_good ex_reg) ex113.
Proof.
  assert (HQ : forall x t, x <> 34%N -> ~ exists w, x :: t = [34%N] ++ w ++ [34%N]) by (intros x t Hx [w H]; injection H as H _; congruence).
  repeat apply Forall_cons; [..|apply Forall_nil].
  - repeat split.
  - repeat (split; [reflexivity|]). split; [|now apply HQ]. exists (utf8 (fun s => s)), [226%N; 130; 172; 46; 116; 120; 116]%N.
    split; [reflexivity|]. split; [apply utf8_ok|]. split; [reflexivity|].
    apply (pct_hex _ _ 14 2); [right; reflexivity|left; reflexivity|]. apply (pct_hex _ _ 8 2); [left; reflexivity|left; reflexivity|].
    apply (pct_hex _ _ 10 12); [right; reflexivity|right; reflexivity|]. repeat (apply pct_plain; [discriminate|]). apply pct_nil.
  - repeat (split; [reflexivity|]). split; [|now apply HQ]. exists latin1, [233%N].
    split; [reflexivity|]. split; [apply latin1_ok|]. split; [reflexivity|].
    apply (pct_hex _ _ 14 9); [left; reflexivity|left; reflexivity|]. apply pct_nil.
  - repeat split.
Qed.
Example C113_case : exists d, parse_header ex_reg (render_pars !"Form-Data" ex113) = Ok (!"form-data", d) /\
  dget !"filename" d = Some (PU [8364%N; 46; 116; 120; 116]%N) /\ dget !"name" d = Some (PB !"a;b") /\ dget !"x" d = Some (PB !"y").
Proof.
  destruct (C113_extended_parameters ex_reg !"Form-Data" ex113) as (d & E & H); [reflexivity| | |exact ex113_good|].
  1,2: cbn; intros H; repeat destruct H as [H|H]; easy || discriminate H.
  exists d. split; [exact E|]. rewrite !H. now repeat split.
Qed.
(** a text that begins and ends with a double quote loses them *)
Theorem C113_quotes_lost_refuted :
  exists v text, pct_decodes v text /\ ascii_only text = true /\ exists d, parse_header ex_reg (render_pars !"a" [Ext !"n" !"utf-8" [] v text]) = Ok (!"a", d) /\ dget !"n" d <> Some (PU text).
Proof.
  exists !"%22x%22", [34%N; 120%N; 34%N]. split; [|split; [reflexivity|]].
  - apply (pct_hex _ _ 2 2); [left; reflexivity..|]. apply pct_plain; [discriminate|]. apply (pct_hex _ _ 2 2); [left; reflexivity..|]. apply pct_nil.
  - eexists. split; [vm_compute; reflexivity|]. vm_compute. discriminate.
Qed.
Print Assumptions C113_quotes_lost_refuted.
(** a file name outside ASCII written in this way makes the whole form unreadable *)
Definition ext_form (disp : str) : src :=
  req [!"POST / HTTP/1.1"; !"Host: a"; !"Content-Length: 3"; !"Content-Type: multipart/form-data; boundary=X"]
      (!"--X" ++ crlf ++ !"Content-Disposition: " ++ disp ++ crlf ++ crlf ++ !"v" ++ crlf ++ !"--X--" ++ crlf).
Theorem C113_file_name_refuted :
  forall name2cp mk_temp R (rd : nat -> R -> res str * R) st fuel name tenc disp m p s u,
    dget !"filename" disp = Some (PU u) -> ascii_only u = false ->
    read_file rd name2cp mk_temp st fuel name tenc disp m p s = (Err UnicodeEncodeError, s).
Proof.
  intros name2cp mk_temp R rd st fuel name tenc disp m p s u Hd Hu. unfold read_file. rewrite Hd.
  destruct u as [|c u]; [discriminate Hu|]. cbn [pnonempty pchars nonempty to_native]. now rewrite Hu.
Qed.
Print Assumptions C113_file_name_refuted.
Theorem C113_form_lost_refuted :
  fst (run (parse ex_reg no_cp ok_temp) ex_set (ext_form !"form-data; name=a; filename*=utf-8''%C3%A9")) = Err UnicodeEncodeError /\
  fst (run (parse ex_reg no_cp ok_temp) ex_set (ext_form !"form-data; name*=utf-8''%C3%A9")) = Err UnicodeEncodeError /\
  fst (run (parse ex_reg no_cp ok_temp) ex_set (ext_form !"form-data; name*=nope''%41")) = Err LookupError /\
  fst (run (parse ex_reg no_cp ok_temp) ex_set (ext_form !"form-data; name*=utf-8''%41")) = Ok tt.
Proof. vm_compute. repeat split. Qed.
Print Assumptions C113_form_lost_refuted.
(** an unknown charset is not reported as a bad request but as LookupError *)
Theorem C113_unknown_charset_refuted :
  forall reg enc v n, is_token n = true -> is_token enc = true -> forallb is_token_char v = true -> In 37%N v -> reg enc = None ->
    parse_header reg (render_pars !"text/plain" [Ext n enc [] v []]) = Err LookupError.
Proof.
  intros reg enc v n Hn He Hv Hp Hr. unfold parse_header, render_pars. cbn [flat_map]. rewrite app_nil_r, parse_header_params_spec.
  destruct (ext_quiet n enc [] v [] Hn He eq_refl Hv) as [Q1 Q2].
  change (!"; " ++ par_text (Ext n enc [] v [])) with (hsemi :: (32%N :: par_text (Ext n enc [] v []))).
  pose proof (qsplit_piece !"text/plain" (32%N :: par_text (Ext n enc [] v []))) as HS. rewrite HS by reflexivity. clear HS.
  rewrite qsplit_single by exact Q1. cbn [map]. unfold decode_ascii at 1. cbn [bind]. change (ascii_only (lower (strip !"text/plain"))) with true. cbn [bind parse_params].
  enough (E : parse_param reg (strip (32%N :: par_text (Ext n enc [] v []))) = Err LookupError) by (now rewrite E).
  rewrite parse_ext_eq by assumption || reflexivity. unfold unquote. apply mem_In in Hp. change percent with 37%N. now rewrite Hp, Hr.
Qed.
Print Assumptions C113_unknown_charset_refuted.
