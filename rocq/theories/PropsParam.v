(** * C159: the parameters of a content type that nobody asks for *)
From Coq Require Import ZifyBool ZifyN ZifyNat.
From Verif Require Import Py Spec HeadSpec PyFacts PyDict StreamModel StreamSpec StreamFacts StreamCalm CodecModel CodecFacts PercentModel QuerySpec
  QueryModel HeadModel HeadFacts UrlFacts HeaderModel HeaderSpec HeaderFacts BoundaryModel UploadModel MultipartModel FormSpec ReaderSim EncModel
  RequestModel RequestSpec HeaderRun BodyRun ParseRun RequestMulti TwinFacts PropsHead PropsPart PropsMultipart PropsRequest PropsBody PropsEnd PropsSame
  PropsExt WrittenParams PropsMedia PropsDeclared.

(** ** Specification *)
(** two content types that agree in the media type, in the charset and, for a form in parts, in the
    boundary (and in whether the type begins with 'multipart/' in small letters) *)
Definition alike (main : str) (ps : list par) (main' : str) (ps' : list par) : Prop :=
  lower (strip main) = lower (strip main') /\ last_par !"charset" ps = last_par !"charset" ps' /\
  (lower (strip main) = !"multipart/form-data" ->
   startswith main !"multipart/" = startswith main' !"multipart/" /\ last_par !"boundary" ps = last_par !"boundary" ps').

(** ** Proof *)
(** what parse_header makes of the last Content-Type value [v] *)
Definition means (reg : registry) (w : wire) (v key : str) (f : str -> option pystr) : Prop :=
  RequestSpec.last_value !"Content-Type" w v /\ ascii_only v = true /\ exists d, parse_header reg v = Ok (key, d) /\ forall n, dget n d = f n.
Lemma means_heads (H : headers -> headers -> Prop) reg w w' v v' key f f' : agree_on [!"Host"] w w' ->
  means reg w v key f -> means reg w' v' key f' -> f !"charset" = f' !"charset" ->
  (forall d d', fields_of w d -> fields_of w' d' -> H d d' /\ H (ddel !"Host" d) (ddel !"Host" d')) ->
  forall mu l d d', fields_of w d -> fields_of w' d' ->
    (mu = false -> forall host h c ch, pick_host l d = Ok (host, h) -> ctype_of reg h = Ok (c, ch) -> c <> Some CT_MULTI) -> heads_like H mu reg l d d'.
Proof.
  intros HA (HT & _ & e & P & G) (HT' & _ & e' & P' & G') E2 HH mu l d d' Hd Hd' Hc.
  assert (HC : forall h h', header !"Content-Type" h = Some v -> header !"Content-Type" h' = Some v' -> ctype_of reg h = ctype_of reg h').
  { intros h h' K K'. unfold ctype_of. rewrite K, K', P, P'. cbn [bind fst snd]. now rewrite G, G', E2. }
  pose proof (header_of _ d w _ Hd HT) as K. pose proof (header_of _ d' w' _ Hd' HT') as K'. destruct (HH d d' Hd Hd') as [I1 I2].
  unfold heads_like. unfold pick_host in *. destruct (nonempty (rl_domain l)).
  - split; [reflexivity|]. split; [exact I1|]. split; [now apply HC|]. intros Hm c ch. now apply (Hc Hm _ _ c ch eq_refl).
  - rewrite <- (header_agree !"Host" d d' w w' [!"Host"] ltac:(now left) HA (Hd _) (Hd' _)). destruct (header !"Host" d) as [y|]; [|reflexivity].
    split; [reflexivity|]. split; [exact I2|]. split; [apply HC; rewrite header_ddel by discriminate; assumption|].
    intros Hm c ch. now apply (Hc Hm _ _ c ch eq_refl).
Qed.
Lemma means_measure reg w w' v v' key f f' : agree_on [!"Host"; !"Content-Length"] w w' ->
  means reg w v key f -> means reg w' v' key f' -> startswith v !"multipart/" = startswith v' !"multipart/" -> f !"boundary" = f' !"boundary" ->
  forall d d', fields_of w d -> fields_of w' d' -> same_measure reg d d'.
Proof.
  intros HA (HT & A & e & P & G) (HT' & A' & e' & P' & G') S EB d d' Hd Hd'. unfold same_measure.
  rewrite (header_of _ d w _ Hd HT), (header_of _ d' w' _ Hd' HT').
  rewrite (header_agree !"Content-Length" d d' w w' [!"Host"; !"Content-Length"] ltac:(right; now left) HA (Hd _) (Hd' _)).
  unfold mp_init. rewrite S, A, A', P, P'. cbn [negb bind snd]. now rewrite G, G', EB.
Qed.
Lemma means_same reg n2 mk st s s' r r' w w' v v' key f f' :
  request_init reg st s = Ok r -> request_init reg st s' = Ok r' -> delivers s w -> delivers s' w' -> max_ok (s_hdr st) ->
  w_line w = w_line w' -> w_body w = w_body w' -> agree_on [!"Host"; !"Content-Length"] w w' ->
  means reg w v key f -> means reg w' v' key f' -> f !"charset" = f' !"charset" ->
  (key = !"multipart/form-data" -> startswith v !"multipart/" = startswith v' !"multipart/" /\ f !"boundary" = f' !"boundary") ->
  same_outcome same_results (parse reg n2 mk (st, r)) (parse reg n2 mk (st, r')).
Proof.
  intros Hi Hi' Hw Hw' Hm HL HB HA HT HT' EC HS.
  assert (HA1 : agree_on [!"Host"] w w') by (intros n x [<-|[]]; apply HA; now left).
  destruct (seqb key !"multipart/form-data") eqn:EM.
  - apply seqb_eq in EM. destruct (HS EM) as (S & EB).
    apply (same_heads (same_measure reg) true reg n2 mk st s s' r r' w w' Hi Hi' Hw Hw' Hm HL HB); [|intros _ h h' Hh; exact Hh|easy].
    apply (means_heads _ reg w w' v v' key f f'); try assumption. intros d d' Hd Hd'.
    pose proof (means_measure reg w w' v v' key f f' HA HT HT' S EB d d' Hd Hd') as HX. split; [exact HX|].
    unfold same_measure in *. now rewrite !header_ddel by discriminate.
  - apply (same_heads (fun _ _ => True) false reg n2 mk st s s' r r' w w' Hi Hi' Hw Hw' Hm HL HB); [|easy|].
    + apply (means_heads _ reg w w' v v' key f f'); try assumption. easy.
    + intros _ st1 r1 HP. destruct (header_known _ _ _ _ _ _ _ Hi Hw Hm HP) as (l & host & h & c & ch & g & El & Ea & Eme & Hg & Ec & _).
      rewrite Ea. cbn [a_ctype line_attrs]. intros K. assert (c = Some CT_MULTI) as -> by congruence.
      destruct HT as (HT & _ & e & P & G). unfold ctype_of in Ec.
      rewrite (values_header _ w _ h (Hg !"Content-Type" ltac:(discriminate)) HT), P in Ec. cbn [bind fst snd] in Ec.
      assert (Ek : key = CT_MULTI) by congruence. rewrite Ek in EM. discriminate EM.
Qed.
Lemma typed_means reg w main ps : wire_ok w -> typed reg w main ps -> means reg w (render_pars main ps) (lower (strip main)) (fun n => last_par n ps).
Proof.
  intros Hw (HT & H1 & H2 & H3 & H4). split; [exact HT|]. split; [apply ascii_text_iff; eapply last_value_ascii; eassumption|]. now apply C113_extended_parameters.
Qed.
(** a type that is long enough decides itself how it begins *)
Lemma begins main x : lower (strip main) = !"multipart/form-data" -> startswith (main ++ x) !"multipart/" = startswith main !"multipart/".
Proof.
  intros EM. assert (HL : length !"multipart/" <= length main).
  { apply (f_equal (@length N)) in EM. unfold lower in EM. rewrite map_length in EM. pose proof (strip_by_length is_ws main) as HX. unfold strip in EM.
    assert (E10 : length !"multipart/" = 10) by reflexivity. assert (E19 : length !"multipart/form-data" = 19) by reflexivity. unfold str in *. lia. }
  unfold startswith. destruct (prefixb !"multipart/" main) eqn:E.
  - apply prefixb_iff in E as [y ->]. rewrite <- app_assoc. apply prefixb_app.
  - destruct (prefixb !"multipart/" (main ++ x)) eqn:E2; [|reflexivity]. apply prefixb_shorter in E2; [congruence|exact HL].
Qed.

(** ** C159.  Two requests with the same request line, body, Host and Content-Length whose content
    types agree in the media type, the charset and, for a multipart form, the boundary, are parsed
    alike in every respect, whatever other parameters (ordinary or extended) they carry. *)
Theorem C159_other_parameters_partial :
  forall reg n2 mk st s s' r r' w w' main ps main' ps',
    request_init reg st s = Ok r -> request_init reg st s' = Ok r' -> delivers s w -> delivers s' w' -> max_ok (s_hdr st) ->
    w_line w = w_line w' -> w_body w = w_body w' -> agree_on [!"Host"; !"Content-Length"] w w' ->
    typed reg w main ps -> typed reg w' main' ps' -> alike main ps main' ps' ->
    same_outcome same_results (parse reg n2 mk (st, r)) (parse reg n2 mk (st, r')).
Proof.
  intros reg n2 mk st s s' r r' w w' main ps main' ps' Hi Hi' Hw Hw' Hm HL HB HA HT HT' (E1 & E2 & E3).
  pose proof (typed_means reg w main ps ltac:(apply Hw) HT) as HM. pose proof (typed_means reg w' main' ps' ltac:(apply Hw') HT') as HM'. rewrite <- E1 in HM'.
  apply (means_same reg n2 mk st s s' r r' w w' _ _ _ _ _ Hi Hi' Hw Hw' Hm HL HB HA HM HM' E2).
  intros EM. destruct (E3 EM) as [S EB]. split; [|exact EB]. unfold render_pars. rewrite !begins by congruence. exact S.
Qed.
Print Assumptions C159_other_parameters_partial.

(** in particular one parameter more, wherever it stands *)
Lemma last_par_skip n ps p qs : lower (par_name p) <> n -> last_par n (ps ++ p :: qs) = last_par n (ps ++ qs).
Proof.
  intros H. unfold last_par. rewrite !fold_left_app. cbn [fold_left].
  destruct (seqb (lower (par_name p)) n) eqn:E; [now apply seqb_eq in E|reflexivity].
Qed.
Theorem C159_one_more_partial :
  forall reg n2 mk st s s' r r' w w' main ps p qs,
    request_init reg st s = Ok r -> request_init reg st s' = Ok r' -> delivers s w -> delivers s' w' -> max_ok (s_hdr st) ->
    w_line w = w_line w' -> w_body w = w_body w' -> agree_on [!"Host"; !"Content-Length"] w w' ->
    typed reg w main (ps ++ qs) -> typed reg w' main (ps ++ p :: qs) ->
    lower (par_name p) <> !"charset" -> (lower (strip main) = !"multipart/form-data" -> lower (par_name p) <> !"boundary") ->
    same_outcome same_results (parse reg n2 mk (st, r)) (parse reg n2 mk (st, r')).
Proof.
  intros reg n2 mk st s s' r r' w w' main ps p qs Hi Hi' Hw Hw' Hm HL HB HA HT HT' Hc Hb.
  apply (C159_other_parameters_partial reg n2 mk st s s' r r' w w' main (ps ++ qs) main (ps ++ p :: qs)); try assumption.
  split; [reflexivity|]. split; [now rewrite last_par_skip|]. intros E. split; [reflexivity|]. rewrite last_par_skip; [reflexivity|now apply Hb].
Qed.
Print Assumptions C159_one_more_partial.

(** ** C160.  However a client writes the parameters of the content type, with blanks around them and their '=' or
    none, with a semicolon too many at the end or in between, with words among them that are no
    parameters: the request is parsed like the one that lists the same parameters with "; " before each. *)
Theorem C160_as_clients_write :
  forall reg n2 mk st s s' r r' w w' main is_,
    request_init reg st s = Ok r -> request_init reg st s' = Ok r' -> delivers s w -> delivers s' w' -> max_ok (s_hdr st) ->
    w_line w = w_line w' -> w_body w = w_body w' -> agree_on [!"Host"; !"Content-Length"] w w' ->
    RequestSpec.last_value !"Content-Type" w (render_bits main is_) -> RequestSpec.last_value !"Content-Type" w' (render_pars main (given is_)) ->
    ascii_only main = true -> ~ In 59%N main -> ~ In 34%N main -> Forall (bit_good reg) is_ ->
    same_outcome same_results (parse reg n2 mk (st, r)) (parse reg n2 mk (st, r')).
Proof.
  intros reg n2 mk st s s' r r' w w' main is_ Hi Hi' Hw Hw' Hm HL HB HA HT HT' M1 M2 M3 HI.
  assert (HG : Forall (par_good reg) (given is_)) by now apply given_good.
  assert (HM' : means reg w' (render_pars main (given is_)) (lower (strip main)) (fun n => last_par n (given is_))).
  { apply typed_means; [apply Hw'|]. now repeat split. }
  assert (HM : means reg w (render_bits main is_) (lower (strip main)) (fun n => last_par n (given is_))).
  { split; [exact HT|]. split; [apply ascii_text_iff; eapply last_value_ascii; [apply Hw|exact HT]|]. now apply bits_parse. }
  apply (means_same reg n2 mk st s s' r r' w w' _ _ _ _ _ Hi Hi' Hw Hw' Hm HL HB HA HM HM' eq_refl).
  intros EM. split; [|reflexivity]. unfold render_pars, render_bits. now rewrite !begins.
Qed.
Print Assumptions C160_as_clients_write.

(** ** What is missing is not so: a parameter nobody asks for decides when it cannot be decoded. *)
Definition exq_fields (ct : str) : list (str * str) := [(!"Host", !"b"); (!"Content-Length", !"400"); (!"Content-Type", ct)].
Definition exq_src (ct : str) : src := req (ex_line :: map field (exq_fields ct)) exm_body.
Definition exq_wire (ct : str) : wire := mkWire ex_line (map field (exq_fields ct)) (exq_fields ct) exm_body.
Definition exq_post (ct : str) : res unit * option (list str) :=
  let '(x, (st, r)) := run (parse ex_reg no_cp ok_temp) (exm_set (Some 1000%Z)) (exq_src ct) in
  (x, option_map (fun p => match p with PQuery q => [] | PForm d => map fst d end) (r_post r)).
Theorem C159_undecodable_refuted :
  exists reg n2 mk st s s' r r' w w' main ps p,
    request_init reg st s = Ok r /\ request_init reg st s' = Ok r' /\ delivers s w /\ delivers s' w' /\ max_ok (s_hdr st) /\
    w_line w = w_line w' /\ w_body w = w_body w' /\ agree_on [!"Host"; !"Content-Length"] w w' /\
    RequestSpec.last_value !"Content-Type" w (render_pars main ps) /\ RequestSpec.last_value !"Content-Type" w' (render_pars main (ps ++ [p])) /\
    Forall (par_good reg) ps /\ par_name p = !"note" /\
    fst (parse reg n2 mk (st, r)) = Ok tt /\ fst (parse reg n2 mk (st, r')) = Err LookupError.
Proof.
  set (p := Ext !"note" !"klingon" [] !"%41" !"A"). set (ps := [Ord !"boundary" (Tok !"X")]).
  set (main := !"multipart/form-data"). set (st := exm_set (Some 1000%Z)).
  exists ex_reg, no_cp, ok_temp, st, (exq_src (render_pars main ps)), (exq_src (render_pars main (ps ++ [p]))),
    (ex_req st (exq_src (render_pars main ps))), (ex_req st (exq_src (render_pars main (ps ++ [p])))),
    (exq_wire (render_pars main ps)), (exq_wire (render_pars main (ps ++ [p]))), main, ps, p.
  split; [apply ex_req_ok; vm_compute; reflexivity|]. split; [apply ex_req_ok; vm_compute; reflexivity|].
  split; [apply delivers_msg; reflexivity || discriminate|]. split; [apply delivers_msg; reflexivity || discriminate|].
  split; [discriminate|]. split; [reflexivity|]. split; [reflexivity|].
  split; [apply agree_lasts; intros n [<-|[<-|[]]]; reflexivity|].
  split; [now exists []|]. split; [now exists []|].
  split; [repeat constructor|]. split; [reflexivity|]. split; vm_compute; reflexivity.
Qed.
Print Assumptions C159_undecodable_refuted.

(** it is so for every request: the header of none is accepted *)
Lemma qsplit_quiet : forall ts u, Forall (fun t => qend false t = None /\ qodd t = false) ts -> qend false u = None -> qodd u = false ->
  qsplit false (u ++ flat_map (fun t => hsemi :: t) ts) = u :: ts.
Proof.
  induction ts as [|t ts IH]; intros u H H1 H2; cbn [flat_map].
  - rewrite app_nil_r. now apply qsplit_single.
  - inversion H as [|? ? [Q1 Q2] Hps]; subst. cbn [app]. rewrite qsplit_piece by easy. now rewrite IH.
Qed.
Lemma parse_params_fails reg e : forall a x b d, parse_param reg x = Err e -> Forall (fun t => exists nv, parse_param reg t = Ok nv) a ->
  parse_params reg (a ++ x :: b) d = Err e.
Proof.
  induction a as [|t a IH]; intros x b d Hx Ha; cbn [app parse_params]; [now rewrite Hx|].
  inversion Ha as [|? ? [nv Ht] Ha']; subst. rewrite Ht. cbn [bind]. now apply IH.
Qed.
Theorem C159_undecodable_all_refuted :
  forall reg st s r w main ps n cs lang v t, request_init reg st s = Ok r -> delivers s w -> max_ok (s_hdr st) ->
    RequestSpec.last_value !"Content-Type" w (render_pars main (ps ++ [Ext n cs lang v t])) -> ~ In 59%N main -> ~ In 34%N main -> Forall (par_good reg) ps ->
    is_token n = true -> is_token cs = true -> forallb is_token_char lang = true -> forallb is_token_char v = true ->
    reg cs = None -> In 37%N v ->
    fst (parse_request_header reg (st, r)) <> Ok tt.
Proof.
  intros reg st s r w main ps n cs lang v t Hi Hd Hm HT M2 M3 HF Hn Hc Hl Hv Hr Hp HP.
  destruct (parse_request_header reg (st, r)) as [x [st1 r1]] eqn:EP. cbn [fst] in HP. subst x.
  destruct (header_known _ _ _ _ _ _ _ Hi Hd Hm EP) as (l & host & h & c & ch & g & _ & _ & _ & Hg & Ec & _). unfold ctype_of in Ec.
  rewrite (values_header _ w _ h (Hg !"Content-Type" ltac:(discriminate)) HT) in Ec.
  enough (EH : exists e, parse_header reg (render_pars main (ps ++ [Ext n cs lang v t])) = Err e) by (destruct EH as [e EH]; rewrite EH in Ec; discriminate Ec).
  unfold parse_header, render_pars. rewrite parse_header_params_spec.
  replace (flat_map (fun p => !"; " ++ par_text p) (ps ++ [Ext n cs lang v t]))
    with (flat_map (fun t => hsemi :: t) (map (fun p => 32%N :: par_text p) (ps ++ [Ext n cs lang v t]))) by (generalize (ps ++ [Ext n cs lang v t]); intros qs; induction qs as [|q qs IH]; [reflexivity|]; cbn [map flat_map]; now rewrite IH).
  rewrite qsplit_quiet; [|rewrite map_app; apply Forall_app; split; [|constructor; [now apply ext_quiet|constructor]]|now apply qend_none|now apply qodd_notin].
  2:{ apply Forall_map. eapply Forall_impl; [|exact HF]. intros p. apply par_quiet. }
  cbn [map]. destruct (decode_ascii (lower (strip main))) as [k|e]; [|now exists e]. cbn [bind].
  rewrite !map_app. cbn [map]. rewrite (parse_params_fails reg LookupError); [now exists LookupError| |].
  - rewrite parse_ext_eq by assumption. unfold unquote. replace (mem percent v) with true by (symmetry; now apply mem_In). now rewrite Hr.
  - rewrite map_map. apply Forall_map. eapply Forall_impl; [|exact HF]. intros p Hgood. eexists. now apply parse_par.
Qed.
Print Assumptions C159_undecodable_all_refuted.

(** the same form with and without a note in two notations *)
Definition exq_ps : list par := [Ord !"boundary" (Tok !"X")].
Definition exq_qs : list par := [Ord !"Note" (Quo !"a b"); Ord !"boundary" (Tok !"X"); Ext !"note" !"utf-8" !"en" !"%41" !"A"].
Example C159_case :
  delivers (exq_src (render_pars !"multipart/form-data" exq_ps)) (exq_wire (render_pars !"multipart/form-data" exq_ps)) /\
  delivers (exq_src (render_pars !"multipart/form-data" exq_qs)) (exq_wire (render_pars !"multipart/form-data" exq_qs)) /\
  typed ex_reg (exq_wire (render_pars !"multipart/form-data" exq_ps)) !"multipart/form-data" exq_ps /\
  typed ex_reg (exq_wire (render_pars !"multipart/form-data" exq_qs)) !"multipart/form-data" exq_qs /\
  alike !"multipart/form-data" exq_ps !"multipart/form-data" exq_qs /\
  last_par !"note" exq_ps = None /\ (exists v, last_par !"note" exq_qs = Some v) /\
  exq_post (render_pars !"multipart/form-data" exq_ps) = (Ok tt, Some [!"a b"]) /\
  exq_post (render_pars !"multipart/form-data" exq_qs) = (Ok tt, Some [!"a b"]).
Proof.
  split; [apply delivers_msg; reflexivity || discriminate|]. split; [apply delivers_msg; reflexivity || discriminate|].
  split; [split; [now exists []|]; split; [reflexivity|]; split; [cbn; lia|]; split; [cbn; lia|]; repeat constructor|].
  split.
  { split; [now exists []|]. split; [reflexivity|]. split; [cbn; lia|]. split; [cbn; lia|]. do 2 (apply Forall_cons; [repeat constructor|]). apply Forall_cons; [|apply Forall_nil].
    cbn [par_good]. split; [reflexivity|]. split; [reflexivity|]. split; [reflexivity|]. split; [reflexivity|]. split.
    - exists (utf8 (fun s => s)), !"A". split; [reflexivity|]. split; [apply utf8_ok|]. split; [reflexivity|]. apply (pct_hex 52 49 4 1)%N; [now left|now left|constructor].
    - intros [v E]. destruct v; discriminate E. }
  split; [repeat split|]. split; [reflexivity|]. split; [now eexists|]. split; vm_compute; reflexivity.
Qed.

(** the form written with no blanks, blanks, an empty piece, a word and a last semicolon *)
Definition exq_bits : list bit := [Stray []; Given [] (Ord !"charset" (Tok !"utf-8")) !" "; Stray !" form"; Wide !"  " !"Boundary" !" " !" " (Quo !"X") []; Stray []].
Example C160_case :
  render_bits !"multipart/form-data" exq_bits = !"multipart/form-data;;charset=utf-8 ; form;  Boundary = ""X"";" /\
  render_pars !"multipart/form-data" (given exq_bits) = !"multipart/form-data; charset=utf-8; Boundary=""X""" /\
  delivers (exq_src (render_bits !"multipart/form-data" exq_bits)) (exq_wire (render_bits !"multipart/form-data" exq_bits)) /\
  RequestSpec.last_value !"Content-Type" (exq_wire (render_bits !"multipart/form-data" exq_bits)) (render_bits !"multipart/form-data" exq_bits) /\
  Forall (bit_good ex_reg) exq_bits /\
  exq_post (render_bits !"multipart/form-data" exq_bits) = (Ok tt, Some [!"a b"]) /\
  exq_post (render_pars !"multipart/form-data" (given exq_bits)) = (Ok tt, Some [!"a b"]).
Proof.
  split; [reflexivity|]. split; [reflexivity|]. split; [apply delivers_msg; reflexivity || discriminate|]. split; [now exists []|].
  split.
  { repeat apply Forall_cons; try apply Forall_nil; cbn [bit_good];
      try (repeat split; cbn; intros H; repeat destruct H as [H|H]; easy || discriminate H); try (split; [reflexivity|]; split; [repeat constructor|reflexivity]); (repeat (split; [reflexivity|]); repeat constructor). }
  split; vm_compute; reflexivity.
Qed.
