(** * C125: a content type may be spelled in any way *)
From Coq Require Import ZifyBool ZifyN ZifyNat.
From Verif Require Import Py Spec HeadSpec PyFacts PyDict StreamModel StreamSpec StreamFacts StreamCalm CodecModel PercentModel
  QueryModel HeadModel HeadFacts UrlFacts HeaderModel HeaderSpec HeaderFacts BoundaryModel UploadModel MultipartModel FormSpec ReaderSim
  RequestModel RequestSpec HeaderRun BodyRun ParseRun RequestMulti TwinFacts PropsHead PropsPart PropsMultipart PropsRequest PropsBody PropsEnd PropsSame.

(** [t] and [ps]: a media type with its parameters as they are written *)
Definition written_type (t : str) (ps : list (str * pval)) : Prop := ~ In 59%N t /\ ~ In 34%N t /\ good_params ps.
(** two writings of the same: the case of the type and of the names, blanks, quotation marks and the order make no difference *)
Definition same_type (t : str) (ps : list (str * pval)) (t' : str) (ps' : list (str * pval)) : Prop :=
  lower (strip t) = lower (strip t') /\ forall n, HeaderSpec.last_value n ps = HeaderSpec.last_value n ps'.

Lemma type_parses reg w t ps : wire_ok w -> RequestSpec.last_value !"Content-Type" w (render t ps) -> written_type t ps ->
  ascii_only (render t ps) = true /\
  exists d, parse_header reg (render t ps) = Ok (lower (strip t), d) /\ forall n, dget n d = option_map PB (HeaderSpec.last_value n ps).
Proof.
  intros Hw HT (M2 & M3 & Hps). assert (HA : ascii_only (render t ps) = true) by (apply ascii_text_iff; eapply last_value_ascii; eassumption).
  split; [exact HA|]. apply C19_header_roundtrip_partial; try assumption. unfold render in HA. rewrite ascii_only_app in HA. now apply andb_true_iff in HA.
Qed.
Lemma prefixb_shorter (p : str) : forall t u, length p <= length t -> prefixb p (t ++ u) = true -> prefixb p t = true.
Proof.
  induction p as [|c p IH]; intros [|d t] u HL; cbn in *; try easy; try lia. intros [E HP]%andb_true_iff. rewrite E. cbn. apply (IH t u); [lia|exact HP].
Qed.
Lemma header_of n d w v : fields_of w d -> RequestSpec.last_value n w v -> header n d = Some v.
Proof. intros Hd HL. now apply (header_last n d w (Hd n)). Qed.

Lemma type_heads (H : headers -> headers -> Prop) reg w w' t ps t' ps' : wire_ok w -> wire_ok w' -> agree_on [!"Host"] w w' ->
  RequestSpec.last_value !"Content-Type" w (render t ps) -> RequestSpec.last_value !"Content-Type" w' (render t' ps') ->
  written_type t ps -> written_type t' ps' -> same_type t ps t' ps' ->
  (forall d d', fields_of w d -> fields_of w' d' -> H d d' /\ H (ddel !"Host" d) (ddel !"Host" d')) ->
  forall mu l d d', fields_of w d -> fields_of w' d' ->
    (mu = false -> forall host h c ch, pick_host l d = Ok (host, h) -> ctype_of reg h = Ok (c, ch) -> c <> Some CT_MULTI) -> heads_like H mu reg l d d'.
Proof.
  intros Hw Hw' HA HT HT' Wt Wt' [E1 E2] HH mu l d d' Hd Hd' Hc.
  destruct (type_parses reg w t ps Hw HT Wt) as (_ & e & P & G). destruct (type_parses reg w' t' ps' Hw' HT' Wt') as (_ & e' & P' & G').
  assert (HC : forall h h', header !"Content-Type" h = Some (render t ps) -> header !"Content-Type" h' = Some (render t' ps') -> ctype_of reg h = ctype_of reg h').
  { intros h h' K K'. unfold ctype_of. rewrite K, K', P, P'. cbn [bind fst snd]. now rewrite G, G', E1, E2. }
  pose proof (header_of _ d w _ Hd HT) as K. pose proof (header_of _ d' w' _ Hd' HT') as K'. destruct (HH d d' Hd Hd') as [I1 I2].
  unfold heads_like. unfold pick_host in *. destruct (nonempty (rl_domain l)).
  - split; [reflexivity|]. split; [exact I1|]. split; [now apply HC|]. intros Hm c ch. now apply (Hc Hm _ _ c ch eq_refl).
  - rewrite <- (header_agree !"Host" d d' w w' [!"Host"] ltac:(now left) HA (Hd _) (Hd' _)). destruct (header !"Host" d) as [v|]; [|reflexivity].
    split; [reflexivity|]. split; [exact I2|]. split; [apply HC; rewrite header_ddel by discriminate; assumption|].
    intros Hm c ch. now apply (Hc Hm _ _ c ch eq_refl).
Qed.

Definition same_measure (reg : registry) (h h' : headers) : Prop :=
  mp_init reg (header !"Content-Type" h) (header !"Content-Length" h) = mp_init reg (header !"Content-Type" h') (header !"Content-Length" h').
Lemma type_measure reg w w' t ps t' ps' : wire_ok w -> wire_ok w' -> agree_on [!"Host"; !"Content-Length"] w w' ->
  RequestSpec.last_value !"Content-Type" w (render t ps) -> RequestSpec.last_value !"Content-Type" w' (render t' ps') ->
  written_type t ps -> written_type t' ps' -> same_type t ps t' ps' ->
  startswith t !"multipart/" = true -> startswith t' !"multipart/" = true ->
  forall d d', fields_of w d -> fields_of w' d' -> same_measure reg d d'.
Proof.
  intros Hw Hw' HA HT HT' Wt Wt' [E1 E2] S S' d d' Hd Hd'. unfold same_measure.
  rewrite (header_of _ d w _ Hd HT), (header_of _ d' w' _ Hd' HT').
  rewrite (header_agree !"Content-Length" d d' w w' [!"Host"; !"Content-Length"] ltac:(right; now left) HA (Hd _) (Hd' _)).
  destruct (type_parses reg w t ps Hw HT Wt) as (A & e & P & G). destruct (type_parses reg w' t' ps' Hw' HT' Wt') as (A' & e' & P' & G').
  assert (K : forall t ps, startswith t !"multipart/" = true -> startswith (render t ps) !"multipart/" = true).
  { intros t0 ps0 Hs. unfold render, startswith in *. apply prefixb_iff in Hs as [x ->]. rewrite <- app_assoc. apply prefixb_app. }
  unfold mp_init. rewrite (K t ps S), (K t' ps' S'), A, A', P, P'. cbn [negb bind snd]. now rewrite G, G', E2.
Qed.

(** ** C125.  Two requests with the same request line, the same body, the same Host and
    Content-Length, whose Content-Type values are two writings of the same type and parameters, are
    parsed alike in every respect: same answer or exception, same attributes, GET, POST, FILES and
    body.  A multipart type has to begin with 'multipart/' in small letters in both. *)
Theorem C125_spelling_partial :
  forall reg n2 mk st s s' r r' w w' t ps t' ps',
    request_init reg st s = Ok r -> request_init reg st s' = Ok r' -> delivers s w -> delivers s' w' -> max_ok (s_hdr st) ->
    w_line w = w_line w' -> w_body w = w_body w' -> agree_on [!"Host"; !"Content-Length"] w w' ->
    RequestSpec.last_value !"Content-Type" w (render t ps) -> RequestSpec.last_value !"Content-Type" w' (render t' ps') ->
    written_type t ps -> written_type t' ps' -> same_type t ps t' ps' ->
    (lower (strip t) = !"multipart/form-data" -> startswith t !"multipart/" = true /\ startswith t' !"multipart/" = true) ->
    same_outcome same_results (parse reg n2 mk (st, r)) (parse reg n2 mk (st, r')).
Proof.
  intros reg n2 mk st s s' r r' w w' t ps t' ps' Hi Hi' Hw Hw' Hm HL HB HA HT HT' Wt Wt' HS HM.
  assert (Ow : wire_ok w) by apply Hw. assert (Ow' : wire_ok w') by apply Hw'.
  assert (HA1 : agree_on [!"Host"] w w') by (intros n v [<-|[]]; apply HA; now left).
  destruct (seqb (lower (strip t)) !"multipart/form-data") eqn:EM.
  - apply seqb_eq in EM. destruct (HM EM) as [S S'].
    apply (same_heads (same_measure reg) true reg n2 mk st s s' r r' w w' Hi Hi' Hw Hw' Hm HL HB); [|intros _ h h' Hh; exact Hh|easy].
    apply (type_heads _ reg w w' t ps t' ps'); try assumption. intros d d' Hd Hd'.
    pose proof (type_measure reg w w' t ps t' ps' Ow Ow' HA HT HT' Wt Wt' HS S S' d d' Hd Hd') as HX. split; [exact HX|].
    unfold same_measure in *. now rewrite !header_ddel by discriminate.
  - apply (same_heads (fun _ _ => True) false reg n2 mk st s s' r r' w w' Hi Hi' Hw Hw' Hm HL HB); [|easy|].
    + apply (type_heads _ reg w w' t ps t' ps'); try assumption. easy.
    + intros _ st1 r1 HP. destruct (header_known _ _ _ _ _ _ _ Hi Hw Hm HP) as (l & host & h & c & ch & g & El & Ea & Eme & Hg & Ec & _).
      rewrite Ea. cbn [a_ctype line_attrs]. intros K. assert (c = Some CT_MULTI) as -> by congruence.
      destruct (type_parses reg w t ps Ow HT Wt) as (_ & e & P & G). unfold ctype_of in Ec.
      rewrite (values_header _ w _ h (Hg !"Content-Type" ltac:(discriminate)) HT), P in Ec. cbn [bind fst snd] in Ec.
      assert (Ek : lower (strip t) = CT_MULTI) by congruence. rewrite Ek in EM. discriminate EM.
Qed.
Print Assumptions C125_spelling_partial.

(** What is missing is not so: a form whose type is 'multipart/form-data' in other letters is taken
    for one by request.py, which lowers the type, and then refused by multipartparser.py, which does
    not: every such request with a body ends in a MultiPartParserError. *)
Theorem C125_multipart_letters_refuted :
  forall reg n2 mk st s r w st1 r1 t ps m, request_init reg st s = Ok r -> delivers s w -> max_ok (s_hdr st) ->
    parse_request_header reg (st, r) = (Ok tt, (st1, r1)) -> settings_ok reg (s_multi st1) m ->
    RequestSpec.last_value !"Content-Type" w (render t ps) -> written_type t ps ->
    lower (strip t) = !"multipart/form-data" -> startswith t !"multipart/" = false -> w_body w <> [] ->
    fst (parse reg n2 mk (st, r)) = Err MultiPartParserError.
Proof.
  intros reg n2 mk st s r w st1 r1 t ps m Hi Hd Hm HP Hset HT Wt EM HN Hb0.
  pose proof (header_ready _ _ _ _ _ _ _ Hi Hd Hm HP) as R. destruct R.
  destruct (header_known _ _ _ _ _ _ _ Hi Hd Hm HP) as (l & host & h & c & ch & g & El & Ea & Eme & Hg & Ec & _).
  destruct (type_parses reg w t ps ltac:(apply Hd) HT Wt) as (_ & e & P & G). unfold ctype_of in Ec.
  pose proof (values_header _ w _ h (Hg !"Content-Type" ltac:(discriminate)) HT) as EH.
  rewrite EH, P in Ec. cbn [bind fst snd] in Ec. rewrite EM in Ec.
  unfold parse, mbind. rewrite HP.
  destruct (parse_body_some reg n2 mk 3 st1 r1 _ rd_bp rd_hp rd_stream ltac:(lia) Hb0) as (s2 & HA2 & ->).
  apply (finish_multi_err reg n2 mk st1 (set_stream s2 (at_body st1 r1)) (Some (rl_query l)) h).
  - change (a_ctype (r_attrs r1) = Some (Some CT_MULTI)). rewrite Ea. cbn [a_ctype line_attrs]. injection Ec as <- _. reflexivity.
  - exact Eme.
  - intros _. now apply (settings_post _ _ m).
  - left. unfold mp_init. rewrite EH. replace (startswith (render t ps) !"multipart/") with false; [reflexivity|]. symmetry.
    destruct (startswith (render t ps) !"multipart/") eqn:ES; [|reflexivity]. exfalso.
    enough (K : startswith t !"multipart/" = true) by (rewrite K in HN; discriminate HN). clear - ES EM.
    assert (HL : length !"multipart/" <= length t).
    { apply (f_equal (@length N)) in EM. unfold lower in EM. rewrite map_length in EM. pose proof (strip_by_length is_ws t) as HX. unfold strip in EM.
      assert (E10 : length !"multipart/" = 10) by reflexivity. assert (E19 : length !"multipart/form-data" = 19) by reflexivity. unfold str in *. lia. }
    unfold startswith, render in *. eapply prefixb_shorter; eassumption.
Qed.
Print Assumptions C125_multipart_letters_refuted.

(** the same form sent three ways: the usual one, one with other letters, blanks, quotation marks and another order, and one with a capital M *)
Definition exd_p1 : list (str * pval) := [(!"boundary", Tok !"X"); (!"charset", Tok !"utf-8")].
Definition exd_p2 : list (str * pval) := [(!"Charset", Quo !"utf-8"); (!"BOUNDARY", Quo !"X")].
Definition exd_fields (t : str) ps : list (str * str) := [(!"Host", !"b"); (!"Content-Length", !"400"); (!"Content-Type", render t ps)].
Definition exd_src (t : str) ps : src := req (ex_line :: map field (exd_fields t ps)) exm_body.
Definition exd_wire (t : str) ps : wire := mkWire ex_line (map field (exd_fields t ps)) (exd_fields t ps) exm_body.
Definition exd_post (t : str) ps : res unit * option (list str) :=
  let '(x, (st, r)) := run (parse ex_reg no_cp ok_temp) (exm_set (Some 1000%Z)) (exd_src t ps) in
  (x, option_map (fun p => match p with PQuery q => [] | PForm d => map fst d end) (r_post r)).
Lemma exd_same : same_type !"multipart/form-data" exd_p1 !"multipart/FORM-Data " exd_p2.
Proof.
  split; [reflexivity|]. intros n. unfold exd_p1, exd_p2, HeaderSpec.last_value. cbn [fold_left fst snd pval_of].
  change (lower !"Charset") with !"charset". change (lower !"charset") with !"charset".
  change (lower !"BOUNDARY") with !"boundary". change (lower !"boundary") with !"boundary".
  destruct (seqb !"boundary" n) eqn:E1, (seqb !"charset" n) eqn:E2; try reflexivity. apply seqb_eq in E1, E2. subst n. discriminate E2.
Qed.
Example C125_case :
  delivers (exd_src !"multipart/form-data" exd_p1) (exd_wire !"multipart/form-data" exd_p1) /\
  delivers (exd_src !"multipart/FORM-Data " exd_p2) (exd_wire !"multipart/FORM-Data " exd_p2) /\
  agree_on [!"Host"; !"Content-Length"] (exd_wire !"multipart/form-data" exd_p1) (exd_wire !"multipart/FORM-Data " exd_p2) /\
  written_type !"multipart/form-data" exd_p1 /\ written_type !"multipart/FORM-Data " exd_p2 /\
  same_type !"multipart/form-data" exd_p1 !"multipart/FORM-Data " exd_p2 /\
  exd_post !"multipart/form-data" exd_p1 = (Ok tt, Some [!"a b"]) /\ exd_post !"multipart/FORM-Data " exd_p2 = (Ok tt, Some [!"a b"]) /\
  exd_post !"Multipart/form-data" exd_p1 = (Err MultiPartParserError, Some []).
Proof.
  split; [apply delivers_msg; reflexivity || discriminate|]. split; [apply delivers_msg; reflexivity || discriminate|].
  split; [apply agree_lasts; intros n [<-|[<-|[]]]; reflexivity|].
  split; [split; [cbn; lia|]; split; [cbn; lia|]; repeat constructor|].
  split; [split; [cbn; lia|]; split; [cbn; lia|]; repeat constructor|].
  split; [exact exd_same|]. split; [vm_compute; reflexivity|]. split; vm_compute; reflexivity.
Qed.
