(** * Claims about whole requests, from the bytes on the wire to GET, POST and FILES: C77-C83 *)
From Coq Require Import ZifyBool ZifyN ZifyNat.
From Verif Require Import Py Spec HeadSpec PyFacts PyDict StreamModel StreamSpec StreamFacts StreamCalm CodecModel CodecFacts PercentModel
  QueryModel QuerySpec QueryFacts HeadModel HeadFacts UrlFacts HeaderModel HeaderSpec HeaderFacts BoundaryModel BoundarySpec PartFacts
  UploadModel UploadFacts MultipartModel MultipartSem MultipartFacts MultipartSpec MultipartDet FormSpec FormFacts BodySpec HeadLineFacts ItemFacts BodyFacts
  PropsData PropsPart PropsMultipart PropsHead RequestModel RequestSpec HeaderRun BodyRun TapeFacts ParseRun RequestRel PropsRequest PropsBody RequestMulti.

Local Arguments querydict : simpl never.
Local Arguments decode : simpl never.

(** ** What a successful parse_request_header stores *)
Lemma values_header n w v (h : headers) :
  dget n h = match values_named n (w_fields w) with [] => None | vs => Some vs end ->
  RequestSpec.last_value n w v -> header n h = Some v.
Proof.
  intros Hg [pre Hv]. unfold header. rewrite Hg, Hv. destruct (pre ++ [v]) as [|x l] eqn:E; [now destruct pre|].
  cbn [option_map]. rewrite <- E. now rewrite last_val.
Qed.
Lemma header_known reg st s r w st1 r1 : request_init reg st s = Ok r -> delivers s w -> max_ok (s_hdr st) ->
  parse_request_header reg (st, r) = (Ok tt, (st1, r1)) ->
  exists l host h c ch g, parse_request_line (w_line w) = Ok l /\ r_attrs r1 = line_attrs l host (Some c) /\
    r_meta r1 = Some (mkMeta (Some (rl_query l)) (Some h)) /\
    (forall n, n <> !"Host" -> dget n h = match values_named n (w_fields w) with [] => None | vs => Some vs end) /\
    ctype_of reg h = Ok (c, ch) /\ st1 = charset_after ch st /\
    query_of reg st1 (rl_query l) = Ok g /\ r_get r1 = Some g.
Proof.
  intros Hi Hd Hm. destruct (parse_wire reg st s r w Hi Hd Hm) as (q & s1 & d & Hr & HA & Hwf & Hg & HP).
  rewrite HP. cbn zeta. destruct (parse_request_line (w_line w)) as [l|e]; [|easy]. rewrite populate_eq.
  destruct (pick_host l d) as [[host h]|e] eqn:EH; [|easy].
  destruct (ctype_of reg h) as [[c ch]|e] eqn:EC; [|easy]. cbn [r_meta set_flags set_stream fresh].
  destruct (query_of reg (charset_after ch st) (rl_query l)) as [g|e] eqn:EQ; [|easy].
  intros [= <- <-]. exists l, host, h, c, ch, g.
  split; [reflexivity|]. split; [now destruct ch|]. split; [now destruct ch|]. split.
  { intros n Hn. rewrite <- Hg. unfold pick_host in EH. destruct (nonempty (rl_domain l)); [now injection EH as _ <-|].
    destruct (header !"Host" d); [|easy]. injection EH as _ <-. now apply ddel_get_other. }
  split; [exact EC|]. split; [reflexivity|]. split; [exact EQ|]. now destruct ch.
Qed.

(** ** C77.  The attributes are the components of the request line, GET the pairs of the query. *)
(** a request target and its components: an absolute URL or a path with a query *)
Inductive target (url : str) (u : parse_result) : Prop :=
| target_absolute : url = compose u -> ascii_text url -> good_parts u -> target url u
| target_origin path q f : u = mkParse [] [] path [] q f -> url = path ++ with_delim !"?" q ++ with_delim !"#" f ->
    ascii_text url -> (exists t, path = 47%N :: t /\ startswith t !"/" = false) ->
    (forall c, In c path -> c <> 63%N /\ c <> 35%N /\ c <> 59%N) -> ~ In 35%N q -> target url u.
Lemma target_parse url u : target url u -> urlparse url = Ok u.
Proof.
  intros [-> HA HG|path q f -> -> HA H1 H2 H3]; [now apply C12_absolute_url_components|now apply C12_origin_url_components].
Qed.
Definition request_line (w : wire) (m url v : str) : Prop :=
  w_line w = m ++ [32%N] ++ url ++ [32%N] ++ v /\ ~ In 32%N m /\ ~ In 32%N url /\ ~ In 32%N v.
Lemma line_parts w m url v u l : request_line w m url v -> target url u -> parse_request_line (w_line w) = Ok l ->
  rl_method l = m /\ rl_proto l = v /\ rl_scheme l = up_scheme u /\ rl_domain l = up_netloc u /\ rl_path l = up_path u /\
  rl_query l = up_query u.
Proof.
  intros (Hl & H1 & H2 & H3) HT El. pose proof (C11_method_and_version_verbatim m url v H1 H2 H3) as HL.
  rewrite (target_parse _ _ HT) in HL. rewrite <- Hl, El in HL. destruct HL as (Em & Ev & HU). injection HU as HU.
  destruct u as [sc nl pa pr qu fr]. cbn [up_scheme up_netloc up_path up_params up_query up_fragment] in *.
  now injection HU as <- <- <- _ <- _.
Qed.

Theorem C77_line_attributes :
  forall reg st s r w m url v u st1 r1, request_init reg st s = Ok r -> delivers s w -> max_ok (s_hdr st) ->
    request_line w m url v -> target url u -> parse_request_header reg (st, r) = (Ok tt, (st1, r1)) ->
    a_method (r_attrs r1) = Some (Some m) /\ a_proto (r_attrs r1) = Some (Some v) /\ a_path (r_attrs r1) = Some (Some (up_path u)) /\
    a_scheme (r_attrs r1) = Some (Some (match up_scheme u with [] => !"UNKNOWN" | sc => lower sc end)) /\
    get_query r1 = Ok (up_query u).
Proof.
  intros reg st s r w m url v u st1 r1 Hi Hd Hm HL HT HP.
  destruct (header_known _ _ _ _ _ _ _ Hi Hd Hm HP) as (l & host & h & c & ch & g & El & Ea & Eme & _).
  destruct (line_parts _ _ _ _ _ _ HL HT El) as (<- & <- & Es & _ & <- & Eq). rewrite Ea. unfold get_query. rewrite Eme.
  cbn [line_attrs a_method a_proto a_path a_scheme m_query]. rewrite Eq. repeat split. unfold scheme_of. rewrite Es.
  now destruct (up_scheme u).
Qed.
Print Assumptions C77_line_attributes.

Theorem C77_get_pairs :
  forall reg st s r w m url v u st1 r1 c, request_init reg st s = Ok r -> delivers s w -> max_ok (s_hdr st) ->
    request_line w m url v -> target url u -> parse_request_header reg (st, r) = (Ok tt, (st1, r1)) ->
    reg (s_charset st1) = Some c -> codec_ok c -> match s_dnum st with Some z => (z = 0)%Z | None => True end ->
    exists g ps rs, r_get r1 = Some g /\ pieces (up_query u) ps /\ Forall2 (field_pair c true) ps rs /\
      forall k, q_list k g = map PU (map snd (filter (fun e => seqb (fst e) k) (concat rs))).
Proof.
  intros reg st s r w m url v u st1 r1 c Hi Hd Hm HL HT HP Hc Hok Hn.
  destruct (header_known _ _ _ _ _ _ _ Hi Hd Hm HP) as (l & host & h & ct & ch & g & El & _ & _ & _ & _ & Est & Eg & Er).
  destruct (line_parts _ _ _ _ _ _ HL HT El) as (_ & _ & _ & _ & _ & Eq). rewrite Eq in Eg. clear Eq.
  assert (Hdn : s_dnum st1 = s_dnum st) by (rewrite Est; now destruct ch).
  assert (HA : ascii_only (up_query u) = true).
  { apply ascii_text_iff. intros x Hx. destruct HT as [E HA _|path q f -> E HA _ _ _]; apply HA; rewrite E.
    - unfold compose. rewrite !in_app_iff. do 6 right. left. destruct (up_query u); [easy|]. cbn. now right.
    - rewrite !in_app_iff. right. left. cbn in Hx. destruct q; [easy|]. cbn. now right. }
  destruct (C41_querydict reg (mkQS (s_charset st1) (s_dnum st1)) c (up_query u) (negb (nonempty (up_query u))) Hc Hok) as (q & ps & rs & EQ & Hps & HF & _ & HK).
  { cbn. now rewrite Hdn. }
  rewrite (cok_dec_ascii c Hok _ HA) in Hps. exists q, ps, rs. split; [|split; [exact Hps|split; [exact HF|]]].
  - rewrite Er. f_equal. unfold query_of, s_query in Eg. destruct (up_query u) as [|x t]; cbn [nonempty negb] in *; [|congruence].
    assert (EN : querydict reg (Some (mkQS (s_charset st1) (s_dnum st1))) None true = querydict reg (Some (mkQS (s_charset st1) (s_dnum st1))) (Some (PB [])) true) by reflexivity.
    congruence.
  - intros k. apply HK.
Qed.
Print Assumptions C77_get_pairs.
(** more fields than DATA_UPLOAD_MAX_NUMBER_FIELDS: the header is refused *)
Theorem C77_get_limit :
  forall reg st s r w m url v u z, request_init reg st s = Ok r -> delivers s w -> max_ok (s_hdr st) ->
    request_line w m url v -> target url u -> s_dnum st = Some z -> (0 < z)%Z -> up_query u <> [] -> ascii_text (up_query u) ->
    (z <= Z.of_nat (separators (up_query u)))%Z -> (forall cs c, reg cs = Some c -> codec_ok c) ->
    fst (parse_request_header reg (st, r)) <> Ok tt.
Proof.
  intros reg st s r w m url v u z Hi Hd Hm HL HT Hdn Hz Hq HA Hsep Hreg HP.
  destruct (parse_request_header reg (st, r)) as [x [st1 r1]] eqn:E. cbn [fst] in HP. subst x.
  destruct (header_known _ _ _ _ _ _ _ Hi Hd Hm E) as (l & host & h & ct & ch & g & El & _ & _ & _ & _ & Est & Eg & Er).
  destruct (line_parts _ _ _ _ _ _ HL HT El) as (_ & _ & _ & _ & _ & Eq). rewrite Eq in Eg. clear Eq.
  assert (Hdn1 : s_dnum st1 = Some z) by (rewrite Est, <- Hdn; now destruct ch).
  unfold query_of in Eg. destruct (up_query u) as [|x t] eqn:Eu; [easy|]. cbn [nonempty] in Eg.
  unfold querydict, s_query in Eg. cbn [qs_charset qs_limit pnonempty pchars nonempty] in Eg.
  unfold query_text in Eg. cbn [pchars] in Eg. unfold decode in Eg. destruct (reg (s_charset st1)) as [c|] eqn:Ec; [|easy].
  apply ascii_text_iff in HA. rewrite (cok_dec_ascii c (Hreg _ _ Ec) _ HA) in Eg. cbn [bind] in Eg.
  rewrite Hdn1 in Eg. rewrite (proj1 (C42_limit_exact reg (x :: t) true (s_charset st1) z Hz)) in Eg by lia. easy.
Qed.
Print Assumptions C77_get_limit.
(** the QueryDict of a query cannot be changed, but that of no query can *)
Theorem C77_get_immutable :
  forall reg st s r w m url v u st1 r1, request_init reg st s = Ok r -> delivers s w -> max_ok (s_hdr st) ->
    request_line w m url v -> target url u -> parse_request_header reg (st, r) = (Ok tt, (st1, r1)) -> up_query u <> [] ->
    exists g, r_get r1 = Some g /\ q_mut g = false.
Proof.
  intros reg st s r w m url v u st1 r1 Hi Hd Hm HL HT HP Hq.
  destruct (header_known _ _ _ _ _ _ _ Hi Hd Hm HP) as (l & host & h & ct & ch & g & El & _ & _ & _ & _ & _ & Eg & Er).
  destruct (line_parts _ _ _ _ _ _ HL HT El) as (_ & _ & _ & _ & _ & Eq). rewrite Eq in Eg. exists g. split; [exact Er|].
  unfold query_of in Eg. destruct (up_query u) as [|x t]; [easy|]. cbn [nonempty] in Eg. unfold querydict in Eg.
  destruct (query_text _ _ _) as [tx|e]; [|easy]. cbn [bind] in Eg. destruct (limited_parse_qsl _ _ _ _ _) as [ps|e]; [|easy]. cbn [bind] in Eg.
  destruct (q_fill reg ps _) as [[u0|e] q0]; [|easy]. now injection Eg as <-.
Qed.
Print Assumptions C77_get_immutable.
Theorem C77_get_mutable_refuted :
  exists st line, let '(x, (_, r)) := run hdr st (req [line; !"Host: a"] []) in
    x = Ok tt /\ exists g, r_get r = Some g /\ q_mut g = true.
Proof. exists ex_set, !"GET / HTTP/1.1". vm_compute. split; [reflexivity|]. eexists. split; reflexivity. Qed.
Print Assumptions C77_get_mutable_refuted.
Example C77_case :
  (let '(x, (_, r)) := run hdr ex_set (req [!"PUT /a/b?x=1&y=%41+b&x=2#f HTTP/1.0"; !"Host: h"] []) in
   x = Ok tt /\ a_method (r_attrs r) = Some (Some !"PUT") /\ a_path (r_attrs r) = Some (Some !"/a/b") /\
   get_query r = Ok !"x=1&y=%41+b&x=2" /\
   exists g, r_get r = Some g /\ q_list !"x" g = [PU !"1"; PU !"2"] /\ q_list !"y" g = [PU !"A b"]) /\
  target !"/a/b?x=1&y=%41+b&x=2#f" (mkParse [] [] !"/a/b" [] !"x=1&y=%41+b&x=2" !"f").
Proof.
  split.
  - vm_compute. split; [reflexivity|]. split; [reflexivity|]. split; [reflexivity|]. split; [reflexivity|].
    eexists. split; [reflexivity|]. split; reflexivity.
  - eapply target_origin; try reflexivity.
    + apply ascii_text_iff. reflexivity.
    + exists !"a/b". split; reflexivity.
    + intros c Hc. cbn in Hc. repeat (destruct Hc as [<-|Hc]; [now repeat split|]). destruct Hc.
    + intros Hc. cbn in Hc. repeat (destruct Hc as [Hc|Hc]; [discriminate Hc|]). destruct Hc.
Qed.

(** ** C78.  Bodies that are not forms: parse() keeps them as text. *)
Theorem C78_text_body :
  forall reg n2 mk st s r w st1 r1 c t q, request_init reg st s = Ok r -> delivers s w -> max_ok (s_hdr st) ->
    parse_request_header reg (st, r) = (Ok tt, (st1, r1)) -> a_ctype (r_attrs r1) = Some c ->
    c <> Some !"application/x-www-form-urlencoded" -> c <> Some !"multipart/form-data" ->
    w_body w <> [] -> fits (length (w_body w)) (s_dmem st) ->
    querydict reg (Some (mkQS (s_charset st1) (s_dnum st))) None false = Ok q ->
    decode reg (s_charset st1) (w_body w) = Ok t ->
    exists r2, parse reg n2 mk (st, r) = (Ok tt, (st1, r2)) /\ r_post r2 = Some (PQuery q) /\ r_files r2 = Some [] /\
      body reg (st1, r2) = (Ok (PU t), (st1, r2)).
Proof.
  intros reg n2 mk st s r w st1 r1 c t q Hi Hd Hm HP Hc Hc1 Hc2 Hb Hf Hq Ht. pose proof (header_ready _ _ _ _ _ _ _ Hi Hd Hm HP) as R.
  destruct (ready_set _ _ _ _ _ R) as (_ & Hdm1 & _ & Hdn & Hh). destruct R.
  assert (Hif : is_form c = false).
  { unfold is_form. destruct c as [c|]; [|reflexivity]. apply orb_false_iff. split; apply seqb_neq; intros ->; [apply Hc1|apply Hc2]; reflexivity. }
  unfold parse, mbind. rewrite HP.
  destruct (parse_body_some reg n2 mk 3 st1 r1 _ rd_bp rd_hp rd_stream ltac:(lia) Hb) as (s2 & HA2 & ->).
  unfold fits in Hf. destruct (s_dmem st) as [m|] eqn:Em; [|easy].
  destruct (finish_other reg n2 mk 5 st1 (set_stream s2 (at_body st1 r1)) (w_body w) m c) as (s3 & _ & HF); try assumption; try lia.
  cbn zeta in HF. rewrite HF. unfold s_query. rewrite Hdn. rewrite Hq, Ht. eexists. split; [reflexivity|].
  split; [reflexivity|]. split; [reflexivity|]. apply body_cached; [exact rd_hp| |reflexivity].
  right. split; [reflexivity|]. exists c. split; [exact Hc|exact Hif].
Qed.
Print Assumptions C78_text_body.

(** ... so what body() returns depends on whether parse() was called *)
Theorem C78_raw_bytes_refuted :
  exists st s r st1 r1 r2 b t, request_init ex_reg st s = Ok r /\ parse_request_header ex_reg (st, r) = (Ok tt, (st1, r1)) /\
    fst (body ex_reg (st1, r1)) = Ok (PB b) /\
    parse ex_reg no_cp ok_temp (st, r) = (Ok tt, (st1, r2)) /\ fst (body ex_reg (st1, r2)) = Ok (PU t) /\ t <> b.
Proof.
  pose proof (ex_in ex10 !"text/plain" [195%N; 169%N] ltac:(vm_compute; reflexivity) ltac:(vm_compute; reflexivity) eq_refl ltac:(discriminate)) as H.
  assert (HC : let '(st1, r1) := ex_ready ex10 (ex_src !"text/plain" [195%N; 169%N]) in
    a_ctype (r_attrs r1) = Some (Some !"text/plain") /\ s_charset st1 = !"utf-8") by (vm_compute; split; reflexivity).
  set (x := ex_ready ex10 _) in *. set (r := ex_req ex10 _) in *. set (s := ex_src _ _) in *. clearbody x r s.
  destruct x as [st1 r1]. destruct H as (I & D & P & _), HC as [HC HS].
  pose proof (C49_body_exact ex_reg no_cp ok_temp ex10 s r _ st1 r1 [] I D ltac:(discriminate) P ltac:(constructor)) as [H _].
  cbv zeta in H. cbn [map fold_right] in H. unfold after in H. cbn [fold_left] in H.
  destruct H as (w2 & H & _); [vm_compute; discriminate|].
  destruct (C78_text_body ex_reg no_cp ok_temp ex10 s r _ st1 r1 (Some !"text/plain") [233%N] (mkQD !"utf-8" false []) I D ltac:(discriminate) P HC)
    as (r2 & HP & _ & _ & HB); try discriminate.
  - rewrite HS. vm_compute. reflexivity.
  - rewrite HS. vm_compute. reflexivity.
  - exists ex10, s, r, st1, r1, r2. eexists. exists [233%N]. split; [exact I|]. split; [exact P|]. split; [rewrite H; reflexivity|].
    split; [exact HP|]. split; [rewrite HB; reflexivity|]. discriminate.
Qed.
Print Assumptions C78_raw_bytes_refuted.

(** ** Multipart requests *)
Definition good_params (ps : list (str * pval)) : Prop :=
  Forall (fun p => is_token (fst p) = true /\ endswith (fst p) !"*" = false /\
                   match snd p with Tok v => is_token v = true | Quo v => HeaderSpec.balanced false v = true end) ps.
Lemma last_value_ascii n w v : wire_ok w -> RequestSpec.last_value n w v -> ascii_text v.
Proof.
  intros (_ & _ & HF & _) [pre Hv]. assert (Hin : In v (values_named n (w_fields w))) by (rewrite Hv; apply in_or_app; right; now left).
  clear Hv. induction HF as [|l [a x] ls fs Hl HF IH]; [easy|]. cbn [values_named] in Hin.
  destruct (seqb n a); [|now apply IH]. destruct Hin as [->|Hin]; [|now apply IH]. apply Hl.
Qed.
(** the media type multipart/form-data: 'multipart/' in lower case, the rest in any, perhaps blanks after it *)
Definition multi_media (t : str) : Prop :=
  startswith t !"multipart/" = true /\ lower (strip t) = !"multipart/form-data" /\ ~ In 59%N t /\ ~ In 34%N t.
Lemma media_usual : multi_media !"multipart/form-data".
Proof. split; [reflexivity|]. split; [reflexivity|]. split; intros Hin; cbn in Hin; repeat (destruct Hin as [Hin|Hin]; [discriminate Hin|]); destruct Hin. Qed.
(** a multipart request with the boundary [b] and the Content-Length [z] *)
Definition multipart_wire (w : wire) (ps : list (str * pval)) (b clen : str) (z : Z) : Prop :=
  (exists t, multi_media t /\ RequestSpec.last_value !"Content-Type" w (render t ps)) /\ good_params ps /\
  HeaderSpec.last_value !"boundary" ps = Some b /\ good_boundary b /\
  RequestSpec.last_value !"Content-Length" w clen /\ py_int 10 clen = Some z /\ (0 <= z)%Z.

Lemma good_no_newline b : good_boundary b -> no_newline b.
Proof. intros (_ & H & _). split; intros Hin; specialize (H _ Hin); lia. Qed.
Lemma boundary_delim b : good_boundary b -> 3 <= length (!"--" ++ b) /\ no_newline (!"--" ++ b).
Proof.
  intros H. split; [destruct H as [H _]; rewrite app_length; cbn; lia|]. destruct (good_no_newline b H) as [H1 H2].
  split; (intros [Hin|Hin]%in_app_or; [cbn in Hin; destruct Hin as [Hin|[Hin|[]]]; discriminate Hin|now apply H1 || now apply H2]).
Qed.
Lemma multi_type reg st s r w st1 r1 t ps b : request_init reg st s = Ok r -> delivers s w -> max_ok (s_hdr st) ->
  parse_request_header reg (st, r) = (Ok tt, (st1, r1)) ->
  multi_media t -> RequestSpec.last_value !"Content-Type" w (render t ps) -> good_params ps ->
  HeaderSpec.last_value !"boundary" ps = Some b -> good_boundary b ->
  a_ctype (r_attrs r1) = Some (Some CT_MULTI) /\
  exists q h, r_meta r1 = Some (mkMeta q (Some h)) /\
    (forall n, n <> !"Host" -> dget n h = match values_named n (w_fields w) with [] => None | vs => Some vs end) /\
    forall clen, match clen with None => True | Some v => match py_int 10 v with Some z => (0 <= z)%Z | None => True end end ->
      mp_init reg (header !"Content-Type" h) clen =
        Ok (PB b, match clen with Some v => match py_int 10 v with Some z => z | None => 0%Z end | None => 0%Z end).
Proof.
  intros Hi Hd Hm HP (M0 & ML & M2 & M3) HT Hps Hb Hgb.
  destruct (header_known _ _ _ _ _ _ _ Hi Hd Hm HP) as (l & host & h & c & ch & g & El & Ea & Eme & Hg & Ec & _).
  assert (HA : ascii_only (render t ps) = true).
  { apply ascii_text_iff. eapply last_value_ascii; [|exact HT]. apply Hd. }
  pose proof (values_header _ w _ h (Hg !"Content-Type" ltac:(discriminate)) HT) as E1.
  assert (M1 : ascii_only t = true) by (unfold render in HA; rewrite ascii_only_app in HA; now apply andb_true_iff in HA).
  split.
  - unfold ctype_of in Ec. rewrite E1 in Ec. destruct (C19_header_roundtrip_partial reg t ps M1 M2 M3 Hps) as (d & Ed & _).
    rewrite Ed, ML in Ec. cbn [bind fst snd] in Ec. injection Ec as <- _. rewrite Ea. reflexivity.
  - exists (Some (rl_query l)), h. split; [exact Eme|]. split; [exact Hg|]. rewrite E1. intros clen Hc.
    destruct (C35_boundary_parameter reg t ps b clen M0 HA M2 M3 Hps Hb) as [HO _].
    { apply good_no_newline, Hgb. }
    destruct (HO Hgb Hc) as [len Hlen].
    rewrite Hlen. f_equal. f_equal. unfold mp_init in Hlen.
    destruct (negb _); [easy|]. destruct (negb _); [easy|]. destruct (parse_header reg _); cbn [bind] in Hlen; [|easy].
    match type of Hlen with (let* b := ?x in _) = _ => destruct x as [b1|e]; cbn [bind] in Hlen; [|easy] end.
    match type of Hlen with (if ?x then _ else _) = _ => destruct x; [easy|] end. now injection Hlen.
Qed.
Lemma multi_known reg st s r w st1 r1 ps b clen z : request_init reg st s = Ok r -> delivers s w -> max_ok (s_hdr st) ->
  parse_request_header reg (st, r) = (Ok tt, (st1, r1)) -> multipart_wire w ps b clen z ->
  a_ctype (r_attrs r1) = Some (Some CT_MULTI) /\
  exists q h, r_meta r1 = Some (mkMeta q (Some h)) /\
    mp_init reg (header !"Content-Type" h) (header !"Content-Length" h) = Ok (PB b, z).
Proof.
  intros Hi Hd Hm HP ((t & Ht & HT) & Hps & Hb & Hgb & HL & Hz & Hz0).
  destruct (multi_type _ _ _ _ _ _ _ _ _ _ Hi Hd Hm HP Ht HT Hps Hb Hgb) as (Hct & q & h & Hme & Hg & Hin).
  split; [exact Hct|]. exists q, h. split; [exact Hme|].
  rewrite (values_header _ w _ h (Hg !"Content-Length" ltac:(discriminate)) HL), Hin; now rewrite Hz.
Qed.

(** the parts of a body with ignored pieces *)
Lemma body_items reg n2 D pre es epi : 3 <= length D -> no_newline D ->
  pre_ok D pre -> Forall (piece_ok D) es -> junk_ok D (!"--" ++ epi) ->
  exists ts its, splits D (render_body D pre es epi) ts /\ Forall2 (item_of reg n2) ts its /\ Forall2 small ts its.
Proof.
  intros HD HN HP HF HE. destruct (pieces_items reg n2 D es HF) as (its & HI & _ & _).
  assert (HI2 : Forall2 (item_of reg n2) (map piece_bytes es) its /\ Forall2 small (map piece_bytes es) its).
  { clear -HF HI. induction HI as [|e it es its [H1 H2] HI IH]; [split; constructor|]. inversion_clear HF as [|? ? He HF'].
    destruct (IH HF') as [A B]. split; constructor; try easy. destruct e as [p|j].
    - destruct H2 as [_ H2]. now intros ->.
    - subst it. apply small_ignorable. apply He. }
  destruct HI2 as [I2 I3]. destruct (open_skip reg n2 (fun _ => Ok tt) D pre HP) as [J1 J2].
  assert (K1 : item_of reg n2 (!"--" ++ epi) KSkip /\ small (!"--" ++ epi) KSkip).
  { destruct HE as [_ Hi]. split; [now apply ignorable_item|now apply small_ignorable]. }
  exists ((open_piece pre :: map piece_bytes es) ++ [!"--" ++ epi]), (KSkip :: its ++ [KSkip]). split; [|split].
  - apply (cuts_splits D _ _ (!"--" ++ epi)); [now apply upto_cuts|]. apply tail_splits; [easy|]. apply HE.
  - constructor; [easy|]. apply Forall2_app; [easy|]. constructor; [apply K1|constructor].
  - constructor; [easy|]. apply Forall2_app; [easy|]. constructor; [apply K1|constructor].
Qed.

Lemma chunk_pos hs : 0 < mp_chunk hs.
Proof. unfold mp_chunk. destruct hs; apply (Nat2Z.inj_lt 0); rewrite Z2Nat.id; reflexivity || discriminate. Qed.
Lemma settings_post reg st m : settings_ok reg (s_multi st) m -> exists q, querydict reg (Some (s_query st)) None false = Ok q.
Proof. intros ((c & Hr & Hc) & _ & _ & Hn). apply (querydict_none reg (s_multi st) c Hr Hc false Hn). Qed.
Lemma settings_empty reg st m : settings_ok reg (s_multi st) m -> decode reg (s_charset st) [] = Ok [].
Proof. intros ((c & Hr & Hc) & _). cbn in Hr. unfold decode. rewrite Hr. now rewrite (cok_dec_ascii c Hc). Qed.

Lemma multi_parse :
  forall reg n2 mk st s r w st1 r1 ps b clen z m pre es epi src csize len fuel,
    request_init reg st s = Ok r -> delivers s w -> max_ok (s_hdr st) ->
    parse_request_header reg (st, r) = (Ok tt, (st1, r1)) -> multipart_wire w ps b clen z -> (0 < z)%Z ->
    s_handlers st = [KConv] -> settings_ok reg (s_multi st1) m -> can_create mk ->
    w_body w = render_body (!"--" ++ b) pre es epi ->
    pre_ok (!"--" ++ b) pre -> Forall (piece_ok (!"--" ++ b)) es -> junk_ok (!"--" ++ b) (!"--" ++ epi) ->
    arrives src (w_body w) csize len fuel ->
    match fst (parse_src reg n2 mk (s_multi st1) (!"--" ++ b) fuel csize len default_handler src) with
    | Err e => fst (parse reg n2 mk (st, r)) = Err e
    | Ok (post, files) =>
        match s_dmem st with
        | Some d => (0 <= d)%Z -> exists r2, parse reg n2 mk (st, r) = (Ok tt, (st1, r2)) /\
            r_post r2 = Some (PForm post) /\ r_files r2 = Some files /\ r_bp r2 = true
        | None => fst (parse reg n2 mk (st, r)) = Err RequestDataTooBig
        end
    end.
Proof.
  intros reg n2 mk st s r w st1 r1 ps b clen z m pre es epi src csize len fuel Hi Hd Hm HP HW Hz Hh Hset Hmk Hb Hpre HF Hepi HA.
  pose proof (header_ready _ _ _ _ _ _ _ Hi Hd Hm HP) as R. destruct (ready_set _ _ _ _ _ R) as (_ & Hdm1 & _ & Hdn & Hh1). destruct R.
  destruct (multi_known _ _ _ _ _ _ _ _ _ _ _ Hi Hd Hm HP HW) as (Hct & q & h & Hme & Hin).
  assert (HB : good_boundary b) by apply HW. destruct (boundary_delim b HB) as [HD HN].
  destruct (body_items reg n2 _ pre es epi HD HN Hpre HF Hepi) as (ts & its & HS & HI & Hsm).
  destruct (settings_qd _ _ _ Hset) as [qd Hqd]. destruct HA as (A1 & A2 & A3 & A4 & A5).
  assert (Hb0 : w_body w <> []).
  { rewrite Hb. unfold render_body. intros E. apply (f_equal (@length N)) in E. rewrite !app_length in E. cbn in E. lia. }
  unfold parse, mbind. rewrite HP.
  destruct (parse_body_some reg n2 mk 3 st1 r1 _ rd_bp rd_hp rd_stream ltac:(lia) Hb0) as (s2 & HA2 & ->). cbn [Nat.add] in HA2.
  set (r2 := set_stream s2 (at_body st1 r1)).
  assert (Hchunk := chunk_pos [KConv]).
  rewrite <- Hb in HS.
  pose proof (l0_parse_same reg n2 mk (s_multi st1) (!"--" ++ b) (delim_dok _ (conj HD HN)) 5 s2 (w_body w) (mp_chunk [KConv]) z m qd
    (2 * l0_total s2 + 4) ts its src csize len fuel HA2 ltac:(lia) Hchunk Hqd ltac:(lia)) as HL.
  rewrite (l0at_total _ _ _ HA2) in HL at 1.
  destruct HL as [HL1 HL2]; try assumption; try lia; try apply Hset; try (now apply create_no_stop).
  { unfold enough. now rewrite A1. }
  unfold default_handler. destruct (parse_src reg n2 mk (s_multi st1) _ fuel csize len [HConv new_conv] src) as [[[post files]|e] sr] eqn:ES; cbn [fst] in *.
  - destruct (mp_parse _ _ _ _ _ _ _ _ _ _ _ s2) as [x s3] eqn:EM in HL1, HL2. cbn [fst] in HL1. subst x.
    pose proof (finish_multi_ok reg n2 mk 5 st1 r2 q h (PB b) z post files s3 [] rd_bp rd_hp rd_body Hct Hme Hin) as HFi.
    cbn [pchars] in HFi. rewrite Hh1, Hh, Hdm1 in HFi. cbn [map new_handler] in HFi.
    specialize (HFi EM (HL2 _ _ eq_refl) ltac:(lia)). destruct (s_dmem st) as [d|]; [|exact HFi]. intros Hd0.
    destruct (HFi Hd0 [] (settings_empty _ _ _ Hset)) as (s4 & _ & E4).
    rewrite E4. eexists. split; [reflexivity|]. repeat split.
  - apply (finish_multi_err reg n2 mk st1 r2 q h e Hct Hme).
    + intros _. now apply (settings_post _ _ m).
    + right. exists (PB b), z. split; [exact Hin|]. cbn [pchars]. rewrite Hh1, Hh. exact HL1.
Qed.

(** ** C80.  parse() hands a multipart body to MultiPartParser and adds nothing of its own:
    the values, or the exception, are those of a MultiPartParser over the bytes of the body
    alone, however these are cut into chunks. *)
Theorem C80_same_as_parser :
  forall reg n2 mk st s r w st1 r1 ps b clen z m d pre es epi src csize len fuel,
    request_init reg st s = Ok r -> delivers s w -> max_ok (s_hdr st) ->
    parse_request_header reg (st, r) = (Ok tt, (st1, r1)) -> multipart_wire w ps b clen z -> (0 < z)%Z ->
    s_handlers st = [KConv] -> settings_ok reg (s_multi st1) m -> s_dmem st = Some d -> (0 <= d)%Z -> can_create mk ->
    w_body w = render_body (!"--" ++ b) pre es epi ->
    pre_ok (!"--" ++ b) pre -> Forall (piece_ok (!"--" ++ b)) es -> junk_ok (!"--" ++ b) (!"--" ++ epi) ->
    arrives src (w_body w) csize len fuel ->
    match fst (parse_src reg n2 mk (s_multi st1) (!"--" ++ b) fuel csize len default_handler src) with
    | Err e => fst (parse reg n2 mk (st, r)) = Err e
    | Ok (post, files) => exists r2, parse reg n2 mk (st, r) = (Ok tt, (st1, r2)) /\
        r_post r2 = Some (PForm post) /\ r_files r2 = Some files /\ r_bp r2 = true
    end.
Proof.
  intros reg n2 mk st s r w st1 r1 ps b clen z m d pre es epi src csize len fuel Hi Hd Hm HP HW Hz Hh Hset Hdm Hd0 Hmk Hb Hpre HF Hepi HA.
  pose proof (multi_parse reg n2 mk st s r w st1 r1 ps b clen z m pre es epi src csize len fuel Hi Hd Hm HP HW Hz Hh Hset Hmk Hb Hpre HF Hepi HA) as HX.
  rewrite Hdm in HX. destruct (fst (parse_src _ _ _ _ _ _ _ _ _ _)) as [[post files]|e]; [now apply HX|exact HX].
Qed.
Print Assumptions C80_same_as_parser.

(** ** C81.  Without a Content-Length (or with one that is zero or not a number) the form is not
    read: parse() succeeds, POST and FILES are empty, and the form is the text of the body. *)
Definition no_length (n : str) (w : wire) : Prop :=
  values_named n (w_fields w) = [] \/
  exists v, RequestSpec.last_value n w v /\ match py_int 10 v with Some z => z = 0%Z | None => True end.
Theorem C81_unmeasured_form_refuted :
  forall reg n2 mk st s r w st1 r1 ty ps b m t d, request_init reg st s = Ok r -> delivers s w -> max_ok (s_hdr st) ->
    parse_request_header reg (st, r) = (Ok tt, (st1, r1)) ->
    multi_media ty -> RequestSpec.last_value !"Content-Type" w (render ty ps) -> good_params ps ->
    HeaderSpec.last_value !"boundary" ps = Some b -> good_boundary b -> no_length !"Content-Length" w ->
    settings_ok reg (s_multi st1) m -> s_dmem st = Some d -> (Z.of_nat (length (w_body w)) <= d)%Z ->
    w_body w <> [] -> decode reg (s_charset st1) (w_body w) = Ok t ->
    exists r2, parse reg n2 mk (st, r) = (Ok tt, (st1, r2)) /\ r_post r2 = Some (PForm []) /\ r_files r2 = Some [] /\
      r_body r2 = Some (PU t).
Proof.
  intros reg n2 mk st s r w st1 r1 ty ps b m t d Hi Hd Hm HP Hty HT Hps Hb Hgb Hlen Hset Hdm Hfit Hb0 Ht.
  pose proof (header_ready _ _ _ _ _ _ _ Hi Hd Hm HP) as R. destruct (ready_set _ _ _ _ _ R) as (_ & Hdm1 & _ & Hdn & Hh1). destruct R.
  destruct (multi_type _ _ _ _ _ _ _ _ _ _ Hi Hd Hm HP Hty HT Hps Hb Hgb) as (Hct & q & h & Hme & Hg & Hin).
  assert (HI : mp_init reg (header !"Content-Type" h) (header !"Content-Length" h) = Ok (PB b, 0%Z)).
  { destruct Hlen as [Hn|(v & HL & Hv)].
    - replace (header !"Content-Length" h) with (@None str); [now apply Hin|].
      unfold header. rewrite (Hg !"Content-Length") by discriminate. now rewrite Hn.
    - rewrite (values_header _ w _ h (Hg !"Content-Length" ltac:(discriminate)) HL), Hin; destruct (py_int 10 v); subst; easy. }
  destruct (settings_qd _ _ _ Hset) as [qd Hqd].
  unfold parse, mbind. rewrite HP.
  destruct (parse_body_some reg n2 mk 3 st1 r1 _ rd_bp rd_hp rd_stream ltac:(lia) Hb0) as (s2 & HA2 & ->). cbn [Nat.add] in HA2.
  set (r2 := set_stream s2 (at_body st1 r1)).
  pose proof (finish_multi_ok reg n2 mk 5 st1 r2 q h (PB b) 0%Z [] [] s2 (w_body w) rd_bp rd_hp rd_body Hct Hme HI) as HFi.
  rewrite Hdm1, Hdm in HFi.
  destruct (HFi ltac:(unfold mp_parse; now rewrite Hqd) HA2 ltac:(lia) Hfit t Ht) as (s4 & _ & E4).
  rewrite E4. eexists. split; [reflexivity|]. repeat split.
Qed.
Print Assumptions C81_unmeasured_form_refuted.

(** ** C79.  A form sent as the body of a request comes out in POST and FILES. *)
Lemma form_request reg n2 mk st s r w st1 r1 ps b clen z m fs :
    request_init reg st s = Ok r -> delivers s w -> max_ok (s_hdr st) ->
    parse_request_header reg (st, r) = (Ok tt, (st1, r1)) -> multipart_wire w ps b clen z -> (0 < z)%Z ->
    s_handlers st = [KConv] -> settings_ok reg (s_multi st1) m -> can_create mk ->
    w_body w = render_form (!"--" ++ b) fs -> Forall (part_ok (!"--" ++ b)) fs -> within (s_multi st1) fs ->
    exists post files, (forall k, Forall2 entry_for (getl k post) (fields_named k fs)) /\
      (forall k, Forall2 file_for (getl k files) (files_named k fs)) /\
      match s_dmem st with
      | Some d => (0 <= d)%Z -> exists r2, parse reg n2 mk (st, r) = (Ok tt, (st1, r2)) /\
          r_post r2 = Some (PForm post) /\ r_files r2 = Some files /\ r_bp r2 = true
      | None => fst (parse reg n2 mk (st, r)) = Err RequestDataTooBig
      end.
Proof.
  intros Hi Hd Hm HP HW Hz Hh Hset Hmk Hb HF Hin.
  assert (HB : good_boundary b) by apply HW. destruct (boundary_delim b HB) as [HD HN].
  pose proof (in_bytes_arrives (w_body w) 1 1%Z ltac:(lia) ltac:(lia)) as HA.
  pose proof (multi_parse reg n2 mk st s r w st1 r1 ps b clen z m None (map APart fs) crlf (in_bytes (w_body w)) 1 1%Z (2 * length (w_body w) + 4) Hi Hd Hm HP HW Hz Hh Hset Hmk) as HX.
  rewrite Hb in HX, HA. specialize (HX (form_body _ _) I (parts_pieces _ _ HF) (end_ok n2 mk _ HD HN) HA).
  destruct (C22_form_roundtrip_partial reg n2 mk (s_multi st1) m (!"--" ++ b) fs _ 1 1%Z _ Hset Hmk (conj HD HN) HF Hin HA) as (post & files & E & H1 & H2).
  rewrite E in HX. now exists post, files.
Qed.
Theorem C79_multipart_request :
  forall reg n2 mk st s r w st1 r1 ps b clen z m d fs,
    request_init reg st s = Ok r -> delivers s w -> max_ok (s_hdr st) ->
    parse_request_header reg (st, r) = (Ok tt, (st1, r1)) -> multipart_wire w ps b clen z -> (0 < z)%Z ->
    s_handlers st = [KConv] -> settings_ok reg (s_multi st1) m -> s_dmem st = Some d -> (0 <= d)%Z -> can_create mk ->
    w_body w = render_form (!"--" ++ b) fs -> Forall (part_ok (!"--" ++ b)) fs -> within (s_multi st1) fs ->
    exists r2 post files, parse reg n2 mk (st, r) = (Ok tt, (st1, r2)) /\ r_post r2 = Some (PForm post) /\ r_files r2 = Some files /\
      (forall k, Forall2 entry_for (getl k post) (fields_named k fs)) /\
      (forall k, Forall2 file_for (getl k files) (files_named k fs)).
Proof.
  intros reg n2 mk st s r w st1 r1 ps b clen z m d fs Hi Hd Hm HP HW Hz Hh Hset Hdm Hd0 Hmk Hb HF Hin.
  destruct (form_request reg n2 mk st s r w st1 r1 ps b clen z m fs Hi Hd Hm HP HW Hz Hh Hset Hmk Hb HF Hin) as (post & files & H1 & H2 & H3).
  rewrite Hdm in H3. destruct (H3 Hd0) as (r2 & E & Ep & Ef & _). exists r2, post, files. now repeat split.
Qed.
Print Assumptions C79_multipart_request.
(** DATA_UPLOAD_MAX_MEMORY_SIZE = None does not switch the limit off: no form is accepted *)
Theorem C79_no_memory_limit_refuted :
  forall reg n2 mk st s r w st1 r1 ps b clen z m fs,
    request_init reg st s = Ok r -> delivers s w -> max_ok (s_hdr st) ->
    parse_request_header reg (st, r) = (Ok tt, (st1, r1)) -> multipart_wire w ps b clen z -> (0 < z)%Z ->
    s_handlers st = [KConv] -> settings_ok reg (s_multi st1) m -> s_dmem st = None -> can_create mk ->
    w_body w = render_form (!"--" ++ b) fs -> Forall (part_ok (!"--" ++ b)) fs -> within (s_multi st1) fs ->
    fst (parse reg n2 mk (st, r)) = Err RequestDataTooBig.
Proof.
  intros reg n2 mk st s r w st1 r1 ps b clen z m fs Hi Hd Hm HP HW Hz Hh Hset Hdm Hmk Hb HF Hin.
  destruct (form_request reg n2 mk st s r w st1 r1 ps b clen z m fs Hi Hd Hm HP HW Hz Hh Hset Hmk Hb HF Hin) as (post & files & H1 & H2 & H3).
  now rewrite Hdm in H3.
Qed.
Print Assumptions C79_no_memory_limit_refuted.
(** a request with a field and two files *)
Definition exm_params : list (str * pval) := [(!"charset", Quo !"utf-8"); (!"Boundary", Tok !"X")].
Definition exm_fields : list (str * str) :=
  [(!"Host", !"a"); (!"Content-Type", !"text/html"); (!"Content-Length", !" 0400"); (!"Content-Type", render !"multipart/Form-Data " exm_params)].
Definition exm_fields' : list (str * str) := map (fun p => (fst p, strip (snd p))) exm_fields.
Definition exm_body : str := render_form !"--X" ex_parts.
Definition exm_src : src := req (ex_line :: map field exm_fields') exm_body.
Definition exm_wire : wire := mkWire ex_line (map field exm_fields') exm_fields' exm_body.
Definition exm_set (d : option Z) : sett := mkS (Some 16%Z) (Some 100%Z) d (Some 10%Z) !"utf-8" [KConv].
Lemma exm_in d : d = Some 1000%Z \/ d = None \/ d = Some 1%Z -> exists r st1 r1, request_init ex_reg (exm_set d) exm_src = Ok r /\
  delivers exm_src exm_wire /\ parse_request_header ex_reg (exm_set d, r) = (Ok tt, (st1, r1)) /\
  s_multi st1 = mkMS !"utf-8" (Some 100%Z) d (Some 10%Z) /\ multipart_wire exm_wire exm_params !"X" !"0400" 400%Z.
Proof.
  intros Hd. assert (H1 : request_init ex_reg (exm_set d) exm_src = Ok (ex_req (exm_set d) exm_src)).
  { apply ex_req_ok. destruct Hd as [->|[->| ->]]; vm_compute; reflexivity. }
  assert (H2 : hdr (exm_set d, ex_req (exm_set d) exm_src) = (Ok tt, (fst (ex_ready (exm_set d) exm_src), snd (ex_ready (exm_set d) exm_src)))).
  { apply ex_ready_ok. destruct Hd as [->|[->| ->]]; vm_compute; reflexivity. }
  assert (H3 : s_multi (fst (ex_ready (exm_set d) exm_src)) = mkMS !"utf-8" (Some 100%Z) d (Some 10%Z)).
  { destruct Hd as [->|[->| ->]]; vm_compute; reflexivity. }
  assert (H4 : delivers exm_src exm_wire) by (apply delivers_msg; reflexivity || discriminate).
  do 3 eexists. split; [exact H1|]. split; [exact H4|]. split; [exact H2|]. split; [exact H3|].
  split; [exists !"multipart/Form-Data "; split; [|exists [!"text/html"]; vm_compute; reflexivity]|].
  { split; [reflexivity|]. split; [reflexivity|]. split; intros Hin; cbn in Hin; repeat (destruct Hin as [Hin|Hin]; [discriminate Hin|]); destruct Hin. }
  split; [repeat constructor|]. split; [reflexivity|].
  clear. split; [split; [cbn; lia|split; [|discriminate]]|].
  - intros c Hc. cbn in Hc. destruct Hc as [<-|[]]. lia.
  - split; [exists []; vm_compute; reflexivity|]. split; [vm_compute; reflexivity|lia].
Qed.
Lemma exm_settings d : settings_ok ex_reg (mkMS !"utf-8" (Some 100%Z) d (Some 10%Z)) 100.
Proof. split; [|split; [easy|split; [lia|cbn; lia]]]. exists (utf8 (fun s => s)). split; [reflexivity|]. apply utf8_ok. Qed.
Example C79_case :
  exists r st1 r2 post files, request_init ex_reg (exm_set (Some 1000%Z)) exm_src = Ok r /\
    parse ex_reg no_cp ok_temp (exm_set (Some 1000%Z), r) = (Ok tt, (st1, r2)) /\
    r_post r2 = Some (PForm post) /\ r_files r2 = Some files /\
    length (getl !"a b" post) = 1 /\ length (getl !"f" files) = 2 /\ getl !"zz" files = [].
Proof.
  destruct (exm_in (Some 1000%Z) (or_introl eq_refl)) as (r & st1 & r1 & I & D & P & HS & HW).
  destruct (C79_multipart_request ex_reg no_cp ok_temp _ _ r _ st1 r1 _ _ _ _ 100%Z 1000%Z ex_parts I D ltac:(discriminate) P HW)
    as (r2 & post & files & HP & Hp & Hf & H1 & H2); try easy.
  - rewrite HS. apply exm_settings.
  - intros s. now exists tt.
  - apply ex_parts_ok.
  - rewrite HS. split; vm_compute; discriminate.
  - exists r, st1, r2, post, files. repeat (split; [assumption|]).
    split; [apply (forall2_length _ _ _ (H1 !"a b"))|]. split; [apply (forall2_length _ _ _ (H2 !"f"))|].
    specialize (H2 !"zz"). cbn in H2. now inversion H2.
Qed.
Example C79_no_limit_case :
  exists r, request_init ex_reg (exm_set None) exm_src = Ok r /\ fst (parse ex_reg no_cp ok_temp (exm_set None, r)) = Err RequestDataTooBig.
Proof.
  destruct (exm_in None (or_intror (or_introl eq_refl))) as (r & st1 & r1 & I & D & P & HS & HW). exists r. split; [exact I|].
  apply (C79_no_memory_limit_refuted ex_reg no_cp ok_temp _ _ r _ st1 r1 _ _ _ _ 100%Z ex_parts I D ltac:(discriminate) P HW); try easy.
  - rewrite HS. apply exm_settings.
  - intros s. now exists tt.
  - apply ex_parts_ok.
  - rewrite HS. split; vm_compute; discriminate || exact Logic.I.
Qed.
(** the error of the parser is the error of parse() *)
Example C80_case :
  exists r, request_init ex_reg (exm_set (Some 1%Z)) exm_src = Ok r /\ fst (parse ex_reg no_cp ok_temp (exm_set (Some 1%Z), r)) = Err RequestDataTooBig.
Proof.
  destruct (exm_in (Some 1%Z) (or_intror (or_intror eq_refl))) as (r & st1 & r1 & I & D & P & HS & HW). exists r. split; [exact I|].
  pose proof (in_bytes_arrives (w_body exm_wire) 1 1%Z ltac:(lia) ltac:(discriminate)) as HA.
  pose proof (C80_same_as_parser ex_reg no_cp ok_temp _ _ r _ st1 r1 _ _ _ _ 100%Z 1%Z None (map APart ex_parts) crlf (in_bytes (w_body exm_wire)) 1 1%Z (2 * length (w_body exm_wire) + 4) I D ltac:(discriminate) P HW
    ltac:(lia) eq_refl) as H.
  rewrite HS in H. specialize (H (exm_settings _) eq_refl ltac:(lia) (fun s => ex_intro _ tt eq_refl) (form_body _ _) Logic.I (parts_pieces _ _ ex_parts_ok)).
  specialize (H (end_ok no_cp ok_temp !"--X" ltac:(cbn; lia) ltac:(now apply no_newline_check)) HA).
  match type of H with match ?x with _ => _ end => assert (E : x = Err RequestDataTooBig) by (vm_compute; reflexivity) end.
  rewrite E in H. exact H.
Qed.
(** a form without a length *)
Definition exn_fields : list (str * str) := [(!"Host", !"a"); (!"Content-Type", render !"multipart/form-data" exm_params); (!"Content-Length", !"4O0")].
Definition exn_body : str := render_form !"--X" [ex_field].
Definition exn_src : src := req (ex_line :: map field exn_fields) exn_body.
Example C81_case :
  exists r st1 r2, request_init ex_reg (exm_set (Some 1000%Z)) exn_src = Ok r /\
    parse ex_reg no_cp ok_temp (exm_set (Some 1000%Z), r) = (Ok tt, (st1, r2)) /\ r_post r2 = Some (PForm []) /\ r_files r2 = Some [] /\
    r_body r2 = Some (PU exn_body).
Proof.
  set (st := exm_set (Some 1000%Z)).
  assert (H1 : request_init ex_reg st exn_src = Ok (ex_req st exn_src)) by (apply ex_req_ok; vm_compute; reflexivity).
  assert (H2 : hdr (st, ex_req st exn_src) = (Ok tt, (fst (ex_ready st exn_src), snd (ex_ready st exn_src)))) by (apply ex_ready_ok; vm_compute; reflexivity).
  assert (H3 : s_multi (fst (ex_ready st exn_src)) = mkMS !"utf-8" (Some 100%Z) (Some 1000%Z) (Some 10%Z)) by (vm_compute; reflexivity).
  assert (H3' : s_charset (fst (ex_ready st exn_src)) = !"utf-8") by (vm_compute; reflexivity).
  assert (H4 : delivers exn_src (mkWire ex_line (map field exn_fields) exn_fields exn_body)) by (apply delivers_msg; reflexivity || discriminate).
  destruct (C81_unmeasured_form_refuted ex_reg no_cp ok_temp st exn_src _ _ _ _ _ exm_params !"X" 100%Z exn_body 1000%Z H1 H4 ltac:(discriminate) H2 media_usual) as (r2 & HR).
  - exists []. vm_compute. reflexivity.
  - repeat constructor.
  - reflexivity.
  - clear. split; [cbn; lia|]. split; [|discriminate]. intros c Hc. cbn in Hc. destruct Hc as [<-|[]]. lia.
  - right. exists !"4O0". split; [exists []; vm_compute; reflexivity|]. vm_compute. exact I.
  - rewrite H3. apply exm_settings.
  - reflexivity.
  - vm_compute. discriminate.
  - vm_compute. discriminate.
  - rewrite H3'. vm_compute. reflexivity.
  - do 2 eexists. exists r2. split; [exact H1|]. exact HR.
Qed.

(** ** C82.  is_secure() is true exactly for an https URL in the request line. *)
Theorem C82_secure_is_https :
  forall reg st s r w m url v u st1 r1, request_init reg st s = Ok r -> delivers s w -> max_ok (s_hdr st) ->
    request_line w m url v -> target url u -> parse_request_header reg (st, r) = (Ok tt, (st1, r1)) ->
    exists x, is_secure r1 = Ok x /\ (x = true <-> lower (up_scheme u) = !"https").
Proof.
  intros reg st s r w m url v u st1 r1 Hi Hd Hm HL HT HP.
  destruct (C77_line_attributes _ _ _ _ _ _ _ _ _ _ _ Hi Hd Hm HL HT HP) as (_ & _ & _ & Es & _).
  unfold is_secure, attr. rewrite Es. cbn [bind]. eexists. split; [reflexivity|]. destruct (up_scheme u) as [|c t].
  - split; intros H; discriminate H.
  - split; intros H; now apply seqb_eq.
Qed.
Print Assumptions C82_secure_is_https.
(** an origin-form request target is never secure, whatever the headers say *)
Theorem C82_origin_not_secure :
  forall reg st s r w m path q v st1 r1, request_init reg st s = Ok r -> delivers s w -> max_ok (s_hdr st) ->
    request_line w m (path ++ with_delim !"?" q) v -> ascii_text (path ++ with_delim !"?" q) ->
    (exists t, path = 47%N :: t /\ startswith t !"/" = false) -> (forall c, In c path -> c <> 63%N /\ c <> 35%N /\ c <> 59%N) -> ~ In 35%N q ->
    parse_request_header reg (st, r) = (Ok tt, (st1, r1)) -> is_secure r1 = Ok false.
Proof.
  intros reg st s r w m path q v st1 r1 Hi Hd Hm HL HA Hp1 Hp2 Hq HP.
  destruct (C82_secure_is_https reg st s r w m _ v (mkParse [] [] path [] q []) st1 r1 Hi Hd Hm HL) as (x & E & HX); [|exact HP|].
  - eapply target_origin; try eassumption; [reflexivity|]. now rewrite app_nil_r.
  - rewrite E. destruct x; [|reflexivity]. destruct HX as [HX _]. now specialize (HX eq_refl).
Qed.
Print Assumptions C82_origin_not_secure.
Example C82_case :
  (let '(x, (_, r)) := run hdr ex_set (req [!"GET HTTPS://h/p HTTP/1.1"; !"A: b"] []) in x = Ok tt /\ is_secure r = Ok true) /\
  (let '(x, (_, r)) := run hdr ex_set (req [!"GET /p HTTP/1.1"; !"Host: b"; !"X-Forwarded-Proto: https"] []) in x = Ok tt /\ is_secure r = Ok false).
Proof. vm_compute. repeat split. Qed.

(** ** C83.  is_ajax() looks for a header called XMLHttpRequest. *)
Theorem C83_ajax_header :
  forall reg st s r w st1 r1, request_init reg st s = Ok r -> delivers s w -> max_ok (s_hdr st) ->
    parse_request_header reg (st, r) = (Ok tt, (st1, r1)) ->
    exists x, is_ajax r1 = Ok x /\ (x = true <-> exists v, In (!"XMLHttpRequest", v) (w_fields w)).
Proof.
  intros reg st s r w st1 r1 Hi Hd Hm HP.
  destruct (header_known _ _ _ _ _ _ _ Hi Hd Hm HP) as (l & host & h & c & ch & g & _ & _ & Eme & Hg & _).
  unfold is_ajax. rewrite Eme. cbn [m_headers]. eexists. split; [reflexivity|].
  specialize (Hg !"XMLHttpRequest" ltac:(discriminate)). unfold dmem. rewrite Hg.
  generalize (w_fields w) as fs. clear. generalize !"XMLHttpRequest" as n. intros n. induction fs as [|[a x] fs IH]; cbn [values_named].
  - split; [easy|]. now intros (v & []).
  - destruct (seqb n a) eqn:E.
    + apply seqb_eq in E. subst a. split; [|easy]. intros _. exists x. now left.
    + apply seqb_neq in E. rewrite IH. split; intros (v & Hv); exists v; [now right|]. destruct Hv as [[= <- _]|Hv]; [easy|exact Hv].
Qed.
Print Assumptions C83_ajax_header.
(** the header that browsers and libraries send is not recognised *)
Theorem C83_requested_with_refuted :
  exists st s, let '(x, (_, r)) := run hdr st s in
    x = Ok tt /\ (exists h, r_meta r = Some (mkMeta (Some []) (Some h)) /\ header !"X-Requested-With" h = Some !"XMLHttpRequest") /\ is_ajax r = Ok false.
Proof.
  exists ex_set, (req [!"GET /p HTTP/1.1"; !"Host: b"; !"X-Requested-With: XMLHttpRequest"] []). vm_compute. split; [reflexivity|].
  split; [|reflexivity]. eexists. split; reflexivity.
Qed.
Print Assumptions C83_requested_with_refuted.

(** ** C84.  Upload handlers. *)
(** Assigned handlers are not used: the body is parsed as if they had not been assigned. *)
Theorem C84_assignment_ignored_refuted :
  forall reg n2 mk st r hs, r_bp r = false ->
    parse_request_body reg n2 mk (snd (assign_handlers hs (st, r))) = parse_request_body reg n2 mk (st, r).
Proof.
  intros reg n2 mk st r hs H1. unfold assign_handlers. unfold mbind at 1, mreq. cbn [snd fst].
  destruct (r_hasfiles r); [reflexivity|]. unfold mupd. cbn [snd fst].
  destruct (r_hp r) eqn:H2.
  - rewrite !parse_body_eq by assumption. reflexivity.
  - rewrite !parse_body_early by assumption. reflexivity.
Qed.
Print Assumptions C84_assignment_ignored_refuted.
(** the handlers of a new request cannot be asked for *)
Theorem C84_early_getter_refuted :
  forall reg st s r, request_init reg st s = Ok r -> fst (get_handlers (st, r)) = Err AttributeError.
Proof.
  intros reg st s r Hi. rewrite init_eq in Hi. destruct (querydict reg (Some (s_query st)) None true) as [q|e]; [|easy].
  injection Hi as <-. reflexivity.
Qed.
Print Assumptions C84_early_getter_refuted.
Lemma keep_loop : forall fuel max size chunk acc w, r_hasfiles (snd w) = true ->
  r_hasfiles (snd (snd (body_loop fuel max size chunk acc w))) = true.
Proof.
  induction fuel as [|f IH]; intros max size chunk acc w H; [exact H|]. cbn [body_loop].
  destruct (_ && _)%bool; [|exact H]. unfold mbind, m_read, mstream. destruct (l0_read _ _) as [[c|e] s1]; [now apply IH|destruct e; exact H].
Qed.
Lemma keep_body reg w : r_hp (snd w) = true -> r_hasfiles (snd w) = true -> r_hasfiles (snd (snd (body reg w))) = true.
Proof.
  intros H1 H. unfold body. unfold mbind at 1, mreq. rewrite H1. cbn [orb]. unfold body1. unfold mbind at 1, mreq.
  destruct (_ && _)%bool; [exact H|]. destruct (r_body (snd w)); [exact H|]. rewrite H1.
  unfold read_body. unfold mbind at 1, msett. unfold mbind at 1, mreq. unfold mbind at 1, m_read, mstream.
  destruct (l0_read _ _) as [[c|e] s1]; [|destruct e; exact H]. unfold mbind at 1.
  match goal with |- context [body_loop ?a ?b ?c ?d ?e ?w] => pose proof (keep_loop a b c d e w H) as HL; destruct (body_loop a b c d e w) as [[x|y] w1] end; [|exact HL].
  destruct (within_max _ _); [|exact HL]. unfold mbind, mupd, mret. exact HL.
Qed.
Lemma post_marks reg n2 mk w pf w1 : r_hp (snd w) = true -> parse_post reg n2 mk w = (Ok pf, w1) -> r_hasfiles (snd w1) = true.
Proof.
  intros H1. unfold parse_post. unfold mbind at 1, mreq. destruct (a_ctype _) as [c|]; [|easy].
  destruct (match c with Some c => seqb c CT_MULTI | None => false end).
  { destruct (parse_file_upload reg n2 mk w) as [[x|e] w2]; [now intros [= _ <-]|]. destruct e; try easy.
    unfold mbind. destruct w2 as [st2 r2]. rewrite empty_post_eq. destruct (querydict _ _ _ _); easy. }
  destruct (match c with Some c => seqb c CT_FORM | None => false end).
  - unfold mbind at 1. destruct (body reg w) as [[b|e] w2]; [|easy]. unfold mbind at 1. destruct (new_query reg _ _ w2) as [[q|e] w3]; [|easy].
    unfold mbind, mupd, mret. now intros [= _ <-].
  - unfold mbind at 1. destruct w as [st r]. rewrite empty_post_eq. destruct (querydict _ _ _ _); [|easy]. unfold mret. now intros [= _ <-].
Qed.
(** after the body was parsed they cannot be changed *)
Theorem C84_frozen_after_parsing :
  forall reg n2 mk st r st2 r2 hs, r_bp r = false -> parse_request_body reg n2 mk (st, r) = (Ok tt, (st2, r2)) ->
    assign_handlers hs (st2, r2) = (Err AttributeError, (st2, r2)).
Proof.
  intros reg n2 mk st r st2 r2 hs H1 HP.
  enough (HF : r_hasfiles r2 = true) by (unfold assign_handlers, mbind, mreq; cbn [snd]; now rewrite HF).
  destruct (r_hp r) eqn:H2; [|rewrite parse_body_early in HP by assumption; now destruct (querydict _ _ _ _)].
  rewrite parse_body_eq in HP by assumption. destruct (l0_read _ _) as [[[|c d]|e] s1]; [|..|easy].
  { destruct (querydict _ _ _ _); [|easy]. now injection HP as _ <-. }
  destruct (ls_unget (c :: d) s1) as [[u|e] s2]; [|easy].
  unfold ParseRun.finish in HP. unfold mbind at 1 in HP.
  match type of HP with context [parse_post reg n2 mk ?w] => pose proof (post_marks reg n2 mk w) as HM; pose proof (still_post reg n2 mk w) as HS;
    destruct (parse_post reg n2 mk w) as [[pf|e] w1] end; [|easy].
  specialize (HM _ _ H2 eq_refl). destruct (HS H2) as (_ & HS' & _). unfold mbind at 1 in HP.
  pose proof (keep_body reg w1 HS' HM) as HB. destruct (body reg w1) as [[b|e] w2]; [|easy].
  unfold mbind, msett, mlift in HP. destruct (decode_text _ _ _); [|easy]. unfold mupd in HP. now injection HP as _ <-.
Qed.
Print Assumptions C84_frozen_after_parsing.
Example C84_case :
  (exists r, request_init ex_reg ex_set (req [!"GET / HTTP/1.1"; !"Host: b"] []) = Ok r /\ fst (get_handlers (ex_set, r)) = Err AttributeError) /\ (let '(x, w) := run (parse ex_reg no_cp ok_temp) ex_set (req [!"GET / HTTP/1.1"; !"Host: b"] []) in
     x = Ok tt /\ fst (get_handlers w) = Ok [KConv] /\ fst (assign_handlers [KMem] w) = Err AttributeError) /\ (let '(x, w) := run hdr ex_set (req [!"GET / HTTP/1.1"; !"Host: b"] []) in
     x = Ok tt /\ fst (assign_handlers [KMem] w) = Ok tt /\ fst (get_handlers (snd (assign_handlers [KMem] w))) = Ok [KMem] /\ fst (get_handlers (snd (parse_request_body ex_reg no_cp ok_temp (snd (assign_handlers [KMem] w))))) = Ok [KConv]).
Proof. split; [eexists; split; [vm_compute; reflexivity|reflexivity]|]. vm_compute. repeat split. Qed.
