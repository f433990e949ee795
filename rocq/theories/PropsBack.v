(** * C149: the address a request reports leads back to it *)
From Coq Require Import ZifyBool ZifyN ZifyNat.
From Verif Require Import Py Spec HeadSpec PyFacts PyDict StreamModel StreamSpec StreamFacts StreamCalm CodecModel CodecFacts PercentModel PercentFacts QuerySpec
  QueryModel QueryFacts HeadModel HeadFacts UrlFacts HeaderModel BoundaryModel UploadModel MultipartModel ReaderSim
  RequestModel RequestSpec HeaderRun BodyRun ParseRun RequestRel RequestMulti TwinFacts DateSpec PropsDate PropsUtil PropsUriExact PropsEnc PropsHead PropsPart PropsRequest PropsBody PropsEnd
  PropsSame PropsForm PropsOrder PropsList PropsLine PropsCharset PropsSpell.

(** ** Escaping a query does not change the form it spells *)
Lemma ascii_bytes s : ascii_only s = true -> is_bytes s.
Proof. unfold ascii_only. rewrite forallb_forall. intros H c Hc. apply H in Hc. unfold is_ascii in Hc. lia. Qed.
Lemma quote_byte_sep c : (c < 256)%N -> is_sep c = false -> no_separator (quote_byte iri_safe c).
Proof.
  intros Hc Hs. unfold quote_byte. destruct (_ || _).
  - intros x [<-|[]]. unfold is_sep, amp, semic in Hs. unfold separator. lia.
  - assert (H1 : is_HEX (hexdig (c / 16)) = true) by (apply hexdig_HEX, N.div_lt_upper_bound; lia).
    assert (H2 : is_HEX (hexdig (c mod 16)) = true) by (apply hexdig_HEX, N.mod_lt; lia).
    unfold is_HEX, is_digit in H1, H2. intros x [<-|[<-|[<-|[]]]]; unfold separator, percent; lia.
Qed.
Lemma quote_byte_eq c : (c < 256)%N -> c <> equal -> ~ In equal (quote_byte iri_safe c).
Proof.
  intros Hc Hs. unfold quote_byte. destruct (_ || _).
  - intros [H|[]]. easy.
  - assert (H1 : is_HEX (hexdig (c / 16)) = true) by (apply hexdig_HEX, N.div_lt_upper_bound; lia).
    assert (H2 : is_HEX (hexdig (c mod 16)) = true) by (apply hexdig_HEX, N.mod_lt; lia).
    unfold is_HEX, is_digit in H1, H2. unfold equal. intros [H|[H|[H|[]]]]; unfold percent in *; lia.
Qed.
Lemma quote_eq_in s : is_bytes s -> ~ In equal s -> ~ In equal (iri_to_uri s).
Proof.
  intros HB Hn H. unfold iri_to_uri, quote in H. apply in_flat_map in H as (c & Hc & H).
  revert H. apply quote_byte_eq; [now apply HB|intros ->; easy].
Qed.
Lemma quoted_fields s : is_bytes s -> fields_split None (iri_to_uri s) = map iri_to_uri (fields_split None s).
Proof.
  induction s as [|c s IH]; intros HB; [reflexivity|].
  assert (HBs : is_bytes s) by (intros x Hx; apply HB; now right). specialize (IH HBs).
  assert (Hc : (c < 256)%N) by (apply HB; now left).
  cbn [fields_split option_map]. destruct (is_sep c) eqn:E.
  - unfold is_sep in E. assert (iri_to_uri (c :: s) = c :: iri_to_uri s) as ->.
    { unfold iri_to_uri. rewrite quote_cons. assert (c = 38 \/ c = 59)%N as [->| ->] by (unfold amp, semic in E; lia); reflexivity. }
    cbn [fields_split option_map]. unfold is_sep. rewrite E. cbn [map]. now rewrite IH.
  - destruct (fields_split None s) as [|h r] eqn:EF; [now apply fields_split_nonnil in EF|]. cbn [map] in IH |- *.
    change (iri_to_uri (c :: s)) with (quote_byte iri_safe c ++ iri_to_uri s).
    now rewrite (fields_split_prefix _ _ _ _ (quote_byte_sep c Hc E) IH).
Qed.
Lemma quoted_field blank f : is_bytes f ->
  qsl_field blank (iri_to_uri f) = match qsl_field blank f with Some (n, v) => Some (iri_to_uri n, iri_to_uri v) | None => None end.
Proof.
  intros HB. assert (HN : forall s, nonempty (iri_to_uri s) = nonempty s).
  { intros [|c s]; [reflexivity|]. unfold iri_to_uri. rewrite quote_cons. unfold quote_byte. now destruct (_ || _). }
  assert (HX : forall s, qsl_field blank s = if nonempty s then match split1 equal s with
      | Some (n, v) => if nonempty v || blank then Some (n, v) else None | None => if blank then Some (s, []) else None end else None) by (now intros [|c s]).
  rewrite !HX, HN. destruct (nonempty f); [|reflexivity]. destruct (split1_cases equal f) as [(n & v & -> & Hn & ->)|[Hn ->]].
  - assert (iri_to_uri (n ++ equal :: v) = iri_to_uri n ++ equal :: iri_to_uri v) as -> by (unfold iri_to_uri; now rewrite quote_app, quote_cons).
    rewrite split1_in, HN; [now destruct (nonempty v || blank)|]. apply quote_eq_in; [|exact Hn]. intros x Hx. apply HB, in_or_app. now left.
  - rewrite split1_notin by now apply quote_eq_in. now destruct blank.
Qed.
(** '+' is a space before and after *)
Definition space_safe : str := 32%N :: filter (fun c => negb (N.eqb c plus)) iri_safe.
Lemma quote_plus s : ~ In 32%N s -> is_bytes s -> replacec plus 32%N (iri_to_uri s) = quote space_safe (replacec plus 32%N s).
Proof.
  induction s as [|c s IH]; intros Hs HB; [reflexivity|].
  assert (HBs : is_bytes s) by (intros x Hx; apply HB; now right).
  assert (Hc : (c < 256)%N) by (apply HB; now left).
  change (iri_to_uri (c :: s)) with (quote_byte iri_safe c ++ iri_to_uri s). unfold replacec in *. rewrite map_app, IH; [|intros H; apply Hs; now right|exact HBs].
  cbn [map]. rewrite quote_cons. f_equal. destruct (N.eqb_spec c plus) as [->|Hp]; [reflexivity|].
  assert (mem c space_safe = mem c iri_safe) as HM.
  { unfold space_safe. apply eq_true_iff_eq. rewrite !mem_In. cbn [In]. rewrite filter_In, negb_true_iff, N.eqb_neq. split; [|tauto].
    intros [E|[H _]]; [|exact H]. exfalso. apply Hs. now left. }
  unfold quote_byte. rewrite HM. destruct (_ || _).
  - cbn [map]. destruct (N.eqb_spec c plus); [easy|reflexivity].
  - assert (H1 : is_HEX (hexdig (c / 16)) = true) by (apply hexdig_HEX, N.div_lt_upper_bound; lia).
    assert (H2 : is_HEX (hexdig (c mod 16)) = true) by (apply hexdig_HEX, N.mod_lt; lia).
    unfold is_HEX, is_digit in H1, H2. cbn [map]. unfold plus, percent in *. repeat (match goal with |- context[N.eqb ?a ?b] => destruct (N.eqb_spec a b); [lia|] end). reflexivity.
Qed.
Lemma iri_ascii_only s : is_bytes s -> ascii_only (iri_to_uri s) = true.
Proof.
  intros HB. apply forallb_forall. intros x Hx. apply N.ltb_lt. apply (quote_ascii iri_safe s (is_bytes_only s HB)) in Hx; [exact Hx|].
  intros c Hc. cbn in Hc. repeat (destruct Hc as [<-|Hc]; [reflexivity|]). easy.
Qed.
Lemma unquote_quoted reg cs c s : reg cs = Some c -> codec_ok c -> ascii_only s = true -> ~ In 32%N s ->
  unquote reg cs (replacec plus 32%N (iri_to_uri s)) = unquote reg cs (replacec plus 32%N s).
Proof.
  intros Hc Hok HA Hs. pose proof (ascii_bytes s HA) as HB.
  rewrite !(QueryFacts.unquote_ascii reg cs c) by (try assumption; apply replacec_ascii; try assumption; try reflexivity; now apply iri_ascii_only).
  rewrite quote_plus by assumption. rewrite unquote_quote_any; [reflexivity|reflexivity|].
  apply ascii_bytes, replacec_ascii; [reflexivity|exact HA].
Qed.
Lemma field_chars blank f n v x : qsl_field blank f = Some (n, v) -> In x n \/ In x v -> In x f.
Proof.
  unfold qsl_field. destruct f as [|c f]; [discriminate|]. destruct (split1_cases equal (c :: f)) as [(a & b & -> & _ & ->)|[_ ->]].
  - destruct (_ || _); intros [= <- <-] H. rewrite in_app_iff. cbn [In]. tauto.
  - destruct blank; intros [= <- <-] H. now destruct H.
Qed.
Lemma split_chars s f x : In f (fields_split None s) -> In x f -> In x s.
Proof.
  revert f. induction s as [|c s IH]; intros f Hf Hx; cbn [fields_split option_map] in Hf.
  - destruct Hf as [<-|[]]. easy.
  - destruct (is_sep c); [destruct Hf as [<-|Hf]; [easy|right; now apply (IH f)]|].
    destruct (fields_split None s) as [|h r] eqn:E; [now apply fields_split_nonnil in E|].
    destruct Hf as [<-|Hf]; [destruct Hx as [->|Hx]; [now left|right; apply (IH h); [now left|exact Hx]]|right; apply (IH f); [now right|exact Hx]].
Qed.
Lemma qsl_quoted reg cs c blank : reg cs = Some c -> codec_ok c -> forall L, (forall f x, In f L -> In x f -> (x < 128)%N /\ x <> 32%N) ->
  qsl_loop reg cs blank (map iri_to_uri L) = qsl_loop reg cs blank L.
Proof.
  intros Hc Hok. induction L as [|f L IH]; intros HL; [reflexivity|]. cbn [map]. rewrite !qsl_loop_cons, IH by (intros g x Hg; apply HL; now right).
  assert (HF : forall x, In x f -> (x < 128)%N /\ x <> 32%N) by (intros x; apply HL; now left).
  rewrite quoted_field by (intros x Hx; apply HF in Hx; lia).
  destruct (qsl_field blank f) as [[n v]|] eqn:EF; [|reflexivity].
  assert (HP : forall t, t = n \/ t = v -> ascii_only t = true /\ ~ In 32%N t).
  { intros t Ht. assert (HI : forall x, In x t -> (x < 128)%N /\ x <> 32%N).
    { intros x Hx. apply HF, (field_chars blank f n v x EF). destruct Ht as [<-|<-]; tauto. }
    split; [apply forallb_forall; intros x Hx; apply HI in Hx; unfold is_ascii; lia|]. intros H. now apply HI in H. }
  destruct (HP n (or_introl eq_refl)) as [A1 S1]. destruct (HP v (or_intror eq_refl)) as [A2 S2].
  cbn [field_res]. now rewrite (unquote_quoted reg cs c n Hc Hok A1 S1), (unquote_quoted reg cs c v Hc Hok A2 S2).
Qed.
Lemma quoted_separators s : is_bytes s -> separators (iri_to_uri s) = separators s.
Proof. intros HB. pose proof (fields_split_length (iri_to_uri s)) as H. rewrite quoted_fields, map_length, fields_split_length in H by exact HB. lia. Qed.
Theorem C149_pairs :
  forall reg cs blank limit q, known_charset reg cs -> ascii_text q -> ~ In 32%N q ->
    limited_parse_qsl reg (iri_to_uri q) blank cs limit = limited_parse_qsl reg q blank cs limit.
Proof.
  intros reg cs blank limit q (c & Hc & Hok) HA Hs.
  assert (HB : is_bytes q) by (intros x Hx; apply HA in Hx; lia).
  assert (E : qsl_loop reg cs blank (fields_split None (iri_to_uri q)) = qsl_loop reg cs blank (fields_split None q)).
  { rewrite quoted_fields by exact HB. apply (qsl_quoted reg cs c); [exact Hc|exact Hok|]. intros f x Hf Hx. pose proof (split_chars _ _ _ Hf Hx) as HX.
    split; [now apply HA|]. intros ->. easy. }
  unfold limited_parse_qsl, qsl_pairs.
  destruct limit as [z|]; [|exact E]. destruct (Z.eqb z 0); [exact E|]. cbv zeta. rewrite !fields_split_max, quoted_separators by exact HB.
  destruct (Z.ltb z _) eqn:EL; [reflexivity|]. cbn [bind]. pose proof (quoted_separators q HB) as HQ. rewrite !fields_split_below by lia. exact E.
Qed.
Print Assumptions C149_pairs.
Lemma querydict_quoted reg st q mut : ascii_codecs reg -> ascii_text q -> ~ In 32%N q ->
  querydict reg (Some st) (Some (PB (iri_to_uri q))) mut = querydict reg (Some st) (Some (PB q)) mut.
Proof.
  intros HK HA Hs.
  assert (HB : is_bytes q) by (intros x Hx; apply HA in Hx; lia).
  assert (A1 : ascii_only q = true) by (apply forallb_forall; intros x Hx; apply HA in Hx; unfold is_ascii; lia).
  pose proof (iri_ascii_only q HB) as A2.
  assert (EN : nonempty (iri_to_uri q) = nonempty q).
  { destruct q as [|c s]; [reflexivity|]. unfold iri_to_uri. rewrite quote_cons. unfold quote_byte. now destruct (_ || _). }
  pose proof (fun c Hc Hok b => C149_pairs reg (qs_charset st) b (qs_limit st) q (ex_intro _ c (conj Hc Hok)) HA Hs) as EP.
  remember (iri_to_uri q) as z eqn:Ez. clear Ez. destruct q as [|x q], z as [|y z]; try discriminate EN; [reflexivity|].
  unfold querydict. cbn [pnonempty pchars nonempty]. unfold query_text. cbn [pchars]. unfold decode.
  destruct (reg (qs_charset st)) as [c|] eqn:Hc; [|reflexivity].
  pose proof (HK _ _ Hc) as Hok. rewrite (cok_dec_ascii c Hok _ A1), (cok_dec_ascii c Hok _ A2). cbn [bind].
  now rewrite (EP c eq_refl Hok).
Qed.

(** ** What a request line says about its parts *)
Lemma line_known url u : urlparse url = Ok u -> ~ In 32%N url ->
  ascii_text (up_path u) /\ ascii_text (up_query u) /\ ~ In 32%N (up_path u) /\ ~ In 32%N (up_query u) /\ ~ In 35%N (up_query u).
Proof.
  intros EU HS.
  assert (HA : forall x, In x url -> (x < 128)%N).
  { unfold urlparse in EU. destruct (ascii_only url) eqn:E; [|discriminate]. unfold ascii_only in E. rewrite forallb_forall in E.
    intros x Hx. apply E in Hx. unfold is_ascii in Hx. lia. }
  destruct (C12_url_split_lossless url u EU) as (s0 & S & N & P & Q & F & E & _ & _ & _ & _ & HQQ & _ & _ & _ & HH).
  assert (H1 : forall x, In x (up_path u) -> In x url) by (intros x Hx; rewrite E, !in_app_iff; tauto).
  assert (H2 : forall x, In x (up_query u) -> In x url).
  { intros x Hx. rewrite E, !in_app_iff. destruct HQQ as [-> |[-> E0]]; [right; right; right; right; left; apply in_or_app; now right|rewrite E0 in Hx; easy]. }
  split; [intros x Hx; now apply HA, H1|]. split; [intros x Hx; now apply HA, H2|]. split; [intros H; now apply HS, H1|]. split; [intros H; now apply HS, H2|exact HH].
Qed.
(** the address of a path below one slash and a query is a request target with these, escaped, for components *)
Definition address (path q : str) : str := escape_uri_path false path ++ (if nonempty q then !"?" ++ iri_to_uri q else []).
Theorem C149_usable :
  forall t q, ascii_text t -> ascii_text q -> ~ In 35%N q -> startswith t !"/" = false ->
    ~ In 32%N (address (47%N :: t) q) /\
    target (address (47%N :: t) q) (mkParse [] [] (escape_uri_path false (47%N :: t)) [] (iri_to_uri q) []).
Proof.
  intros t q HT HQ Hh Ht.
  assert (B1 : is_bytes (47%N :: t)) by (intros x [<-|Hx]; [lia|apply HT in Hx; lia]).
  assert (B2 : is_bytes q) by (intros x Hx; apply HQ in Hx; lia).
  pose proof (fun c Hc => C61_escape_uri_path_output false (47%N :: t) c B1 Hc) as HO.
  assert (HI : forall c, In c (iri_to_uri q) -> (c < 128)%N /\ c <> 32%N).
  { intros c Hc. apply (C60_iri_to_uri_output q B2) in Hc. cbn in Hc. repeat (destruct Hc as [<-|Hc]; [split; [reflexivity|discriminate]|]). easy. }
  assert (HC : forall c, In c (address (47%N :: t) q) -> (c < 128)%N /\ c <> 32%N).
  { intros c Hc. unfold address in Hc. apply in_app_or in Hc as [Hc|Hc]; [destruct (HO c Hc); lia|]. destruct (nonempty q); [|easy].
    apply in_app_or in Hc as [[<-|[]]|Hc]; [now split|now apply HI]. }
  split; [intros H; now apply HC in H|].
  apply (target_origin _ _ (escape_uri_path false (47%N :: t)) (iri_to_uri q) []); [reflexivity| | | | |].
  - unfold address. f_equal. cbn [with_delim]. rewrite app_nil_r. destruct q as [|c q]; [reflexivity|]. cbn [nonempty].
    destruct (iri_to_uri (c :: q)) eqn:E; [|reflexivity]. unfold iri_to_uri in E. rewrite quote_cons in E. unfold quote_byte in E. destruct (_ || _) in E; discriminate.
  - intros c Hc. now apply HC.
  - exists (escape_uri_path false t). split; [reflexivity|]. destruct t as [|c t]; [reflexivity|]. unfold escape_uri_path. rewrite quote_cons. unfold quote_byte.
    destruct (_ || _); [exact Ht|reflexivity].
  - intros c Hc. destruct (HO c Hc) as (_ & H1 & H2 & H3 & _). now repeat split.
  - intros H. unfold iri_to_uri in H. apply (quote_chars iri_safe q 35%N (is_bytes_only q B2)) in H as [[_ H]|[H|H]]; [easy|discriminate|discriminate].
Qed.
Print Assumptions C149_usable.

(** ** The request for the reported address *)
Lemma escape_fixed path : is_bytes path -> escape_uri_path false (escape_uri_path false path) = escape_uri_path false path.
Proof. intros HB. unfold escape_uri_path. apply quote_idempotent; [reflexivity|now apply is_bytes_only]. Qed.
Lemma endswith_one s c x : endswith (s ++ [x]) [c] = N.eqb c x.
Proof. unfold endswith. rewrite rev_app_distr. cbn. apply andb_true_r. Qed.
Lemma endswith_slash_quote path : endswith (escape_uri_path false path) !"/" = endswith path !"/".
Proof.
  destruct path as [|x y] using rev_ind; [reflexivity|]. clear IHy. change !"/" with [47%N]. unfold escape_uri_path. rewrite quote_app.
  cbn [quote flat_map]. rewrite app_nil_r. unfold quote_byte. destruct (_ || _) eqn:E.
  - now rewrite !endswith_one.
  - change [percent; hexdig (x / 16); hexdig (x mod 16)] with ([percent; hexdig (x / 16)] ++ [hexdig (x mod 16)]). rewrite app_assoc, !endswith_one.
    assert (H : is_HEX (hexdig (x mod 16)) = true) by (apply hexdig_HEX, N.mod_lt; lia). unfold is_HEX, is_digit in H.
    destruct (N.eqb_spec 47 (hexdig (x mod 16))); [lia|]. symmetry. apply N.eqb_neq. intros <-. discriminate E.
Qed.
Theorem C149_leads_back :
  forall reg st s s' r r' w w' m m' v v' url p t st1 r1 st1' r1',
    request_init reg st s = Ok r -> request_init reg st s' = Ok r' -> delivers s w -> delivers s' w' -> max_ok (s_hdr st) -> ascii_codecs reg ->
    request_line w m url v -> request_line w' m' p v' -> agree_on [!"Content-Type"] w w' ->
    parse_request_header reg (st, r) = (Ok tt, (st1, r1)) -> parse_request_header reg (st, r') = (Ok tt, (st1', r1')) ->
    get_path r1 = Ok (47%N :: t) -> startswith t !"/" = false -> get_full_path false r1 = Ok p ->
    (forall sl, get_full_path sl r1' = get_full_path sl r1) /\
    (exists path', get_path r1' = Ok path' /\ unquote_to_bytes path' = unquote_to_bytes (47%N :: t)) /\
    st1' = st1 /\ r_get r1' = r_get r1.
Proof.
  intros reg st s s' r r' w w' m m' v v' url p t st1 r1 st1' r1' Hi Hi' Hd Hd' Hm HR HL HL' HA HP HP' Ep Ht Ef.
  destruct (header_known _ _ _ _ _ _ _ Hi Hd Hm HP) as (l & host & h & c & ch & g & El & Ea & Eme & Eh & Ec & Es & Eg & Er).
  destruct (header_known _ _ _ _ _ _ _ Hi' Hd' Hm HP') as (l' & host' & h' & c' & ch' & g' & El' & Ea' & Eme' & Eh' & Ec' & Es' & Eg' & Er').
  destruct HL as (HL & L1 & L2 & L3). pose proof (C11_method_and_version_verbatim m url v L1 L2 L3) as H11. rewrite HL in El. rewrite El in H11.
  destruct H11 as (_ & _ & EU). destruct (line_known _ _ EU L2) as (K1 & K2 & K3 & K4 & K5). cbn [up_path up_query] in K1, K2, K3, K4, K5.
  assert (EP : rl_path l = 47%N :: t).
  { unfold get_path, attr in Ep. rewrite Ea in Ep. cbn [line_attrs a_path bind] in Ep. now injection Ep. }
  assert (HF : forall sl, get_full_path sl r1 = Ok (escape_uri_path false (47%N :: t) ++ (if sl && negb (endswith (47%N :: t) !"/") then !"/" else [])
        ++ (if nonempty (rl_query l) then !"?" ++ iri_to_uri (rl_query l) else []))).
  { intros sl. unfold get_full_path, get_query. rewrite Ep, Eme. reflexivity. }
  assert (p = address (47%N :: t) (rl_query l)) as ->. { rewrite HF in Ef. injection Ef as <-. reflexivity. }
  assert (KT : ascii_text t) by (intros x Hx; apply K1; rewrite EP; now right).
  destruct (C149_usable t (rl_query l) KT K2 K5 Ht) as [_ HT].
  destruct (line_parts _ _ _ _ _ _ HL' HT El') as (_ & _ & _ & _ & P5 & P6). cbn [up_path up_query] in P5, P6.
  assert (B1 : is_bytes (47%N :: t)) by (intros x [<-|Hx]; [lia|apply KT in Hx; lia]).
  assert (B2 : is_bytes (rl_query l)) by (intros x Hx; apply K2 in Hx; lia).
  assert (EN : nonempty (iri_to_uri (rl_query l)) = nonempty (rl_query l)).
  { destruct (rl_query l) as [|x y]; [reflexivity|]. unfold iri_to_uri. rewrite quote_cons. unfold quote_byte. now destruct (_ || _). }
  assert (Ep' : get_path r1' = Ok (escape_uri_path false (47%N :: t))) by (unfold get_path, attr; rewrite Ea'; cbn [line_attrs a_path bind]; now rewrite P5).
  assert (st1' = st1 /\ ctype_of reg h = ctype_of reg h') as [E1 _].
  { assert (header !"Content-Type" h = header !"Content-Type" h') as HC.
    { apply (header_agree !"Content-Type" h h' w w' [!"Content-Type"]); [now left|exact HA|now apply Eh|now apply Eh']. }
    assert (ctype_of reg h = ctype_of reg h') as HE by (unfold HeaderRun.ctype_of; now rewrite HC).
    split; [|exact HE]. rewrite HE, Ec' in Ec. injection Ec as _ E. now rewrite Es, Es', E. }
  split; [|split; [|split; [exact E1|]]].
  - intros sl. rewrite HF. unfold get_full_path, get_query. rewrite Ep', Eme'. cbn [bind m_query]. rewrite P6, escape_fixed, endswith_slash_quote, EN by exact B1.
    now rewrite C60_iri_to_uri_idempotent by exact B2.
  - exists (escape_uri_path false (47%N :: t)). split; [exact Ep'|]. apply unquote_quote_any; [reflexivity|exact B1].
  - rewrite Er, Er'. f_equal. rewrite E1, P6 in Eg'. unfold query_of in Eg, Eg'. rewrite EN in Eg'.
    destruct (nonempty (rl_query l)); [|congruence]. rewrite querydict_quoted in Eg' by assumption. congruence.
Qed.
Print Assumptions C149_leads_back.

(** a path that begins with two slashes is not found again: the address names another host *)
Theorem C149_two_slashes_refuted :
  exists ls ls' p, let '(x, (_, r)) := run hdr ex_set (req ls []) in let '(x', (_, r')) := run hdr ex_set (req ls' []) in
    ls = [!"GET http://a//b/c HTTP/1.1"; !"Host: a"] /\ ls' = [!"GET " ++ p ++ !" HTTP/1.1"; !"Host: a"] /\
    x = Ok tt /\ x' = Ok tt /\ get_full_path false r = Ok p /\ get_path r = Ok !"//b/c" /\ get_path r' = Ok !"/c" /\
    a_host (r_attrs r) <> a_host (r_attrs r').
Proof.
  exists [!"GET http://a//b/c HTTP/1.1"; !"Host: a"], [!"GET //b/c HTTP/1.1"; !"Host: a"], !"//b/c". vm_compute. repeat split. discriminate.
Qed.
Print Assumptions C149_two_slashes_refuted.
Example C149_case :
  let '(x, (_, r)) := run hdr ex_set (req [!"GET http://h:80/a{b}/%7ec?x=1+2&y={%7B%zz"";z HTTP/1.1"; !"Accept: x"] []) in
  let '(x', (_, r')) := run hdr ex_set (req [!"POST /a%7Bb%7D/%7ec?x=1+2&y=%7B%7B%zz%22;z HTTP/1.0"; !"Host: other"] !"body") in
  x = Ok tt /\ x' = Ok tt /\ get_full_path false r = Ok !"/a%7Bb%7D/%7ec?x=1+2&y=%7B%7B%zz%22;z" /\ get_full_path false r' = get_full_path false r /\
  get_path r <> get_path r' /\ r_get r <> None /\ r_get r = r_get r'.
Proof. vm_compute. repeat split; discriminate. Qed.
