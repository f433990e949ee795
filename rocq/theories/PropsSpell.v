(** * C145: equivalent spellings of a form *)
From Coq Require Import ZifyBool ZifyN ZifyNat.
From Verif Require Import Py Spec HeadSpec PyFacts PyDict StreamModel StreamSpec StreamFacts StreamCalm CodecModel CodecFacts PercentModel QuerySpec
  QueryModel QueryFacts HeadModel HeadFacts UrlFacts HeaderModel BoundaryModel UploadModel MultipartModel ReaderSim
  RequestModel RequestSpec HeaderRun BodyRun ParseRun RequestRel RequestMulti TwinFacts DateSpec PropsDate PropsHead PropsPart PropsRequest PropsBody PropsEnd PropsSame PropsForm PropsOrder PropsList PropsLine PropsCharset.

(** A form is a text over separators, '=' and bytes.  A separator is written '&' or ';', a space may be written '+', every byte may
    be written as an escape, and a byte of ASCII without a meaning of its own as itself. *)
Inductive sign := Sep | Eq | Byte (n : N).
Inductive spelled : list sign -> str -> Prop :=
| sp_nil : spelled [] []
| sp_sep c l s : separator c -> spelled l s -> spelled (Sep :: l) (c :: s)
| sp_eq l s : spelled l s -> spelled (Eq :: l) (61%N :: s)
| sp_char c l s : (c < 128)%N -> ~ In c !"&;=%+" -> spelled l s -> spelled (Byte c :: l) (c :: s)
| sp_plus l s : spelled l s -> spelled (Byte 32 :: l) (43%N :: s)
| sp_hex a b x y l s : hex_value a x -> hex_value b y -> spelled l s -> spelled (Byte (N.of_nat (x * 16 + y)) :: l) (37%N :: a :: b :: s).

Lemma hex_plain c v : hex_value c v -> (c < 128)%N /\ c <> 43%N /\ c <> 37%N /\ c <> 38%N /\ c <> 59%N /\ c <> 61%N.
Proof. intros H. do 16 (destruct v as [|v]; [destruct H as [[= <-]|[= <-]]; repeat split; discriminate|]). destruct H as [H|H]; destruct v; discriminate H. Qed.
Lemma spelled_ascii l s : spelled l s -> ascii_only s = true.
Proof.
  induction 1 as [|c l s Hc H IH|l s H IH|c l s Hc Hn H IH|l s H IH|a b x y l s Ha Hb H IH]; unfold ascii_only in *; cbn [forallb]; rewrite ?IH; try reflexivity.
  - destruct Hc as [->| ->]; reflexivity.
  - unfold is_ascii. lia.
  - apply hex_plain in Ha, Hb. unfold is_ascii. lia.
Qed.
Definition is_sepsign (x : sign) : bool := match x with Sep => true | _ => false end.
Definition val (x : sign) : N := match x with Byte n => n | Eq => 61%N | Sep => 38%N end.
Lemma sep_iff c : is_sep c = true <-> separator c.
Proof. unfold is_sep, separator, amp, semic. lia. Qed.
Lemma spelled_separators l s : spelled l s -> separators s = length (filter is_sepsign l).
Proof.
  induction 1 as [|c l s Hc H IH|l s H IH|c l s Hc Hn H IH|l s H IH|a b x y l s Ha Hb H IH]; cbn [separators filter is_sepsign length]; rewrite ?IH; try reflexivity.
  - destruct Hc as [->| ->]; reflexivity.
  - replace (N.eqb c 38 || N.eqb c 59) with false; [reflexivity|]. cbn in Hn. lia.
  - apply hex_plain in Ha, Hb. replace (N.eqb a 38 || N.eqb a 59) with false by lia. now replace (N.eqb b 38 || N.eqb b 59) with false by lia.
Qed.
(** the signs of the fields *)
Fixpoint cut (l : list sign) : list (list sign) :=
  match l with
  | [] => [[]]
  | Sep :: t => [] :: cut t
  | x :: t => match cut t with h :: r => (x :: h) :: r | [] => [[x]] end
  end.
Lemma spelled_fields l s : spelled l s -> Forall2 spelled (cut l) (fields_split None s).
Proof.
  induction 1 as [|c l s Hc H IH|l s H IH|c l s Hc Hn H IH|l s H IH|a b x y l s Ha Hb H IH].
  - repeat constructor.
  - cbn [cut fields_split]. apply sep_iff in Hc. rewrite Hc. cbn [option_map]. constructor; [constructor|exact IH].
  - cbn [cut fields_split]. change (is_sep 61) with false. cbv iota. destruct IH as [|h h' r r' Hh HR]; repeat constructor; assumption.
  - cbn [cut fields_split]. replace (is_sep c) with false by (unfold is_sep, amp, semic; cbn in Hn; lia). cbv iota.
    destruct IH as [|h h' r r' Hh HR]; (constructor; [apply sp_char; try assumption; try apply sp_nil|try assumption; apply Forall2_nil]).
  - cbn [cut fields_split]. change (is_sep 43) with false. cbv iota. destruct IH as [|h h' r r' Hh HR]; repeat constructor; assumption.
  - cbn [cut fields_split]. change (is_sep 37) with false. pose proof (hex_plain _ _ Ha) as Pa. pose proof (hex_plain _ _ Hb) as Pb.
    replace (is_sep a) with false by (unfold is_sep, amp, semic; lia). replace (is_sep b) with false by (unfold is_sep, amp, semic; lia). cbv iota.
    destruct IH as [|h h' r r' Hh HR]; (constructor; [apply sp_hex; try assumption; try apply sp_nil|try assumption; apply Forall2_nil]).
Qed.
(** the signs of the name and of the value *)
Fixpoint cut1 (l : list sign) : option (list sign * list sign) :=
  match l with
  | [] => None
  | Eq :: t => Some ([], t)
  | x :: t => match cut1 t with Some (a, b) => Some (x :: a, b) | None => None end
  end.
Definition spelled2 (x : option (list sign * list sign)) (y : option (str * str)) : Prop :=
  match x, y with Some (a, b), Some (n, v) => spelled a n /\ spelled b v | None, None => True | _, _ => False end.
Lemma split1_cons c x s : split1 c (x :: s) = if N.eqb x c then Some ([], s) else match split1 c s with Some (n, v) => Some (x :: n, v) | None => None end.
Proof. unfold split1. cbn [findc]. destruct (N.eqb x c); [reflexivity|]. now destruct (findc c s). Qed.
Lemma spelled_split l s : spelled l s -> spelled2 (cut1 l) (split1 equal s).
Proof.
  induction 1 as [|c l s Hc H IH|l s H IH|c l s Hc Hn H IH|l s H IH|a b x y l s Ha Hb H IH].
  - exact I.
  - cbn [cut1]. rewrite ?split1_cons. replace (N.eqb c equal) with false by (unfold equal; destruct Hc; lia).
    destruct (cut1 l) as [[p q]|], (split1 equal s) as [[n v]|]; try exact IH. destruct IH. split; [now constructor|assumption].
  - cbn [cut1]. rewrite ?split1_cons. change (N.eqb 61 equal) with true. split; [constructor|exact H].
  - cbn [cut1]. rewrite ?split1_cons. replace (N.eqb c equal) with false by (unfold equal; cbn in Hn; lia).
    destruct (cut1 l) as [[p q]|], (split1 equal s) as [[n v]|]; try exact IH. destruct IH. split; [now constructor|assumption].
  - cbn [cut1]. rewrite ?split1_cons. change (N.eqb 43 equal) with false.
    destruct (cut1 l) as [[p q]|], (split1 equal s) as [[n v]|]; try exact IH. destruct IH. split; [now constructor|assumption].
  - cbn [cut1]. rewrite ?split1_cons. change (N.eqb 37 equal) with false. pose proof (hex_plain _ _ Ha) as Pa. pose proof (hex_plain _ _ Hb) as Pb.
    replace (N.eqb a equal) with false by (unfold equal; lia). replace (N.eqb b equal) with false by (unfold equal; lia).
    destruct (cut1 l) as [[p q]|], (split1 equal s) as [[n v]|]; try exact IH. destruct IH. split; [now constructor|assumption].
Qed.
(** what an unquoted text is *)
Lemma spelled_bytes l s : spelled l s -> ~ In Sep l -> unquote_to_bytes (replacec plus 32%N s) = map val l /\ (mem percent (replacec plus 32%N s) = false -> replacec plus 32%N s = map val l).
Proof.
  induction 1 as [|c l s Hc H IH|l s H IH|c l s Hc Hn H IH|l s H IH|a b x y l s Ha Hb H IH]; intros HS.
  - split; reflexivity.
  - exfalso. apply HS. now left.
  - destruct IH as [I1 I2]; [intros HI; apply HS; now right|]. split.
    + cbn [replacec map]. change (N.eqb 61 plus) with false. cbv iota. rewrite unquote_to_bytes_other by discriminate. unfold replacec in I1. now rewrite I1.
    + cbn [replacec map mem existsb]. unfold replacec, mem in *. cbn. intros HM. now rewrite I2.
  - destruct IH as [I1 I2]; [intros HI; apply HS; now right|].
    assert (E1 : replacec plus 32%N (c :: s) = c :: replacec plus 32%N s).
    { unfold replacec. cbn [map]. replace (N.eqb c plus) with false; [reflexivity|]. unfold plus. cbn in Hn. lia. }
    rewrite E1. split.
    + rewrite unquote_to_bytes_other; [cbn [map val]; now rewrite I1|]. intros ->. exfalso. apply Hn. cbn. tauto.
    + cbn [mem existsb map val]. intros HM. rewrite I2; [reflexivity|]. unfold mem in *. cbn in HM. now apply orb_false_iff in HM.
  - destruct IH as [I1 I2]; [intros HI; apply HS; now right|].
    change (replacec plus 32%N (43%N :: s)) with (32%N :: replacec plus 32%N s). split.
    + rewrite unquote_to_bytes_other by discriminate. cbn [map val]. now rewrite I1.
    + intros HM. cbn [map val]. rewrite I2; [reflexivity|]. exact HM.
  - destruct IH as [I1 _]; [intros HI; apply HS; now right|]. pose proof (hex_plain _ _ Ha) as Pa. pose proof (hex_plain _ _ Hb) as Pb.
    assert (E1 : replacec plus 32%N (37%N :: a :: b :: s) = 37%N :: a :: b :: replacec plus 32%N s).
    { unfold replacec. cbn [map]. change (N.eqb 37 plus) with false. replace (N.eqb a plus) with false by (unfold plus; lia). now replace (N.eqb b plus) with false by (unfold plus; lia). }
    rewrite E1. split; [|discriminate].
    apply hex_value_hexval in Ha, Hb. rewrite (unquote_to_bytes_hex _ _ _ _ _ Ha Hb). cbn [map val]. rewrite I1. f_equal. lia.
Qed.
Lemma plus_ascii s : ascii_only s = true -> ascii_only (replacec plus 32%N s) = true.
Proof. unfold ascii_only, replacec. rewrite !forallb_forall. intros HA x (y & <- & Hy)%in_map_iff. destruct (N.eqb y plus); [reflexivity|now apply HA]. Qed.
Lemma unquote_spelled reg cs c l s : reg cs = Some c -> codec_ok c -> ~ In Sep l -> spelled l s ->
  unquote reg cs (replacec plus 32%N s) = Ok (c_rep c (map val l)).
Proof.
  intros Hc Hok HS H. destruct (spelled_bytes l s H HS) as [HU HN]. pose proof (plus_ascii s (spelled_ascii l s H)) as HA.
  unfold unquote. destruct (mem percent (replacec plus 32%N s)) eqn:EM.
  - rewrite Hc. f_equal. destruct (replacec plus 32%N s) as [|x t] eqn:E; [discriminate EM|]. cbn [unquote_runs].
    assert (HX : is_ascii x = true) by (unfold ascii_only in HA; cbn [forallb] in HA; now apply andb_true_iff in HA).
    rewrite HX, (run_ascii _ HA), HU. apply app_nil_r.
  - rewrite <- (HN eq_refl). f_equal. symmetry. apply (cok_rep c Hok). now apply (cok_dec_ascii c Hok).
Qed.
Lemma spelled_nil l s : spelled l s -> (nonempty s = negb (match l with [] => true | _ => false end)).
Proof. now destruct 1. Qed.
Lemma cut1_in l a b : cut1 l = Some (a, b) -> ~ In Sep l -> ~ In Sep a /\ ~ In Sep b.
Proof.
  revert a b. induction l as [|x l IH]; intros a b E HS; [discriminate E|].
  assert (HS' : ~ In Sep l) by (intros HI; apply HS; now right).
  destruct x; [exfalso; apply HS; now left| |].
  - injection E as <- <-. now split.
  - cbn [cut1] in E. destruct (cut1 l) as [[p q]|]; [|discriminate E]. injection E as <- <-. destruct (IH p q eq_refl HS'). split; [|assumption].
    intros [HI|HI]; [discriminate HI|contradiction].
Qed.
Lemma cut_in l : Forall (fun x => ~ In Sep x) (cut l).
Proof.
  induction l as [|x l IH]; [repeat constructor; easy|]. destruct x; cbn [cut].
  - constructor; [easy|exact IH].
  - destruct (cut l) as [|h r]; [repeat constructor; intros [HI|[]]; discriminate|]. apply Forall_cons_iff in IH as [Hh Hr]. constructor; [|exact Hr]. intros [HI|HI]; [discriminate HI|contradiction].
  - destruct (cut l) as [|h r]; [repeat constructor; intros [HI|[]]; discriminate|]. apply Forall_cons_iff in IH as [Hh Hr]. constructor; [|exact Hr]. intros [HI|HI]; [discriminate HI|contradiction].
Qed.
Lemma qsl_spelled reg cs c blank : reg cs = Some c -> codec_ok c -> forall L A B, Forall2 spelled L A -> Forall2 spelled L B -> Forall (fun x => ~ In Sep x) L ->
  qsl_loop reg cs blank A = qsl_loop reg cs blank B.
Proof.
  intros Hc Hok L A B HA. revert B. induction HA as [|l f L A Hf HA IH]; intros B HB HS; inversion HB as [|l' g L' B' Hg HB']; subst; [reflexivity|].
  apply Forall_cons_iff in HS as [Hl HS]. cbn [qsl_loop]. rewrite <- (IH B' HB' HS).
  assert (HQ : match qsl_field blank f, qsl_field blank g with
               | Some (n, v), Some (n', v') => exists a b, ~ In Sep a /\ ~ In Sep b /\ spelled a n /\ spelled a n' /\ spelled b v /\ spelled b v'
               | None, None => True | _, _ => False end).
  { unfold qsl_field. pose proof (spelled_nil _ _ Hf) as N1. pose proof (spelled_nil _ _ Hg) as N2. rewrite <- N1 in N2.
    pose proof (spelled_split _ _ Hf) as S1. pose proof (spelled_split _ _ Hg) as S2.
    destruct f as [|x f], g as [|y g]; try discriminate N2; [exact I|].
    destruct (cut1 l) as [[a b]|] eqn:EC, (split1 equal (x :: f)) as [[n v]|], (split1 equal (y :: g)) as [[n' v']|]; try contradiction.
    - destruct S1 as [S1 T1], S2 as [S2 T2]. pose proof (spelled_nil _ _ T1) as E1. pose proof (spelled_nil _ _ T2) as E2. rewrite E1, E2.
      destruct (_ || blank); [|exact I]. destruct (cut1_in _ _ _ EC Hl). exists a, b. now repeat split.
    - destruct blank; [|exact I]. exists l, []. repeat split; try assumption; try easy; constructor. }
  destruct (qsl_field blank f) as [[n v]|], (qsl_field blank g) as [[n' v']|]; try contradiction; [|reflexivity].
  destruct HQ as (a & b & Ha & Hb & S1 & S2 & S3 & S4).
  now rewrite (unquote_spelled reg cs c a n Hc Hok Ha S1), (unquote_spelled reg cs c a n' Hc Hok Ha S2), (unquote_spelled reg cs c b v Hc Hok Hb S3), (unquote_spelled reg cs c b v' Hc Hok Hb S4).
Qed.

(** ** QueryDict and limited_parse_qsl *)
Definition known_charset (reg : registry) (cs : str) : Prop := exists c, reg cs = Some c /\ codec_ok c.
Theorem C145_pairs :
  forall reg cs blank limit l s t, known_charset reg cs -> spelled l s -> spelled l t ->
    limited_parse_qsl reg s blank cs limit = limited_parse_qsl reg t blank cs limit.
Proof.
  intros reg cs blank limit l s t (c & Hc & Hok) Hs Ht. unfold limited_parse_qsl, qsl_pairs.
  pose proof (qsl_spelled reg cs c blank Hc Hok _ _ _ (spelled_fields _ _ Hs) (spelled_fields _ _ Ht) (cut_in l)) as E.
  pose proof (spelled_separators _ _ Hs) as S1. pose proof (spelled_separators _ _ Ht) as S2.
  destruct limit as [z|]; [|exact E]. destruct (Z.eqb z 0); [exact E|]. cbv zeta. rewrite !fields_split_max, S1, S2.
  destruct (Z.ltb z _) eqn:EL; [reflexivity|]. cbn [bind]. rewrite !fields_split_below by lia. exact E.
Qed.
Print Assumptions C145_pairs.
Definition ascii_codecs (reg : registry) : Prop := forall cs c, reg cs = Some c -> codec_ok c.
Lemma querydict_spelled reg st l s t mut : ascii_codecs reg -> spelled l s -> spelled l t ->
  querydict reg (Some st) (Some (PB s)) mut = querydict reg (Some st) (Some (PB t)) mut.
Proof.
  intros HK Hs Ht.
  pose proof (spelled_ascii _ _ Hs) as A1. pose proof (spelled_ascii _ _ Ht) as A2.
  assert (EN : nonempty s = nonempty t) by (now rewrite (spelled_nil _ _ Hs), (spelled_nil _ _ Ht)).
  destruct (reg (qs_charset st)) as [c|] eqn:Hc.
  - pose proof (HK _ _ Hc) as Hok. pose proof (fun b => C145_pairs reg _ b (qs_limit st) l s t (ex_intro _ c (conj Hc Hok)) Hs Ht) as EP.
    destruct s as [|x s], t as [|y t]; try discriminate EN; [reflexivity|].
    unfold querydict. cbn [pnonempty pchars nonempty]. unfold query_text. cbn [pchars]. unfold decode. rewrite Hc, (cok_dec_ascii c Hok _ A1), (cok_dec_ascii c Hok _ A2). cbn [bind]. now rewrite EP.
  - destruct s as [|x s], t as [|y t]; try discriminate EN; [reflexivity|].
    unfold querydict. cbn [pnonempty pchars nonempty]. unfold query_text. cbn [pchars]. unfold decode. now rewrite Hc.
Qed.

(** ** The form in the body *)
Theorem C145_form :
  forall reg n2 mk st s s' r r' w w' st1 r1 w1' l,
    request_init reg st s = Ok r -> request_init reg st s' = Ok r' -> delivers s w -> delivers s' w' -> max_ok (s_hdr st) -> ascii_codecs reg ->
    agree_on [!"Content-Type"] w w' -> spelled l (w_body w) -> spelled l (w_body w') ->
    parse_request_header reg (st, r) = (Ok tt, (st1, r1)) -> parse_request_header reg (st, r') = (Ok tt, w1') ->
    a_ctype (r_attrs r1) = Some (Some !"application/x-www-form-urlencoded") ->
    fits (length (w_body w)) (s_dmem st) -> fits (length (w_body w')) (s_dmem st) ->
    let '(x, (st2, r2)) := parse reg n2 mk (st, r) in let '(x', (st2', r2')) := parse reg n2 mk (st, r') in
    x = x' /\ st2 = st2' /\ r_post r2 = r_post r2' /\ r_files r2 = r_files r2'.
Proof.
  intros reg n2 mk st s s' r r' w w' st1 r1 [st1' r1'] l Hi Hi' Hd Hd' Hm HR HA Hs Hs' HP HP' Hc Hf Hf'.
  destruct (header_known _ _ _ _ _ _ _ Hi Hd Hm HP) as (l1 & host & h & c & ch & g & El & Ea & Eme & Eh & Ec & Es & Eg & Er).
  destruct (header_known _ _ _ _ _ _ _ Hi' Hd' Hm HP') as (l1' & host' & h' & c' & ch' & g' & El' & Ea' & Eme' & Eh' & Ec' & Es' & Eg' & Er').
  assert (HCT : header !"Content-Type" h = header !"Content-Type" h').
  { apply (header_agree !"Content-Type" h h' w w' [!"Content-Type"] (or_introl eq_refl) HA); [apply Eh; discriminate|apply Eh'; discriminate]. }
  unfold ctype_of in Ec, Ec'. rewrite <- HCT, Ec in Ec'. injection Ec' as <- <-. rewrite Ea in Hc. cbn [line_attrs a_ctype] in Hc. injection Hc as ->.
  pose proof (header_ready _ _ _ _ _ _ _ Hi Hd Hm HP) as R. pose proof (header_ready _ _ _ _ _ _ _ Hi' Hd' Hm HP') as R'.
  destruct (ready_set _ _ _ _ _ R) as (_ & Hdm & _ & Hdn & _). assert (st1' = st1) as -> by congruence.
  assert (EC : a_ctype (r_attrs r1) = Some (Some CT_FORM)) by (rewrite Ea; reflexivity).
  assert (EC' : a_ctype (r_attrs r1') = Some (Some CT_FORM)) by (rewrite Ea'; reflexivity).
  destruct R as [a1 a2 a3 a4 a5 (q & a6 & a7) _ _], R' as [b1 b2 b3 b4 b5 (q' & b6 & b7) _ _]. assert (q' = q) as -> by congruence.
  unfold parse, mbind. rewrite HP, HP'. clear HP HP'.
  unfold fits in Hf, Hf'. destruct (s_dmem st) as [m|] eqn:Em; [|easy].
  pose proof (spelled_nil _ _ Hs) as N1. pose proof (spelled_nil _ _ Hs') as N2. rewrite <- N1 in N2.
  destruct (w_body w) as [|x b] eqn:EB, (w_body w') as [|x' b'] eqn:EB'; try discriminate N2.
  - destruct (parse_body_none reg n2 mk 3 st1 r1 a3 a2 a1 ltac:(lia)) as (s2 & _ & ->).
    destruct (parse_body_none reg n2 mk 3 st1 r1' b3 b2 b1 ltac:(lia)) as (s3 & _ & ->).
    destruct (querydict reg (Some (s_query st1)) None false) as [q1|e]; cbn; now repeat split; congruence.
  - destruct (parse_body_some reg n2 mk 3 st1 r1 _ a3 a2 a1 ltac:(lia) ltac:(discriminate)) as (s2 & A2 & ->).
    destruct (parse_body_some reg n2 mk 3 st1 r1' _ b3 b2 b1 ltac:(lia) ltac:(discriminate)) as (s3 & A3 & ->).
    destruct (finish_form reg n2 mk 5 st1 (set_stream s2 (at_body st1 r1)) (x :: b) m) as (s4 & _ & F1); try assumption; try lia.
    destruct (finish_form reg n2 mk 5 st1 (set_stream s3 (at_body st1 r1')) (x' :: b') m) as (s5 & _ & F2); try assumption; try lia.
    cbn zeta in F1, F2. rewrite F1, F2. clear F1 F2. rewrite (querydict_spelled reg (s_query st1) l (x :: b) (x' :: b') false HR Hs Hs').
    destruct (querydict reg (Some (s_query st1)) (Some (PB (x' :: b'))) false) as [q1|e]; [|cbn; now repeat split; congruence].
    unfold decode. destruct (reg (s_charset st1)) as [co|] eqn:Eco; [|cbn; now repeat split; congruence].
    rewrite (cok_dec_ascii co (HR _ _ Eco) _ (spelled_ascii _ _ Hs)), (cok_dec_ascii co (HR _ _ Eco) _ (spelled_ascii _ _ Hs')).
    cbn. now repeat split.
Qed.
Print Assumptions C145_form.

(** ** The query *)
Definition same_but_query (r r' : request) : Prop := same_body r r' /\ r_attrs r = r_attrs r' /\ r_get r = r_get r'.
Theorem C145_query :
  forall reg n2 mk st s s' r r' w w' m v url url' u u' l,
    request_init reg st s = Ok r -> request_init reg st s' = Ok r' -> delivers s w -> delivers s' w' -> max_ok (s_hdr st) -> ascii_codecs reg ->
    request_line w m url v -> request_line w' m url' v -> target url u -> target url' u' ->
    up_scheme u = up_scheme u' -> up_netloc u = up_netloc u' -> up_path u = up_path u' -> spelled l (up_query u) -> spelled l (up_query u') ->
    w_body w = w_body w' -> agree_on [!"Host"; !"Content-Type"; !"Content-Length"] w w' ->
    same_outcome same_but_query (parse reg n2 mk (st, r)) (parse reg n2 mk (st, r')).
Proof.
  intros reg n2 mk st s s' r r' w w' m v url url' u u' ls Hi Hi' Hd Hd' Hm HR HL HL' HT HT' U1 U2 U3 HS HS' HB HA.
  destruct (parse_wire reg st s r w Hi Hd Hm) as (q & s1 & d & Er & Hs1 & Wd & Hg & HP).
  destruct (parse_wire reg st s' r' w' Hi' Hd' Hm) as (q' & t1 & d' & Er' & Ht1 & Wd' & Hg' & HP').
  assert (q' = q) as ->. { rewrite init_eq in Hi, Hi'. destruct (querydict reg (Some (s_query st)) None true); [|easy].
    apply (f_equal (fun x => match x with Ok r => r_get r | Err _ => None end)) in Hi, Hi'. subst r r'. cbn in Hi, Hi'. congruence. }
  destruct (line_ok _ _ _ _ _ HL HT) as (l & El). destruct (line_ok _ _ _ _ _ HL' HT') as (l' & El').
  destruct (line_parts _ _ _ _ _ _ HL HT El) as (L1 & L2 & L3 & L4 & L5 & L6).
  destruct (line_parts _ _ _ _ _ _ HL' HT' El') as (L1' & L2' & L3' & L4' & L5' & L6').
  assert (HH : held 3 s1 t1) by (rewrite <- HB in Ht1; now exists (w_body w)).
  assert (H1 : header !"Host" d = header !"Host" d') by (apply (header_agree !"Host" d d' w w' [!"Host"; !"Content-Type"; !"Content-Length"]); cbn; auto).
  assert (H2 : header !"Content-Type" d = header !"Content-Type" d') by (apply (header_agree !"Content-Type" d d' w w' [!"Host"; !"Content-Type"; !"Content-Length"]); cbn; auto).
  assert (HE : match pick_host l d, pick_host l' d' with
               | Ok (x, h), Ok (x', h') => x = x' /\ ctype_of reg h = ctype_of reg h'
               | Err e, Err e' => e = e' | _, _ => False end).
  { unfold pick_host. replace (rl_domain l') with (rl_domain l) by congruence. rewrite <- H1. destruct (nonempty (rl_domain l)).
    - split; [reflexivity|]. unfold HeaderRun.ctype_of. now rewrite H2.
    - destruct (header !"Host" d); [|reflexivity]. split; [reflexivity|]. unfold HeaderRun.ctype_of. rewrite !header_ddel by discriminate. now rewrite H2. }
  assert (HQ : forall st0, query_of reg st0 (rl_query l) = query_of reg st0 (rl_query l')).
  { intros st0. rewrite L6, L6'. unfold query_of. rewrite (spelled_nil _ _ HS), <- (spelled_nil _ _ HS'). destruct (nonempty (up_query u')) eqn:EN; [|reflexivity].
    now apply (querydict_spelled reg (s_query st0) ls). }
  assert (HAL : forall host c, line_attrs l host c = line_attrs l' host c).
  { intros host c. unfold line_attrs, scheme_of. rewrite L1, L1', L2, L2', L3, L3', L5, L5'. now rewrite U1, U3. }
  pose proof HP as HX. cbn zeta in HX. rewrite El, populate_eq in HX.
  pose proof HP' as HX'. cbn zeta in HX'. rewrite El', populate_eq in HX'.
  clear HP HP'. cbn [r_meta set_flags set_stream fresh] in HX, HX'.
  destruct (pick_host l d) as [[host h]|e], (pick_host l' d') as [[host' h']|e']; try contradiction.
  2:{ subst e'. unfold parse, mbind. rewrite HX, HX'. split; [reflexivity|]. split; [reflexivity|]. split; [now repeat split|intros ns; now apply (held_reads 3); [lia|]]. }
  destruct HE as [<- HC]. rewrite <- HC in HX'.
  destruct (ctype_of reg h) as [[c ch]|e] eqn:EC.
  2:{ unfold parse, mbind. rewrite HX, HX'. split; [reflexivity|]. split; [reflexivity|]. cbn [snd fst r_stream set_attrs set_flags set_stream].
      split; [|intros ns; now apply (held_reads 3); [lia|]]. rewrite HAL. now repeat split. }
  rewrite <- HQ in HX'.
  destruct (query_of reg (charset_after ch st) (rl_query l)) as [g|e] eqn:EQ.
  - assert (HA2 : agree_on [!"Content-Type"; !"Content-Length"] w w') by (intros n z Hn; apply HA; now right).
    pose proof (C142_line_does_not_matter reg n2 mk st s s' r r' w w' _ _ Hi Hi' Hd Hd' Hm HB HA2 HX HX') as (A1 & A2 & A3 & A4).
    split; [exact A1|]. split; [exact A2|]. split; [|exact A4]. split; [exact A3|].
    unfold parse, mbind. rewrite HX, HX'. clear A1 A2 A3 A4.
    match type of HX with _ = (_, ?W) => pose proof (still_parse_body reg n2 mk W) as S end.
    match type of HX' with _ = (_, ?W) => pose proof (still_parse_body reg n2 mk W) as S' end.
    destruct S as (_ & _ & S1 & S2 & S3); [now destruct ch|]. destruct S' as (_ & _ & S1' & S2' & S3'); [now destruct ch|].
    rewrite S1, S1', S3, S3'. destruct ch; cbn; now rewrite HAL.
  - unfold parse, mbind. rewrite HX, HX'. split; [reflexivity|]. split; [reflexivity|]. cbn [snd fst].
    split; [|intros ns; destruct ch; now apply (held_reads 3); [lia|]]. rewrite HAL. now destruct ch.
Qed.
Print Assumptions C145_query.

(** 'a b=1&c=~' in two spellings, once as the query and once as the body *)
Definition signs145 : list sign := [Byte 97; Byte 32; Byte 98; Eq; Byte 49; Sep; Byte 99; Eq; Byte 126; Byte 233].
Definition one145 : str := !"a+b=1&c=~%e9".
Definition two145 : str := !"%61%20b=%31;c=%7e%E9".
Ltac spell := repeat first
  [ apply sp_nil
  | apply sp_sep; [now (left + right)|]
  | apply sp_eq
  | apply sp_plus
  | apply sp_char; [reflexivity|intros HI; repeat (destruct HI as [HI|HI]; [discriminate HI|]); destruct HI|]
  | match goal with |- spelled (Byte ?n :: _) _ => change n with (N.of_nat (N.to_nat (n / 16) * 16 + N.to_nat (n mod 16))) end; apply sp_hex; [now (left + right)|now (left + right)|] ].
Definition get145 (q b : str) :=
  let fs := [(!"Host", !"h"); (!"Content-Type", !"application/x-www-form-urlencoded")] in
  let '(x, (_, r)) := run (parse ex_reg no_cp ok_temp) ex_set (req ((!"POST /p?" ++ q ++ !" HTTP/1.1") :: map field fs) b) in
  (x, option_map (fun g => (q_list !"a b" g, q_list !"c" g)) (r_get r),
   option_map (fun p => match p with PQuery g => (q_list !"a b" g, q_list !"c" g) | PForm d => ([], []) end) (r_post r)).
Example C145_case :
  spelled signs145 one145 /\ spelled signs145 two145 /\ ascii_codecs ex_reg /\
  get145 one145 two145 = (Ok tt, Some ([PU !"1"], [PU [126%N; 233%N]]), Some ([PU !"1"], [PU [126%N; 233%N]])) /\
  get145 two145 one145 = (Ok tt, Some ([PU !"1"], [PU [126%N; 233%N]]), Some ([PU !"1"], [PU [126%N; 233%N]])).
Proof.
  split; [unfold signs145, one145; cbn [lit]; spell|]. split; [unfold signs145, two145; cbn [lit]; spell|].
  split.
  { intros cs c. unfold ex_reg. destruct (seqb cs _); [intros [= <-]; apply latin1_ok|]. destruct (seqb cs _); [intros [= <-]; apply utf8_ok|discriminate]. }
  split; vm_compute; reflexivity.
Qed.
