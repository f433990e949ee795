(** * C157: the charset a request declares *)
From Verif Require Import Py Spec HeadSpec PyFacts PyDict StreamModel StreamSpec StreamFacts CodecModel CodecFacts PercentModel QueryModel QuerySpec
  QueryFacts HeadModel HeadFacts HeaderModel HeaderSpec HeaderFacts BoundaryModel UploadModel MultipartModel EncModel RequestModel RequestSpec HeaderRun BodyRun ParseRun
  PropsData PropsPart PropsRequest PropsBody PropsEnd PropsExt PropsWays PropsCharset PropsHead.

(** ** Specification *)
(** the last Content-Type header has the value [main] and the parameters [ps] *)
Definition typed (reg : registry) (w : wire) (main : str) (ps : list par) : Prop :=
  RequestSpec.last_value !"Content-Type" w (render_pars main ps) /\ ascii_only main = true /\ ~ In 59%N main /\ ~ In 34%N main /\ Forall (par_good reg) ps.
(** the charset of the request: the one declared last, or else DEFAULT_CHARSET *)
Definition charset_for (st : sett) (ps : list par) : str := match last_par !"charset" ps with Some v => pchars v | None => s_charset st end.
(** the two texts of a pair, written in the charset [c] and then in the way of forms *)
Definition text_pair (c : codec) (u t : str * str) : Prop :=
  exists kb vb, c_enc c (fst t) = Some kb /\ c_enc c (snd t) = Some vb /\ form_written (fst u) kb /\ form_written (snd u) vb.
(** the values of a key *)
Definition values_for (k : str) (ts : list (str * str)) : list pystr := map (fun t => PU (snd t)) (filter (fun t => seqb (fst t) k) ts).

(** ** Proof *)
Lemma typed_ctype reg w main ps h : typed reg w main ps ->
  (forall n, n <> !"Host" -> dget n h = match values_named n (w_fields w) with [] => None | vs => Some vs end) ->
  HeaderRun.ctype_of reg h = Ok (Some (lower (strip main)), last_par !"charset" ps).
Proof.
  intros ([pre Hv] & H1 & H2 & H3 & H4) Hh. unfold HeaderRun.ctype_of, header. rewrite Hh by discriminate. rewrite Hv.
  replace (match pre ++ [render_pars main ps] with [] => None | vs => Some vs end) with (Some (pre ++ [render_pars main ps])) by (destruct pre; reflexivity).
  cbn [option_map]. unfold last_of. rewrite last_last.
  destruct (C113_extended_parameters reg main ps H1 H2 H3 H4) as (d & -> & Hd). cbn [bind fst snd]. now rewrite Hd.
Qed.
Lemma charset_for_after st ps : s_charset (charset_after (last_par !"charset" ps) st) = charset_for st ps.
Proof. unfold charset_for, charset_after. now destruct (last_par _ ps). Qed.
Lemma text_written c us ts : codec_ok c -> Forall2 (text_pair c) us ts ->
  exists bs, Forall2 written_pair us bs /\ map (fun b => (c_rep c (fst b), c_rep c (snd b))) bs = ts.
Proof.
  intros Hc. induction 1 as [|u [k v] us ts (kb & vb & H1 & H2 & H3 & H4) HF (bs & I1 & I2)]; [now exists []|]. cbn [fst snd] in *.
  exists ((kb, vb) :: bs). split; [now constructor|]. cbn [map fst snd]. rewrite I2.
  now rewrite (cok_rep c Hc kb k (cok_roundtrip c Hc _ _ H1)), (cok_rep c Hc vb v (cok_roundtrip c Hc _ _ H2)).
Qed.
Lemma text_querydict reg st c us ts mut : reg (qs_charset st) = Some c -> codec_ok c -> Forall2 (text_pair c) us ts -> us <> [] ->
  match qs_limit st with Some z => (z = 0 \/ Z.of_nat (length us) <= z)%Z | None => True end ->
  decode reg (qs_charset st) (url_body us) = Ok (url_body us) /\
  exists q, querydict reg (Some st) (Some (PB (url_body us))) mut = Ok q /\ q_mut q = mut /\ forall k, q_list k q = values_for k ts.
Proof.
  intros Hr Hc HF Hne Hl. destruct (text_written c us ts Hc HF) as (bs & HB & <-).
  destruct (written_querydict reg st c us bs mut Hr Hc HB Hne Hl) as (HD & q & HQ & HM & HL). split; [exact HD|]. exists q. split; [exact HQ|]. split; [exact HM|].
  intros k. rewrite HL. unfold values_for. clear. induction bs as [|b bs IH]; [reflexivity|]. cbn [map filter fst snd].
  destruct (seqb (c_rep c (fst b)) k); cbn [map snd]; now rewrite IH.
Qed.
Lemma url_body_nonempty us : us <> [] -> url_body us <> [].
Proof.
  destruct us as [|[n v] us]; [easy|]. intros _. unfold url_body. cbn [map]. destruct (map url_field us); [cbn [join]|rewrite join_cons]; unfold url_field; now destruct n.
Qed.

(** the charset that is in force after the header has been parsed *)
Theorem C157_charset :
  forall reg st s r w main ps st1 r1, request_init reg st s = Ok r -> delivers s w -> max_ok (s_hdr st) -> typed reg w main ps ->
  parse_request_header reg (st, r) = (Ok tt, (st1, r1)) ->
  s_charset st1 = charset_for st ps /\ a_ctype (r_attrs r1) = Some (Some (lower (strip main))).
Proof.
  intros reg st s r w main ps st1 r1 Hi Hd Hm HT HP. destruct (header_known _ _ _ _ _ _ _ Hi Hd Hm HP) as (l & host & h & c & ch & g & _ & Ha & _ & Hh & HC & -> & _).
  rewrite (typed_ctype reg w main ps h HT Hh) in HC. injection HC as <- <-. split; [apply charset_for_after|]. now rewrite Ha.
Qed.
Print Assumptions C157_charset.
(** a form of arbitrary texts *)
Theorem C157_form :
  forall reg n2 mk st s r w main ps st1 r1 c us ts, request_init reg st s = Ok r -> delivers s w -> max_ok (s_hdr st) -> typed reg w main ps ->
  parse_request_header reg (st, r) = (Ok tt, (st1, r1)) -> lower (strip main) = !"application/x-www-form-urlencoded" ->
  reg (charset_for st ps) = Some c -> codec_ok c -> Forall2 (text_pair c) us ts -> us <> [] -> w_body w = url_body us ->
  fits (length (w_body w)) (s_dmem st) -> match s_dnum st with Some z => (z = 0 \/ Z.of_nat (length us) <= z)%Z | None => True end ->
  exists r2 q, parse reg n2 mk (st, r) = (Ok tt, (st1, r2)) /\ r_post r2 = Some (PQuery q) /\ r_files r2 = Some [] /\ forall k, q_list k q = values_for k ts.
Proof.
  intros reg n2 mk st s r w main ps st1 r1 c us ts Hi Hd Hm HT HP Hmain Hr Hc HF Hne Hb Hfit Hlim.
  destruct (C157_charset reg st s r w main ps st1 r1 Hi Hd Hm HT HP) as [E1 E2]. rewrite Hmain in E2.
  destruct (text_querydict reg (mkQS (s_charset st1) (s_dnum st)) c us ts false) as (HD & q & HQ & _ & HL); try assumption; [cbn; now rewrite E1|].
  rewrite <- Hb in HD, HQ. cbn [qs_charset] in HD.
  destruct (C53_urlencoded_partial reg n2 mk st s r w st1 r1 q (w_body w) Hi Hd Hm HP E2) as (r2 & P1 & P2 & P3 & _); try assumption; [rewrite Hb; now apply url_body_nonempty|].
  now exists r2, q.
Qed.
Print Assumptions C157_form.
(** a query of arbitrary texts: GET, too, is read in the charset of Content-Type *)
Theorem C157_query :
  forall reg st s r w main ps st1 r1 c us ts m url v u, request_init reg st s = Ok r -> delivers s w -> max_ok (s_hdr st) -> typed reg w main ps ->
  request_line w m url v -> target url u -> parse_request_header reg (st, r) = (Ok tt, (st1, r1)) ->
  reg (charset_for st ps) = Some c -> codec_ok c -> Forall2 (text_pair c) us ts -> us <> [] -> up_query u = url_body us ->
  match s_dnum st with Some z => (z = 0 \/ Z.of_nat (length us) <= z)%Z | None => True end ->
  exists g, r_get r1 = Some g /\ forall k, q_list k g = values_for k ts.
Proof.
  intros reg st s r w main ps st1 r1 c us ts m url v u Hi Hd Hm HT HL HU HP Hr Hc HF Hne Hb Hlim.
  destruct (header_known _ _ _ _ _ _ _ Hi Hd Hm HP) as (l & host & h & c0 & ch & g & El & _ & _ & Hh & HC & -> & Hg & Hget).
  rewrite (typed_ctype reg w main ps h HT Hh) in HC. injection HC as <- <-. destruct (line_parts _ _ _ _ _ _ HL HU El) as (_ & _ & _ & _ & _ & Eq).
  rewrite Eq, Hb in Hg. unfold query_of in Hg. pose proof (url_body_nonempty us Hne) as Hn.
  destruct (text_querydict reg (s_query (charset_after (last_par !"charset" ps) st)) c us ts false) as (HD & q & HQ & _ & HV); try assumption.
  { unfold s_query. cbn [qs_charset]. now rewrite charset_for_after. }
  { unfold s_query, charset_after. cbn [qs_limit]. now destruct (last_par _ ps). }
  rewrite HQ in Hg. exists g. split; [exact Hget|]. destruct (url_body us); [easy|]. cbn [nonempty] in Hg. injection Hg as <-. exact HV.
Qed.
Print Assumptions C157_query.

(** ** DEFAULT_CHARSET has no influence on a request that declares a charset *)
(** another POST on the request *)
Definition swap (p : option postv) (w : world) : world := (fst w, set_post p (r_files (snd w)) (snd w)).
Definition blind {A} (m : M A) : Prop := forall p w, m (swap p w) = (fst (m w), swap p (snd (m w))).
Lemma b_bind {A B} (m : M A) (f : A -> M B) : blind m -> (forall a, blind (f a)) -> blind (mbind m f).
Proof. intros H1 H2 p w. unfold mbind. rewrite H1. destruct (m w) as [[a|e] w1]; [apply H2|reflexivity]. Qed.
Lemma b_ret {A} (a : A) : blind (mret a). Proof. easy. Qed.
Lemma b_raise {A} e : blind (@mraise A e). Proof. easy. Qed.
Lemma b_lift {A} (x : res A) : blind (mlift x). Proof. easy. Qed.
Lemma b_sett : blind msett. Proof. easy. Qed.
Lemma b_query reg q m : blind (new_query reg q m). Proof. apply b_bind; [exact b_sett|]. intros a. apply b_lift. Qed.
Lemma b_stream {A} (f : l0 -> res A * l0) : blind (mstream f).
Proof. intros p [st r]. unfold mstream, swap. cbn [fst snd set_post r_stream]. now destruct (f (r_stream r)) as [x s]. Qed.
Lemma b_upd f : (forall p r, f (set_post p (r_files r) r) = set_post p (r_files (f r)) (f r)) -> blind (mupd f).
Proof. intros H p [st r]. unfold mupd, swap. cbn [fst snd]. now rewrite H. Qed.
(** a step that looks at the request, but not at POST *)
Lemma b_req {A} (f : request -> M A) : (forall p r, f (set_post p (r_files r) r) = f r) -> (forall r, blind (f r)) -> blind (mbind mreq f).
Proof. intros H1 H2 p [st r]. unfold mbind, mreq. cbn [fst snd swap]. rewrite H1. apply (H2 r p (st, r)). Qed.
Ltac bl := repeat first [apply b_ret | apply b_raise | apply b_lift | apply b_sett | apply b_query | apply b_stream | (apply b_upd; reflexivity) |
  (apply b_req; [reflexivity|intros ?]) | (apply b_bind; [|intros ?]) ].
Lemma b_loop : forall fuel max size c acc, blind (body_loop fuel max size c acc).
Proof.
  induction fuel as [|f IH]; intros max size c acc; [apply b_raise|]. cbn [body_loop].
  destruct (within_max size max && nonempty c); [|apply b_ret]. unfold m_read. bl. apply IH.
Qed.
Lemma b_read : blind read_body.
Proof. unfold read_body, m_read. bl; [apply b_loop|]. destruct (within_max _ _); bl. Qed.
Lemma b_encoding v : blind (set_encoding v). Proof. easy. Qed.
Lemma b_populate reg l h : blind (populate reg l h).
Proof.
  unfold populate. apply b_bind; [apply b_lift|]. intros [host hs]. destruct (split_domain_port host) as [dom port]. bl.
  - destruct (header _ hs); bl.
  - destruct (snd _); [apply b_encoding|apply b_ret].
  - match goal with |- context[r_meta ?r] => destruct (r_meta r) end; [|bl]. bl. destruct (nonempty _); bl.
Qed.
Lemma b_header reg : blind (parse_request_header reg).
Proof.
  unfold parse_request_header. apply b_req; [reflexivity|]. intros r. destruct (r_hp r); [apply b_ret|]. apply b_bind; [apply b_sett|]. intros st.
  apply b_bind; [|intros hdr; do 2 (apply b_bind; [apply b_lift|intros ?]); apply b_populate].
  intros p [st' r']. unfold swap. cbn [fst snd set_post r_stream]. now destruct (frame _ (r_stream r')) as [[x started] s1].
Qed.
Lemma b_body1 : blind body1.
Proof.
  unfold body1. apply b_req; [reflexivity|]. intros r. destruct (r_bp r && _); [apply b_raise|]. destruct (r_body r); [apply b_ret|].
  destruct (r_hp r); [apply b_read|apply b_raise].
Qed.
Lemma b_body reg : blind (body reg).
Proof.
  unfold body. apply b_req; [reflexivity|]. intros r. destruct (r_hp r || _); [apply b_body1|]. apply b_bind; [apply b_header|]. intros _. apply b_body1.
Qed.
Lemma b_empty reg : blind (empty_post reg). Proof. unfold empty_post. bl. Qed.
Lemma b_upload reg n2 mk : blind (parse_file_upload reg n2 mk).
Proof.
  unfold parse_file_upload. apply b_req; [reflexivity|]. intros r. apply b_bind; [apply b_sett|]. intros st.
  destruct (r_meta r) as [m|]; [|apply b_raise]. destruct (m_headers m); [|apply b_raise]. bl.
Qed.
Lemma b_post reg n2 mk : blind (parse_post reg n2 mk).
Proof.
  unfold parse_post. apply b_req; [reflexivity|]. intros r. destruct (a_ctype (r_attrs r)) as [c|]; [|apply b_raise].
  destruct (match c with Some c => seqb c CT_MULTI | None => false end).
  - intros p w. rewrite (b_upload reg n2 mk p w). destruct (parse_file_upload reg n2 mk w) as [[pf|e] w1]; cbn [fst snd]; [reflexivity|].
    destruct e; try reflexivity. apply (b_bind (empty_post reg) (fun _ => mraise MultiPartParserError) (b_empty reg) (fun _ => b_raise _)).
  - destruct (match c with Some c => seqb c CT_FORM | None => false end); (apply b_bind; [apply b_body || apply b_empty|intros ?]); bl.
Qed.
Lemma finish_blind reg n2 mk p w :
  finish reg n2 mk (swap p w) = match finish reg n2 mk w with (Ok u, w1) => (Ok u, w1) | (Err e, w1) => (Err e, swap p w1) end.
Proof.
  unfold finish. unfold mbind at 1. rewrite (b_post reg n2 mk p w). unfold mbind at 4. destruct (parse_post reg n2 mk w) as [[pf|e] w1]; cbn [fst snd]; [|reflexivity].
  unfold mbind at 1. rewrite (b_body reg p w1). unfold mbind at 3. destruct (body reg w1) as [[b|e] w2]; cbn [fst snd]; [|reflexivity].
  unfold mbind, msett, mlift, mupd. cbn [swap fst snd]. now destruct (decode_text reg (s_charset (fst w2)) b).
Qed.
(** A request that declares a charset is parsed the same whatever DEFAULT_CHARSET is: the same outcome, and everything in the
    request and the settings agrees after a successful parse; only the empty POST of a request without a body may have
    another encoding *)
Theorem C157_default :
  forall reg n2 mk st cs' s r r' w main ps, request_init reg st s = Ok r -> request_init reg (with_charset cs' st) s = Ok r' ->
  delivers s w -> max_ok (s_hdr st) -> typed reg w main ps -> last_par !"charset" ps <> None ->
  let x := parse reg n2 mk (st, r) in
  let y := parse reg n2 mk (with_charset cs' st, r') in
  fst x = fst y /\
  (fst x = Ok tt -> fst (snd x) = fst (snd y) /\ (exists p, snd (snd y) = set_post p (r_files (snd (snd x))) (snd (snd x))) /\
                    (w_body w <> [] -> snd x = snd y)).
Proof.
  intros reg n2 mk st cs' s r r' w main ps Hi Hi' Hd Hm HT Hch x y. rewrite init_eq in Hi, Hi'.
  destruct (querydict reg (Some (s_query st)) None true) as [q0|]; [|discriminate]. injection Hi as <-.
  destruct (querydict reg (Some (s_query (with_charset cs' st))) None true) as [q1|]; [|discriminate]. injection Hi' as <-.
  destruct (both_wire reg s w (s_hdr st) Hd Hm) as (s1 & d & HS1 & Hg & HW).
  unfold x, y, parse, mbind. rewrite (HW st q0 eq_refl), (HW (with_charset cs' st) q1 eq_refl). clear x y HW. cbn zeta.
  destruct (parse_request_line (w_line w)) as [l|e]; [|split; [reflexivity|easy]]. rewrite !populate_eq. cbn [r_meta set_flags set_stream fresh].
  destruct (pick_host l d) as [[host h]|e] eqn:EH; [|split; [reflexivity|easy]].
  assert (Hh : forall n, n <> !"Host" -> dget n h = match values_named n (w_fields w) with [] => None | vs => Some vs end).
  { intros n Hn. rewrite <- Hg. unfold pick_host in EH. destruct (nonempty (rl_domain l)); [now injection EH as _ <-|].
    destruct (header !"Host" d); [|easy]. injection EH as _ <-. now apply ddel_get_other. }
  rewrite (typed_ctype reg w main ps h HT Hh). cbv zeta. destruct (last_par !"charset" ps) as [ch|]; [|easy].
  cbn [charset_after reset_if]. change (with_charset (pchars ch) (with_charset cs' st)) with (with_charset (pchars ch) st).
  destruct (query_of reg (with_charset (pchars ch) st) (rl_query l)) as [g|e]; [|split; [reflexivity|easy]].
  match goal with |- fst (parse_request_body _ _ _ (?a, ?b)) = fst (parse_request_body _ _ _ (_, ?c)) /\ _ => set (r1 := b); set (st1 := a); set (r1' := c) end.
  assert (E : (st1, r1') = swap (Some (PQuery q1)) (st1, r1)) by reflexivity.
  rewrite E. set (p := Some (PQuery q1)). assert (A3 : r_hp r1 = true) by reflexivity. assert (A4 : r_bp r1 = false) by reflexivity.
  assert (A6 : l0at 3 (r_stream r1) (w_body w)) by exact HS1. clear E. clearbody r1 st1 p. clear r1'.
  unfold swap. cbn [fst snd]. rewrite !parse_body_eq by assumption. change (r_stream (set_post p (r_files r1) r1)) with (r_stream r1).
  destruct (w_body w) as [|c t].
  - destruct (l0_read_spec 3 _ _ 1 A6 ltac:(lia)) as (s2 & HR & _). change (Z.of_nat 1) with 1%Z in HR. cbn [firstn] in HR. rewrite HR.
    destruct (querydict reg (Some (s_query st1)) None false); (split; [reflexivity|]); [|easy]. intros _. split; [reflexivity|]. split; [now exists p|easy].
  - destruct (peek_spec n2 mk 3 _ _ A6 ltac:(lia) ltac:(discriminate)) as (z & s2 & s3 & HR & HU & _). rewrite HR, HU.
    change (st1, set_stream s3 (at_body st1 (set_post p (r_files r1) r1))) with (swap p (st1, set_stream s3 (at_body st1 r1))).
    rewrite finish_blind. destruct (finish reg n2 mk (st1, set_stream s3 (at_body st1 r1))) as [[u|e] w2]; (split; [reflexivity|]); [|easy].
    intros _. split; [reflexivity|]. split; [|reflexivity]. exists (r_post (snd w2)). destruct w2 as [st2 []]. reflexivity.
Qed.
Print Assumptions C157_default.
(** a form and a query in Latin-1, under a DEFAULT_CHARSET of UTF-8; the last parameter counts *)
Definition exd_set : sett := mkS (Some 200%Z) (Some 30%Z) (Some 5000%Z) (Some 10%Z) !"utf-8" [KConv].
Definition exd_pars : list par := [Ord !"a" (Quo !"x;y"); Ord !"charset" (Tok !"nope"); Ord !"Charset" (Quo !"ISO-8859-1")].
Definition exd_us : list (str * str) := [(!"%E9", !"caf%e9"); (!"a+b", []); (!"%E9", !"2")].
Definition exd_ts : list (str * str) := [([233%N], !"caf" ++ [233%N]); (!"a b", []); ([233%N], !"2")].
Definition exd_line : str := !"POST /p?%E9=caf%e9&a+b=&%E9=2 HTTP/1.1".
Definition exd_fields : list (str * str) := [(!"Host", !"a"); (!"Content-Type", render_pars !"Application/x-www-form-URLencoded" exd_pars)].
Definition exd_src : src := req (exd_line :: map field exd_fields) (url_body exd_us).
Definition exd_wire : wire := mkWire exd_line (map field exd_fields) exd_fields (url_body exd_us).
Lemma exd_typed : typed ex_reg exd_wire !"Application/x-www-form-URLencoded" exd_pars.
Proof.
  split; [now exists []|]. split; [reflexivity|]. split; [cbn; intros H; repeat destruct H as [H|H]; easy || discriminate H|].
  split; [cbn; intros H; repeat destruct H as [H|H]; easy || discriminate H|]. repeat constructor.
Qed.
Lemma exd_texts : Forall2 (text_pair latin1) exd_us exd_ts.
Proof.
  assert (HP : forall c s t, (c <? 128)%N && negb (mem c !"%+&;=") = true -> form_written s t -> form_written (c :: s) (c :: t)).
  { intros c s t [H1 H2]%andb_true_iff H. apply fw_plain; [now apply N.ltb_lt| |exact H]. intros Hin. apply mem_In in Hin. now rewrite Hin in H2. }
  assert (HE : form_written !"%E9" [233%N]) by (apply (fw_hex 69 57 14 9)%N; [now left|now left|constructor]).
  repeat apply Forall2_cons; try apply Forall2_nil; eexists; eexists; (split; [reflexivity|]); (split; [reflexivity|]); cbn [fst snd]; split; try exact HE.
  - do 3 (apply HP; [reflexivity|]). apply (fw_hex 101 57 14 9)%N; [now right|now left|constructor].
  - apply HP; [reflexivity|]. apply fw_blank. apply HP; [reflexivity|]. constructor.
  - constructor.
  - apply HP; [reflexivity|]. constructor.
Qed.
Example C157_case :
  let '(st1, r1) := ex_ready exd_set exd_src in
  s_charset st1 = !"ISO-8859-1" /\
  (exists r2 q, parse ex_reg no_cp ok_temp (exd_set, ex_req exd_set exd_src) = (Ok tt, (st1, r2)) /\ r_post r2 = Some (PQuery q) /\
     q_list [233%N] q = [PU (!"caf" ++ [233%N]); PU !"2"] /\ q_list !"a b" q = [PU []]) /\
  (exists g, r_get r1 = Some g /\ q_list [233%N] g = [PU (!"caf" ++ [233%N]); PU !"2"]) /\
  last_par !"charset" exd_pars <> None /\ w_body exd_wire <> [] /\
  (if request_init ex_reg (with_charset !"ISO-8859-1" exd_set) exd_src then true else false) = true.
Proof.
  assert (I : request_init ex_reg exd_set exd_src = Ok (ex_req exd_set exd_src)) by (apply ex_req_ok; vm_compute; reflexivity).
  assert (D : delivers exd_src exd_wire) by (apply delivers_msg; reflexivity || discriminate).
  pose proof (ex_ready_ok exd_set exd_src ltac:(vm_compute; reflexivity)) as P.
  assert (HX : (if request_init ex_reg (with_charset !"ISO-8859-1" exd_set) exd_src then true else false) = true) by (vm_compute; reflexivity).
  set (x := ex_ready exd_set exd_src) in *. set (r := ex_req exd_set exd_src) in *. clearbody x r. destruct x as [st1 r1].
  split; [exact (proj1 (C157_charset ex_reg exd_set exd_src r exd_wire _ _ st1 r1 I D ltac:(discriminate) exd_typed P))|]. split; [|split; [|split; [discriminate|split; [discriminate|exact HX]]]].
  - destruct (C157_form ex_reg no_cp ok_temp exd_set exd_src r exd_wire _ _ st1 r1 latin1 exd_us exd_ts I D ltac:(discriminate) exd_typed P eq_refl eq_refl latin1_ok exd_texts
      ltac:(discriminate) eq_refl ltac:(vm_compute; discriminate) ltac:(right; vm_compute; discriminate)) as (r2 & q & P1 & P2 & _ & P3).
    exists r2, q. rewrite !P3. now repeat split.
  - destruct (C157_query ex_reg exd_set exd_src r exd_wire _ _ st1 r1 latin1 exd_us exd_ts !"POST" !"/p?%E9=caf%e9&a+b=&%E9=2" !"HTTP/1.1"
      (mkParse [] [] !"/p" [] !"%E9=caf%e9&a+b=&%E9=2" []) I D ltac:(discriminate) exd_typed) as (g & G1 & G2); try assumption; try reflexivity; try discriminate.
    + split; [reflexivity|]. repeat split; cbn; intros H; repeat destruct H as [H|H]; easy || discriminate H.
    + apply (target_origin _ _ !"/p" !"%E9=caf%e9&a+b=&%E9=2" []); try reflexivity.
      * apply ascii_text_iff. reflexivity.
      * now exists !"p".
      * intros c H. cbn in H. repeat destruct H as [<-|H]; now repeat split.
      * cbn. intros H. repeat destruct H as [H|H]; easy || discriminate H.
    + apply latin1_ok.
    + apply exd_texts.
    + right. vm_compute. discriminate.
    + exists g. split; [exact G1|]. rewrite G2. reflexivity.
Qed.
