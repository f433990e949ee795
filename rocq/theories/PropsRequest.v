(** * Theorems C13, C14, C16-C18, C62, C74, C75: the header of a request object *)
From Coq Require Import ZifyBool ZifyN ZifyNat.
From Verif Require Import Py Spec HeadSpec PyFacts PyDict StreamModel StreamSpec StreamFacts StreamCalm CodecModel PercentModel
  PercentFacts QueryModel HeadModel HeadFacts UrlFacts HeaderModel UploadModel MultipartModel PropsHead PropsUtil PropsPart
  RequestModel RequestSpec HeaderRun BodyRun.

Local Arguments querydict : simpl never.
(** a source that delivers the request [w], cut up in any way, without failing *)
Definition delivers (s : src) (w : wire) : Prop :=
  src_error s = None /\ src_bytes s = wire_bytes w /\ wire_ok w.

Lemma populate_hp reg l hs st r : r_hp (snd (snd (populate reg l hs (st, r)))) = r_hp r /\
  r_bp (snd (snd (populate reg l hs (st, r)))) = r_bp r.
Proof.
  rewrite populate_eq. destruct (pick_host l hs) as [[host hs']|e]; [|easy].
  destruct (ctype_of reg hs') as [[c [ch|]]|e]; [| |easy]; cbn zeta; (destruct (r_meta r); [|easy]);
    destruct (query_of reg _ (rl_query l)); easy.
Qed.
Lemma parse_wire reg st s r w : request_init reg st s = Ok r -> delivers s w -> max_ok (s_hdr st) ->
  exists q s1 d, r = fresh q s /\ l0at 3 s1 (w_body w) /\ wf d /\
    (forall n, dget n d = match values_named n (w_fields w) with [] => None | vs => Some vs end) /\
    parse_request_header reg (st, r) =
      let w' := (st, set_flags true false (set_stream s1 (fresh q s))) in
      match parse_request_line (w_line w) with
      | Err e => (Err e, w')
      | Ok l => populate reg l d w'
      end.
Proof.
  intros Hi (H1 & H2 & H3) Hm. rewrite init_eq in Hi.
  destruct (querydict reg (Some (s_query st)) None true) as [q|e] eqn:Eq; [|easy]. injection Hi as <-.
  pose proof (l0at_init 1 s H1) as HA. rewrite H2 in HA.
  destruct (header_wire reg 1 w st (fresh q s) H3 Hm ltac:(lia) HA eq_refl) as (s1 & d & HA1 & Hwf & Hg & HP).
  now exists q, s1, d.
Qed.

(** ** Accessors: the values of the attributes *)
Definition host_is (r : request) (h : str) : Prop := a_host (r_attrs r) = Some (Some h).
Definition port_is (r : request) (p : portv) : Prop := a_port (r_attrs r) = Some (Some p).
Definition headers_are (r : request) (h : headers) : Prop := exists m, r_meta r = Some m /\ m_headers m = Some h.

(** the authority a request is sent to *)
Definition authority (l : reqline) (w : wire) (a : str) : Prop :=
  (rl_domain l <> [] /\ a = rl_domain l) \/ (rl_domain l = [] /\ last_value !"Host" w a).

Lemma last_val (vs : list str) v : last_of (vs ++ [v]) = v.
Proof. apply last_last. Qed.
Lemma ddel_get_other {V} k n (d : dict V) : n <> k -> dget n (ddel k d) = dget n d.
Proof.
  intros H. induction d as [|[k1 v1] d IH]; cbn; [easy|]. destruct (seqb k k1) eqn:E.
  - apply seqb_eq in E. subst k1. apply seqb_neq in H. now rewrite H.
  - cbn. now rewrite IH.
Qed.
Lemma ddel_get_same {V} k (d : dict V) : wf d -> dget k (ddel k d) = None.
Proof.
  unfold wf. induction d as [|[k1 v1] d IH]; cbn; [easy|]. intros Hw. inversion_clear Hw as [|? ? H1 H2].
  destruct (seqb k k1) eqn:E.
  - apply seqb_eq in E. subst k1. now apply dget_None_notin.
  - cbn. rewrite E. now apply IH.
Qed.

(** ** C13 *)
Theorem C13_host_source :
  forall reg st s r w l, request_init reg st s = Ok r -> delivers s w -> max_ok (s_hdr st) ->
    parse_request_line (w_line w) = Ok l ->
    (rl_domain l = [] -> values_named !"Host" (w_fields w) = [] ->
      fst (parse_request_header reg (st, r)) = Err NoHostFoundException) /\
    forall st' r', parse_request_header reg (st, r) = (Ok tt, (st', r')) ->
      exists h a, headers_are r' h /\ authority l w a /\ host_is r' (fst (split_domain_port a)) /\
        (forall n, n <> !"Host" -> getlist n h = values_named n (w_fields w)) /\
        getlist !"Host" h = if nonempty (rl_domain l) then values_named !"Host" (w_fields w) else [].
Proof.
  intros reg st s r w l Hi Hd Hm Hl. destruct (parse_wire reg st s r w Hi Hd Hm) as (q & s1 & d & -> & _ & Hwf & Hg & HP).
  rewrite HP, Hl. cbn zeta. clear HP. rewrite populate_eq. split.
  - intros H1 H2. unfold pick_host, header. rewrite H1, Hg, H2. reflexivity.
  - intros st' r'. unfold pick_host. destruct (rl_domain l) as [|c0 dom] eqn:Ed.
    + cbn [nonempty]. unfold header at 1. rewrite Hg.
      destruct (values_named !"Host" (w_fields w)) as [|v vs] eqn:Ev; [discriminate|]. cbn [option_map].
      assert (HL : exists pre x, v :: vs = pre ++ [x] /\ last_of (v :: vs) = x).
      { destruct (last_nonnil (v :: vs) [] ltac:(easy)) as [pre Hpre]. exists pre, (last (v :: vs) []). now split. }
      destruct HL as (pre & x & Hpre & Hx). rewrite Hx.
      destruct (ctype_of reg (ddel !"Host" d)) as [[c ch]|e]; [|discriminate]. cbn [r_meta set_flags set_stream fresh].
      destruct (query_of reg (charset_after ch st) (rl_query l)) as [g|e]; [|discriminate].
      intros [= <- <-]. exists (ddel !"Host" d), x. split; [eexists; split; reflexivity|]. split.
      { right. split; [easy|]. exists pre. congruence. }
      split; [now destruct ch|]. split.
      * intros n Hn. unfold getlist. rewrite ddel_get_other by exact Hn. rewrite Hg. now destruct (values_named n (w_fields w)).
      * unfold getlist. now rewrite ddel_get_same.
    + cbn [nonempty]. destruct (ctype_of reg d) as [[c ch]|e]; [|discriminate]. cbn [r_meta set_flags set_stream fresh].
      destruct (query_of reg (charset_after ch st) (rl_query l)) as [g|e]; [|discriminate].
      intros [= <- <-]. exists d, (c0 :: dom). split; [eexists; split; reflexivity|]. split.
      { left. now rewrite Ed. }
      split; [now destruct ch|].
      split; [intros n Hn|]; unfold getlist; rewrite Hg; [now destruct (values_named n (w_fields w))|now destruct (values_named _ (w_fields w))].
Qed.
Print Assumptions C13_host_source.

(** ** C16 *)
Definition default_port (scheme : str) : Z :=
  if seqb (lower scheme) !"https" then 443 else if seqb (lower scheme) !"http" then 80 else 65536.
Theorem C16_port :
  forall reg st s r w l, request_init reg st s = Ok r -> delivers s w -> max_ok (s_hdr st) ->
    parse_request_line (w_line w) = Ok l ->
    forall st' r', parse_request_header reg (st, r) = (Ok tt, (st', r')) ->
      exists a, authority l w a /\
        port_is r' (match snd (split_domain_port a) with [] => PortInt (default_port (rl_scheme l)) | p => PortStr p end).
Proof.
  intros reg st s r w l Hi Hd Hm Hl. destruct (parse_wire reg st s r w Hi Hd Hm) as (q & s1 & d & -> & _ & Hwf & Hg & HP).
  rewrite HP, Hl. cbn zeta. clear HP. rewrite populate_eq. intros st' r'.
  assert (HPo : forall a, pick_port (snd (split_domain_port a)) (rl_scheme l) =
     match snd (split_domain_port a) with [] => PortInt (default_port (rl_scheme l)) | p => PortStr p end).
  { intros a. unfold pick_port, default_port. destruct (snd (split_domain_port a)); [|easy]. cbn [nonempty].
    destruct (seqb _ _); [easy|]. now destruct (seqb _ _). }
  unfold pick_host. destruct (rl_domain l) as [|c0 dom] eqn:Ed.
  - cbn [nonempty]. unfold header at 1. rewrite Hg.
    destruct (values_named !"Host" (w_fields w)) as [|v vs] eqn:Ev; [discriminate|]. cbn [option_map].
    assert (HL : exists pre x, v :: vs = pre ++ [x] /\ last_of (v :: vs) = x).
    { destruct (last_nonnil (v :: vs) [] ltac:(easy)) as [pre Hpre]. exists pre, (last (v :: vs) []). now split. }
    destruct HL as (pre & x & Hpre & Hx). rewrite Hx.
    destruct (ctype_of reg (ddel !"Host" d)) as [[c ch]|e]; [|discriminate]. cbn [r_meta set_flags set_stream fresh].
    destruct (query_of reg (charset_after ch st) (rl_query l)) as [g|e]; [|discriminate].
    intros [= <- <-]. exists x. split; [right; split; [easy|]; exists pre; congruence|].
    rewrite <- HPo. now destruct ch.
  - cbn [nonempty]. destruct (ctype_of reg d) as [[c ch]|e]; [|discriminate]. cbn [r_meta set_flags set_stream fresh].
    destruct (query_of reg (charset_after ch st) (rl_query l)) as [g|e]; [|discriminate].
    intros [= <- <-]. exists (c0 :: dom). split; [left; now rewrite Ed|]. rewrite <- HPo. now destruct ch.
Qed.
Print Assumptions C16_port.

(** ** Cases *)
Definition ex_set : sett := mkS (Some 16%Z) (Some 30%Z) (Some 5000%Z) (Some 4096%Z) !"ISO-8859-1" [KConv].
Definition run {A} (m : M A) (st : sett) (s : src) : res A * world :=
  match request_init ex_reg st s with Ok r => m (st, r) | Err e => (Err e, (st, blank s)) end.
Definition req (lines : list str) (body : str) : src := [SData (lines_text lines); SData crlf; SData body].
Notation hdr := (parse_request_header ex_reg) (only parsing).

Example C13_case :
  (let '(x, (_, r)) := run hdr ex_set (req [!"GET / HTTP/1.1"; !"Host: a:81"; !"X: 1"; !"Host: B.org"; !"host: c"] []) in
   x = Ok tt /\ host_is r !"b.org" /\ port_is r (PortInt 65536) /\
   headers_are r [(!"X", [!"1"]); (!"host", [!"c"])]) /\
  (let '(x, (_, r)) := run hdr ex_set (req [!"GET HTTPS://a/ HTTP/1.1"; !"Host: b"] []) in
   x = Ok tt /\ host_is r !"a" /\ port_is r (PortInt 443) /\ headers_are r [(!"Host", [!"b"])]) /\
  (let '(x, (_, r)) := run hdr ex_set (req [!"GET http://a:8080/ HTTP/1.1"; !"X: b"] []) in
   x = Ok tt /\ host_is r !"a" /\ port_is r (PortStr !"8080")) /\
  fst (run hdr ex_set (req [!"GET / HTTP/1.1"; !"X: b"] [])) = Err NoHostFoundException.
Proof. vm_compute. repeat split; try (eexists; split; reflexivity). Qed.
Example C13_delivers : delivers (req [!"GET / HTTP/1.1"; !"Host: a"] !"body")
  (mkWire !"GET / HTTP/1.1" [!"Host: a"] [(!"Host", !"a")] !"body").
Proof.
  split; [reflexivity|]. split; [reflexivity|].
  assert (HN : forall l, ~ In CR l -> ~ occurs crlf l).
  { intros l Hl (u & v & ->). apply Hl. apply in_or_app. right. now left. }
  assert (L1 : is_line !"GET / HTTP/1.1").
  { split; [easy|]. apply HN. intros H. repeat (destruct H as [H|H]; [discriminate H|]); easy. }
  assert (L2 : is_line !"Host: a").
  { split; [easy|]. apply HN. intros H. repeat (destruct H as [H|H]; [discriminate H|]); easy. }
  split; [exact L1|]. split; [now constructor|]. split; [|easy]. constructor; [|constructor]. split.
  - exists !" a". split; [reflexivity|]. split; [|reflexivity]. intros H. repeat (destruct H as [H|H]; [discriminate H|]); easy.
  - split; intros c H; repeat (destruct H as [<-|H]; [easy|]); easy.
Qed.

(** ** C14 is false: the names 'Host' and 'Content-Type' are compared exactly. *)
Definition recased (p q : str * str) : Prop := lower (fst p) = lower (fst q) /\ snd p = snd q.
Theorem C14_recased_host_refuted :
  exists st line v1 v2, lower v1 = lower v2 /\
    fst (run hdr st (req [line; v1 ++ !": a"] [])) = Ok tt /\
    fst (run hdr st (req [line; v2 ++ !": a"] [])) = Err NoHostFoundException.
Proof.
  exists ex_set, !"GET / HTTP/1.1", !"Host", !"host". split; [reflexivity|]. vm_compute. split; reflexivity.
Qed.
Print Assumptions C14_recased_host_refuted.
Theorem C14_recased_content_type_refuted :
  exists st line v1 v2, lower v1 = lower v2 /\
    a_ctype (r_attrs (snd (snd (run hdr st (req [line; !"Host: a"; v1 ++ !": text/plain"] []))))) = Some (Some !"text/plain") /\
    let '(x, (_, r)) := run hdr st (req [line; !"Host: a"; v2 ++ !": text/plain"] []) in
    x = Ok tt /\ a_ctype (r_attrs r) = Some None.
Proof.
  exists ex_set, !"POST / HTTP/1.1", !"Content-Type", !"content-type". split; [reflexivity|]. vm_compute. repeat split; reflexivity.
Qed.
Print Assumptions C14_recased_content_type_refuted.
(** in general: whatever else is called 'host', only the exact name counts *)
Theorem C14_exact_name_required :
  forall reg st s r w l, request_init reg st s = Ok r -> delivers s w -> max_ok (s_hdr st) ->
    parse_request_line (w_line w) = Ok l -> rl_domain l = [] ->
    (forall n v, In (n, v) (w_fields w) -> n <> !"Host") ->
    fst (parse_request_header reg (st, r)) = Err NoHostFoundException.
Proof.
  intros reg st s r w l Hi Hd Hm Hl H1 H2.
  apply (proj1 (C13_host_source reg st s r w l Hi Hd Hm Hl) H1).
  clear - H2. induction (w_fields w) as [|[n v] ps IH]; [easy|]. cbn [values_named].
  destruct (seqb !"Host" n) eqn:E.
  - apply seqb_eq in E. exfalso. apply (H2 n v); [now left|easy].
  - apply IH. intros n' v' Hin. apply (H2 n' v'). now right.
Qed.
Print Assumptions C14_exact_name_required.

(** ** C17.  get_uri() drops an explicit port and the path parameters; without these it
    gives the request URI back, up to the fragment. *)
Theorem C17_port_refuted :
  exists st line u u', let '(x, (_, r)) := run hdr st (req [!"GET " ++ line ++ !" HTTP/1.1"; !"A: b"] []) in
    x = Ok tt /\ urlparse line = Ok u /\ (exists t, get_uri r = Ok t /\ urlparse t = Ok u') /\ up_netloc u <> up_netloc u'.
Proof.
  exists ex_set, !"http://a:8080/p", (mkParse !"http" !"a:8080" !"/p" [] [] []), (mkParse !"http" !"a" !"/p" [] [] []).
  vm_compute. split; [reflexivity|]. split; [reflexivity|]. split; [|discriminate].
  eexists. split; reflexivity.
Qed.
Print Assumptions C17_port_refuted.
Theorem C17_params_refuted :
  exists st line u u', let '(x, (_, r)) := run hdr st (req [!"GET " ++ line ++ !" HTTP/1.1"; !"A: b"] []) in
    x = Ok tt /\ urlparse line = Ok u /\ (exists t, get_uri r = Ok t /\ urlparse t = Ok u') /\ up_params u <> up_params u'.
Proof.
  exists ex_set, !"http://a/p;x?q", (mkParse !"http" !"a" !"/p" !"x" !"q" []), (mkParse !"http" !"a" !"/p" [] !"q" []).
  vm_compute. split; [reflexivity|]. split; [reflexivity|]. split; [|discriminate].
  eexists. split; reflexivity.
Qed.
Print Assumptions C17_params_refuted.

Theorem C17_get_uri_partial :
  forall reg st s r w m v u, request_init reg st s = Ok r -> delivers s w -> max_ok (s_hdr st) ->
    w_line w = m ++ [32%N] ++ compose u ++ [32%N] ++ v ->
    ~ In 32%N m -> ~ In 32%N (compose u) -> ~ In 32%N v -> ascii_text (compose u) -> good_parts u ->
    up_params u = [] -> up_netloc u <> [] ->
    (forall c, In c (up_netloc u) -> is_host_char c = true) -> endswith (up_netloc u) !"." = false ->
    (forall c, In c (up_path u) -> In c (path_chars ++ [percent])) ->
    (forall c, In c (up_query u) -> In c uri_chars) ->
    forall st' r', parse_request_header reg (st, r) = (Ok tt, (st', r')) ->
      get_uri r' = Ok (compose (mkParse (up_scheme u) (up_netloc u) (up_path u) [] (up_query u) [])).
Proof.
  intros reg st s r w m v u Hi Hd Hm Hline Hm0 Hu0 Hv0 HA HG HPa Hn HH Hdot Hpath Hq st' r'.
  pose proof (C11_method_and_version_verbatim m (compose u) v Hm0 Hu0 Hv0) as HL.
  rewrite (C12_absolute_url_components u HA HG) in HL. rewrite <- Hline in HL.
  destruct (parse_request_line (w_line w)) as [l|e] eqn:El; [|discriminate].
  destruct HL as (_ & _ & HU). injection HU as HU. destruct u as [sc nl pa pr qu fr].
  cbn [up_scheme up_netloc up_path up_params up_query up_fragment] in *. injection HU as Hsc Hnl Hpa _ Hqu _.
  destruct (parse_wire reg st s r w Hi Hd Hm) as (q & s1 & d & -> & _ & Hwf & Hg & HP).
  rewrite HP, El. cbn zeta. clear HP. rewrite populate_eq. unfold pick_host.
  rewrite <- Hnl. destruct nl as [|c0 nl]; [easy|]. cbn [nonempty].
  destruct (ctype_of reg d) as [[c ch]|e]; [|discriminate]. cbn [r_meta set_flags set_stream fresh].
  destruct (query_of reg (charset_after ch st) (rl_query l)) as [g|e]; [|discriminate].
  intros [= <- <-].
  assert (HS : split_domain_port (c0 :: nl) = (c0 :: nl, [])).
  { pose proof (C15_valid_hosts_accepted (c0 :: nl) [] ltac:(easy) HH ltac:(easy)) as HV.
    cbn [with_delim] in HV. rewrite app_nil_r in HV. rewrite HV. unfold drop_dot. now rewrite Hdot. }
  set (r1 := set_meta _ _).
  assert (Ha : r_attrs r1 = line_attrs l (c0 :: nl) (Some c)) by now destruct ch.
  assert (Hme : r_meta r1 = Some (mkMeta (Some (rl_query l)) (Some d))) by reflexivity.
  clearbody r1. unfold get_uri, attr, get_full_path, get_path, attr, get_query. rewrite Ha, Hme. unfold line_attrs. rewrite HS.
  cbn [a_scheme a_host a_path bind shown fst andb app m_query].
  assert (Esch : scheme_of l = sc).
  { unfold scheme_of. rewrite <- Hsc. destruct HG as [(G1 & G2 & G3) _ _ _ _ _ _ _ _]. cbn in G1, G3. destruct sc; [easy|].
    cbn [nonempty]. exact G3. }
  rewrite Esch. f_equal. unfold compose. cbn [up_scheme up_netloc up_path up_params up_query up_fragment with_delim app].
  rewrite <- Hpa, <- Hqu.
  assert (Ep : escape_uri_path false pa = pa).
  { apply quote_fixed. intros x Hx. rewrite path_safe_pct_iff. apply mem_In. now apply Hpath. }
  assert (Eq2 : iri_to_uri qu = qu).
  { apply quote_fixed. intros x Hx. rewrite iri_safe_iff. apply mem_In. now apply Hq. }
  rewrite Ep, Eq2. rewrite !app_nil_r. change (@nil N) with (@nil N).
  destruct qu as [|q0 qu]; cbn [nonempty with_delim app]; rewrite ?app_nil_r; reflexivity.
Qed.
Print Assumptions C17_get_uri_partial.
Example C17_case :
  let '(x, (_, r)) := run hdr ex_set (req [!"GET HTTPS://www.a-b.org/p%20q/(r)?x=[1]&y HTTP/1.1"; !"A: b"] []) in
  x = Ok tt /\ get_uri r = Ok !"https://www.a-b.org/p%20q/(r)?x=[1]&y".
Proof. vm_compute. split; reflexivity. Qed.

(** ** C18.  After success a second call changes nothing; but after a failure, too, a
    second call returns normally. *)
Lemma frame_flag max s : max_ok max -> src_error s = None -> snd (fst (frame max (l0_init s))) = true.
Proof.
  intros Hm Hs. destruct (find crlfcrlf (src_bytes s)) as [i|] eqn:E.
  - apply find_first_occ in E as (h & b & HFO & _).
    destruct (frame_found max 1 (l0_init s) _ h b Hm ltac:(lia) (l0at_init 1 s Hs) HFO) as (x & -> & _). easy.
  - apply find_None in E.
    destruct (frame_missing max 1 (l0_init s) _ Hm ltac:(lia) (l0at_init 1 s Hs) E) as (x & -> & _). easy.
Qed.
Lemma frame_ok_flag max s h b s' : frame max s = (Ok h, b, s') -> b = true.
Proof.
  unfold frame. assert (G : forall fuel hdr st s x b s', frame_loop fuel max hdr st s = (Ok x, b, s') -> b = true).
  { clear. induction fuel as [|fuel IH]; intros hdr st s x b s'; cbn [frame_loop]; [easy|].
    destruct (l0_read max s) as [[[|c d]|e] s1]; try easy.
    destruct (find crlfcrlf (hdr ++ c :: d)); [now intros [= _ <- _]|apply IH]. }
  destruct (frame_loop (2 + l0_total s) max [] false s) as [[[[x y]|e] b'] s1] eqn:E; [|easy].
  destruct (ls_unget y s1) as [[u|e] s2]; [|easy]. intros [= _ <- _]. now apply G in E.
Qed.
Theorem C18_success_is_final :
  forall reg w w', parse_request_header reg w = (Ok tt, w') -> parse_request_header reg w' = (Ok tt, w').
Proof.
  intros reg [st r] w' H. destruct (r_hp r) eqn:E.
  - rewrite header_done in H by exact E. injection H as <-. now apply header_done.
  - rewrite header_eq in H by exact E. destruct (frame (s_hdr st) (r_stream r)) as [[x b] s1] eqn:EF. cbn zeta in H.
    destruct x as [h|e]; [|discriminate]. apply frame_ok_flag in EF. subst b.
    destruct (parse_request_headers h) as [[line hs]|e]; [|discriminate].
    destruct (parse_request_line line) as [l|e]; [|discriminate].
    destruct (populate_hp reg l hs st (set_flags true (r_bp r) (set_stream s1 r))) as [Hp _]. rewrite H in Hp.
    destruct w' as [st' r']. now apply header_done.
Qed.
Print Assumptions C18_success_is_final.
(** the claim fails for every request that is refused: the second call succeeds and changes nothing *)
Theorem C18_failure_is_forgotten :
  forall reg st s r e w', request_init reg st s = Ok r -> src_error s = None -> max_ok (s_hdr st) ->
    parse_request_header reg (st, r) = (Err e, w') -> parse_request_header reg w' = (Ok tt, w').
Proof.
  intros reg st s r e w' Hi Hs Hm H. rewrite init_eq in Hi.
  destruct (querydict reg (Some (s_query st)) None true) as [q|e0]; [|easy]. injection Hi as <-.
  rewrite header_eq in H by reflexivity. cbn [r_stream fresh r_bp] in H. pose proof (frame_flag (s_hdr st) s Hm Hs) as HF.
  destruct (frame (s_hdr st) (l0_init s)) as [[x b] s1]. cbn in HF. subst b. cbn zeta in H.
  destruct x as [h|x].
  2:{ injection H as _ <-. now apply header_done. }
  destruct (parse_request_headers h) as [[line hs]|x].
  2:{ injection H as _ <-. now apply header_done. }
  destruct (parse_request_line line) as [l|x].
  2:{ injection H as _ <-. now apply header_done. }
  destruct (populate_hp reg l hs st (set_flags true false (set_stream s1 (fresh q s)))) as [Hp _]. rewrite H in Hp.
  destruct w' as [st' r']. now apply header_done.
Qed.
Print Assumptions C18_failure_is_forgotten.
Theorem C18_failed_parse_refuted :
  exists st s, let '(x, w) := run hdr st s in
    x = Err (InvalidHttpRequest BadRequestLine) /\ let '(y, (_, r)) := hdr w in
    y = Ok tt /\ a_method (r_attrs r) = Some None /\ get_full_path false r = Ok [].
Proof.
  exists ex_set, (req [!"nonsense"; !"Host: a"] []). vm_compute. repeat split; reflexivity.
Qed.
Print Assumptions C18_failed_parse_refuted.

(** ** C62 *)
Lemma unquote_twice p : is_bytes p -> ~ In percent p ->
  unquote_to_bytes (escape_uri_path false (iri_to_uri p)) = p.
Proof.
  intros Hb Hp. induction p as [|c p IH]; [reflexivity|].
  assert (Hb' : is_bytes p) by (intros x Hx; apply Hb; now right).
  assert (Hp' : ~ In percent p) by (intros Hx; apply Hp; now right).
  specialize (IH Hb' Hp'). unfold iri_to_uri, escape_uri_path in *. rewrite quote_cons, quote_app.
  assert (Hc : (c < 256)%N) by (apply Hb; now left). assert (Hc0 : c <> percent) by (intros ->; apply Hp; now left).
  unfold quote_byte. destruct (always_safe c || mem c iri_safe).
  - unfold quote at 1. cbn [flat_map]. rewrite app_nil_r. unfold quote_byte. destruct (always_safe c || mem c (path_safe ++ [percent])).
    + cbn [app]. rewrite unquote_plain by exact Hc0. now rewrite IH.
    + rewrite unquote_escape; [|apply N.div_lt_upper_bound; lia|apply N.mod_lt; lia].
      rewrite IH. f_equal. rewrite N.mul_comm. symmetry. apply N.div_mod. lia.
  - assert (HQ : quote (path_safe ++ [percent]) [percent; hexdig (c / 16); hexdig (c mod 16)] =
                 [percent; hexdig (c / 16); hexdig (c mod 16)]).
    { apply quote_fixed. intros x [<-|[<-|[<-|[]]]]; [reflexivity| |]; rewrite HEX_safe; try reflexivity; apply hexdig_HEX;
        [apply N.div_lt_upper_bound; lia|apply N.mod_lt; lia]. }
    rewrite HQ. rewrite unquote_escape; [|apply N.div_lt_upper_bound; lia|apply N.mod_lt; lia].
    rewrite IH. f_equal. rewrite N.mul_comm. symmetry. apply N.div_mod. lia.
Qed.
Theorem C62_set_path_safe :
  forall st r p, is_bytes p ->
    let r' := snd (snd (set_path p true (st, r))) in
    exists x, get_path r' = Ok x /\ (forall c, In c x -> In c (path_chars ++ [percent])) /\
      (~ In percent p -> unquote_to_bytes x = p) /\
      forall slash q, get_query r = Ok q ->
        get_full_path slash r' = Ok (x ++ (if slash && negb (endswith x !"/") then !"/" else [])
                                       ++ match q with [] => [] | _ => !"?" ++ iri_to_uri q end).
Proof.
  intros st r p Hp r'. exists (escape_uri_path false (iri_to_uri p)).
  assert (Hb : is_bytes (iri_to_uri p)).
  { intros c Hc. apply (quote_ascii iri_safe p (is_bytes_only p Hp)) in Hc; [lia|].
    intros x Hx. repeat (destruct Hx as [<-|Hx]; [easy|]). easy. }
  split; [reflexivity|]. split; [|split].
  - intros c Hc. apply mem_In. rewrite <- path_safe_pct_iff. unfold escape_uri_path in Hc.
    destruct (quote_chars (path_safe ++ [percent]) _ c (is_bytes_only _ Hb) Hc) as [[H _]|[->|H]]; [easy|reflexivity|].
    now rewrite (HEX_safe _ H).
  - intros Hn. now apply unquote_twice.
  - intros slash q Hq. unfold get_full_path. change (get_path r') with (Ok (escape_uri_path false (iri_to_uri p))).
    change (get_query r') with (get_query r). rewrite Hq. cbn [bind]. rewrite C61_escape_uri_path_idempotent by exact Hb.
    destruct q; reflexivity.
Qed.
Print Assumptions C62_set_path_safe.
Theorem C62_set_path_raw :
  forall st r p, get_path (snd (snd (set_path p false (st, r)))) = Ok p.
Proof. reflexivity. Qed.
Print Assumptions C62_set_path_raw.
Example C62_case :
  let '(_, w) := run hdr ex_set (req [!"GET /old?a=[b]" ++ !" HTTP/1.1"; !"Host: x"] []) in
  let '(_, (_, r)) := set_path (!"/n" ++ [195%N; 169%N] ++ !"w ;#") true w in
  get_path r = Ok !"/n%C3%A9w%20%3B%23" /\ get_full_path true r = Ok !"/n%C3%A9w%20%3B%23/?a=[b]".
Proof. vm_compute. split; reflexivity. Qed.

(** ** C74 is false: LookupError escapes, for every request that names an unknown charset,
    and the Settings object keeps the unknown name. *)
Lemma querydict_unknown reg st q mut : reg (s_charset st) = None -> (forall u, q <> Some (PU u)) ->
  querydict reg (Some (s_query st)) q mut = Err LookupError.
Proof.
  intros H Hq. unfold querydict. destruct q as [[b|u]|].
  - destruct (pnonempty (PB b)); unfold query_text, decode; cbn [qs_charset s_query]; now rewrite H.
  - now destruct (Hq u).
  - unfold query_text, decode. cbn [qs_charset s_query]. now rewrite H.
Qed.
Theorem C74_unknown_charset_refuted :
  forall reg st s r w l v c ps ch, request_init reg st s = Ok r -> delivers s w -> max_ok (s_hdr st) ->
    parse_request_line (w_line w) = Ok l -> (rl_domain l <> [] \/ exists h, last_value !"Host" w h) ->
    last_value !"Content-Type" w v -> parse_header reg v = Ok (c, ps) -> dget !"charset" ps = Some ch -> reg (pchars ch) = None ->
    exists w', parse_request_header reg (st, r) = (Err LookupError, w') /\ s_charset (fst w') = pchars ch /\
      forall s2, request_init reg (fst w') s2 = Err LookupError.
Proof.
  intros reg st s r w l v c ps ch Hi Hd Hm Hl Hh [pre Hv] Hc Hch Hreg.
  destruct (parse_wire reg st s r w Hi Hd Hm) as (q & s1 & d & -> & _ & Hwf & Hg & HP).
  rewrite HP, Hl. cbn zeta. clear HP. rewrite populate_eq.
  assert (HH : exists host hs, pick_host l d = Ok (host, hs) /\ dget !"Content-Type" hs = dget !"Content-Type" d).
  { unfold pick_host. destruct (rl_domain l) as [|c0 dom].
    - cbn [nonempty]. destruct Hh as [|(h & pre' & Hh)]; [easy|]. unfold header. rewrite Hg, Hh.
      destruct (pre' ++ [h]) eqn:E; [now destruct pre'|]. cbn [option_map]. do 2 eexists. split; [reflexivity|].
      now apply ddel_get_other.
    - cbn [nonempty]. do 2 eexists. split; reflexivity. }
  destruct HH as (host & hs & HPH & Hct). rewrite HPH.
  assert (HC : ctype_of reg hs = Ok (Some c, Some ch)).
  { unfold ctype_of, header. rewrite Hct, Hg, Hv. destruct (pre ++ [v]) eqn:E; [now destruct pre|]. rewrite <- E.
    cbn [option_map]. rewrite last_val, Hc. cbn [bind fst snd]. now rewrite Hch. }
  rewrite HC. cbn zeta. cbn [r_meta set_flags set_stream fresh charset_after reset_if].
  assert (HQ : query_of reg (with_charset (pchars ch) st) (rl_query l) = Err LookupError).
  { unfold query_of. destruct (nonempty (rl_query l)); now apply querydict_unknown. }
  rewrite HQ. eexists. split; [reflexivity|]. split; [reflexivity|]. intros s2. rewrite init_eq.
  cbn [fst]. now rewrite querydict_unknown.
Qed.
Print Assumptions C74_unknown_charset_refuted.
Example C74_case :
  let '(x, (st, r)) := run hdr ex_set (req [!"POST / HTTP/1.1"; !"Host: a"; !"Content-Type: text/plain; charset=klingon"] []) in
  x = Err LookupError /\ s_charset st = !"klingon".
Proof. vm_compute. split; reflexivity. Qed.

(** ** C75 is false: assigning [encoding] deletes GET, always, and nothing recomputes it
    while the header counts as parsed. *)
Theorem C75_encoding_drops_get_refuted :
  forall v w, let w' := snd (set_encoding v w) in
    r_get (snd w') = None /\
    forall reg, r_hp (snd w) = true -> r_get (snd (snd (parse_request_header reg w'))) = None.
Proof.
  intros v [st r] w'. split; [reflexivity|]. intros reg H. destruct w' as [st' r'] eqn:E.
  unfold w' in E. cbn in E. injection E as <- <-. now rewrite header_done.
Qed.
Print Assumptions C75_encoding_drops_get_refuted.
Example C75_case :
  let '(x, w) := run hdr ex_set (req [!"GET /?a=1 HTTP/1.1"; !"Host: a"] []) in
  x = Ok tt /\ r_get (snd w) = Some (mkQD !"ISO-8859-1" false [(!"a", [PU !"1"])]) /\
  r_get (snd (snd (hdr (snd (set_encoding !"utf-8" w))))) = None.
Proof. vm_compute. repeat split; reflexivity. Qed.
