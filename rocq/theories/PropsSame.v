(** * Claims that compare two requests: C109-C111 *)
From Coq Require Import ZifyBool ZifyN ZifyNat.
From Verif Require Import Py Spec HeadSpec PyFacts PyDict StreamModel StreamSpec StreamFacts StreamCalm CodecModel PercentModel
  QueryModel HeadModel HeadFacts UrlFacts HeaderModel BoundaryModel UploadModel MultipartModel ReaderSim
  RequestModel RequestSpec HeaderRun BodyRun ParseRun RequestMulti TwinFacts PropsHead PropsPart PropsRequest PropsBody PropsEnd.

Local Arguments querydict : simpl never.
Local Arguments decode : simpl never.

(** ** What one can see of a request object *)
(** the answers of [stream.read(n)] for the sizes given, one after the other *)
Fixpoint reads (ns : list (option Z)) (s : l0) : list (res str) :=
  match ns with [] => [] | n :: r => let (x, s1) := l0_read n s in x :: reads r s1 end.
(** everything but the input stream *)
Definition same_object (r r' : request) : Prop := r' = set_stream (r_stream r') r.
(** everything but the input stream and the parsed headers in META *)
Definition same_results (r r' : request) : Prop :=
  r_attrs r = r_attrs r' /\ r_get r = r_get r' /\ r_post r = r_post r' /\ r_files r = r_files r' /\ r_body r = r_body r' /\
  r_hp r = r_hp r' /\ r_bp r = r_bp r' /\ r_hasfiles r = r_hasfiles r' /\ r_handlers r = r_handlers r' /\
  option_map m_query (r_meta r) = option_map m_query (r_meta r').

(** ** Framing *)
Lemma held_reads k : 1 <= k <= 40 -> forall ns s t, held k s t -> reads ns s = reads ns t.
Proof.
  intros Hk. induction ns as [|n ns IH]; intros s t Hs; [reflexivity|]. cbn [reads]. pose proof (held_read k n s t Hk Hs) as [E HR].
  destruct (l0_read n s) as [x s1], (l0_read n t) as [y t1]. cbn [fst snd] in E, HR. subst y. f_equal. now apply IH.
Qed.
Lemma held_frame_loop k max : 1 <= k <= 40 -> forall fuel acc b s t, held k s t -> sim2 (held k) (frame_loop fuel max acc b s) (frame_loop fuel max acc b t).
Proof.
  intros Hk. induction fuel as [|f IH]; intros acc b s t Hs; [now split|]. cbn [frame_loop].
  pose proof (held_read k max s t Hk Hs) as [E HR]. destruct (l0_read max s) as [x s1], (l0_read max t) as [y t1]. cbn [fst snd] in E, HR. subst y.
  destruct x as [[|c x]|e]; [now split| |now split]. destruct (find crlfcrlf (acc ++ c :: x)); [now split|]. now apply IH.
Qed.
Lemma held_frame k max s t : 1 <= k <= 38 -> held k s t -> sim2 (held (k + 2)) (frame max s) (frame max t).
Proof.
  intros Hk Hs. unfold frame. rewrite (held_total k s t Hs). pose proof (held_frame_loop k max ltac:(lia) (2 + l0_total t) [] false s t Hs) as [E HR].
  destruct (frame_loop _ _ _ _ s) as [[x b] s1], (frame_loop _ _ _ _ t) as [[y b'] t1]. cbn [fst snd] in E, HR. injection E as <- <-.
  assert (HR' : held (k + 2) s1 t1) by (eapply held_mono; [|exact HR]; lia).
  destruct x as [[h rest]|e]; [|now split]. pose proof (held_unget k rest s1 t1 ltac:(lia) HR) as [E HU].
  destruct (ls_unget rest s1) as [[u|e] s2], (ls_unget rest t1) as [[u'|e'] t2]; cbn [fst snd] in E, HU; try discriminate E; [now split|].
  injection E as <-. now split.
Qed.
Lemma frame_loop_flag max : forall fuel acc b s x b' s', frame_loop fuel max acc b s = (Ok x, b', s') -> b' = true.
Proof.
  induction fuel as [|f IH]; intros acc b s x b' s'; [easy|]. cbn [frame_loop].
  destruct (l0_read max s) as [[[|c d]|e] s1]; try easy. destruct (find crlfcrlf (acc ++ c :: d)); [now intros [= _ <-]|apply IH].
Qed.
Lemma frame_flag max s x b s' : frame max s = (Ok x, b, s') -> b = true.
Proof.
  unfold frame. destruct (frame_loop _ _ _ _ s) as [[[[h rest]|e] b1] s1] eqn:E; [|easy]. apply frame_loop_flag in E. subst b1.
  destruct (ls_unget rest s1) as [[u|e] s2]; [|easy]. now intros [= _ <- _].
Qed.

(** ** From a pair of equal headers to a pair of equal results *)
Lemma twin_results H mu k r r' : twin H mu k r r' -> same_results r r'.
Proof.
  intros []. assert (Hm : option_map m_query (r_meta r) = option_map m_query (r_meta r')).
  { unfold meta_like in *. destruct (r_meta r), (r_meta r'); try easy. cbn. f_equal. apply tw_meta. }
  assert (Hh : r_hp r = r_hp r') by congruence. exact (conj tw_attrs (conj tw_get (conj tw_post (conj tw_files (conj tw_body (conj Hh (conj tw_bp (conj tw_hf (conj tw_hs Hm))))))))).
Qed.
Lemma twin_object mu k r r' : twin eq mu k r r' -> same_object r r'.
Proof.
  intros []. unfold same_object. destruct r as [a1 a2 a3 a4 a5 a6 a7 a8 a9 m a11], r' as [b1 b2 b3 b4 b5 b6 b7 b8 b9 m' b11].
  cbn in *. subst. unfold set_stream. cbn. f_equal. unfold meta_like in *. destruct m as [[qs h]|], m' as [[qs' h']|]; try easy.
  cbn in *. destruct tw_meta as [<- Hm]. unfold simo in Hm. destruct h, h'; try easy. now subst.
Qed.

(** the outcome of [parse()] in two worlds *)
Definition same_outcome (rel : request -> request -> Prop) (x y : res unit * world) : Prop :=
  fst x = fst y /\ fst (snd x) = fst (snd y) /\ rel (snd (snd x)) (snd (snd y)) /\
  forall ns, reads ns (r_stream (snd (snd x))) = reads ns (r_stream (snd (snd y))).
Lemma outcome_of H mu ks k (rel : request -> request -> Prop) x y : 1 <= k <= 40 -> (forall r r', twin H mu k r r' -> rel r r') ->
  sim2 (tw H mu ks k) x y -> same_outcome rel x y.
Proof.
  intros Hk Hr (E1 & [E2 _] & T). split; [exact E1|]. split; [exact E2|]. split; [now apply Hr|]. intros ns. apply (held_reads k); [exact Hk|apply T].
Qed.

(** ** C109 *)
Theorem C109_delivery_makes_no_difference :
  forall reg n2 mk st s s' r r', src_error s = None -> src_error s' = None -> src_bytes s = src_bytes s' ->
    request_init reg st s = Ok r -> request_init reg st s' = Ok r' ->
    same_outcome same_object (parse reg n2 mk (st, r)) (parse reg n2 mk (st, r')).
Proof.
  intros reg n2 mk st s s' r r' H1 H2 H3 Hi Hi'. rewrite init_eq in Hi, Hi'.
  destruct (querydict reg (Some (s_query st)) None true) as [q|e]; [|easy]. injection Hi as <-. injection Hi' as <-.
  assert (HS : held 1 (l0_init s) (l0_init s')) by (exists (src_bytes s); split; [|rewrite H3]; now apply l0at_init).
  unfold parse, mbind. rewrite !header_eq by reflexivity. cbn [r_stream fresh].
  pose proof (held_frame 1 (s_hdr st) _ _ ltac:(lia) HS) as [E HR].
  destruct (frame (s_hdr st) (l0_init s)) as [[x b] s1] eqn:EF, (frame (s_hdr st) (l0_init s')) as [[y b'] t1]. cbn [fst snd] in E, HR. injection E as <- <-.
  cbn zeta. change (1 + 2) with 3 in HR.
  assert (HE : forall e, same_outcome same_object (@Err unit e, (st, set_flags b (r_bp (fresh q s)) (set_stream s1 (fresh q s))))
                                      (Err e, (st, set_flags b (r_bp (fresh q s')) (set_stream t1 (fresh q s'))))).
  { intros e. split; [reflexivity|]. split; [reflexivity|]. split; [reflexivity|]. intros ns. apply (held_reads 3); [lia|exact HR]. }
  destruct x as [hb|e]; [|apply HE]. apply frame_flag in EF. subst b.
  destruct (parse_request_headers hb) as [[line hs]|e]; [|apply HE]. destruct (parse_request_line line) as [l|e]; [|apply HE]. clear HE.
  assert (T : tw eq true (s_handlers st) 3 (st, set_flags true (r_bp (fresh q s)) (set_stream s1 (fresh q s))) (st, set_flags true (r_bp (fresh q s')) (set_stream t1 (fresh q s')))).
  { split; [now split|]. constructor; try reflexivity; [exact HR| |easy]. now split. }
  assert (HL : heads_like eq true reg l hs hs) by (unfold heads_like; destruct (pick_host l hs) as [[]|]; [|reflexivity]; repeat split; easy).
  pose proof (twin_populate eq true (s_handlers st) reg 3 l hs hs _ _ HL T ltac:(easy)) as HP.
  destruct (populate reg l hs _) as [[u|e] w1], (populate reg l hs (st, set_flags true (r_bp (fresh q s')) _)) as [[u'|e'] w1'];
    destruct HP as [E HP]; cbn [fst snd] in E, HP; try discriminate E.
  - eapply (outcome_of eq true (s_handlers st) 5); [lia|apply twin_object|]. apply (twin_parse_body eq true (s_handlers st) reg n2 mk) with (k := 3); [|lia|exact HP].
    intros _ h h' <-. now apply like_init_eq.
  - injection E as <-. eapply (outcome_of eq true (s_handlers st) 3); [lia|apply twin_object|]. now split.
Qed.
Print Assumptions C109_delivery_makes_no_difference.
(** whether the object can be made does not depend on the source at all *)
Theorem C109_object_always_made_or_never :
  forall reg st s s' e, request_init reg st s = Err e -> request_init reg st s' = Err e.
Proof. intros reg st s s' e. rewrite !init_eq. now destruct (querydict reg (Some (s_query st)) None true). Qed.
Print Assumptions C109_object_always_made_or_never.
Definition one_by_one (b : str) : src := map (fun c => SData [c]) b.
Definition ex_mixed : str := src_bytes (req [!"POST /a?x=1 HTTP/1.1"; !"Host: b"; !"Content-Type: application/x-www-form-urlencoded; charset=utf-8"] !"k=v&k=%C3%A9").
Definition ex_broken : str := src_bytes (req [!"POST /a HTTP/1.1"; !"Host: b"; !"Content-Type: multipart/form-data; boundary=X"; !"Content-Length: 9"]
  (!"--X" ++ crlf ++ !"Content-Disposition: form-data; name=a" ++ crlf ++ crlf ++ !"v" ++ crlf ++ !"--X" ++ crlf ++ !"tail")).
Example C109_case :
  Forall (fun b => src_error (one_by_one b) = None /\ src_error [SData b; SData []] = None /\ src_bytes (one_by_one b) = src_bytes [SData b; SData []]) [ex_mixed; ex_broken] /\
  (exists r r', request_init ex_reg ex_set (one_by_one ex_mixed) = Ok r /\ request_init ex_reg ex_set [SData ex_mixed] = Ok r') /\
  (let '(x, (st, r)) := run (parse ex_reg no_cp ok_temp) ex_set (one_by_one ex_mixed) in
   x = Ok tt /\ option_map (fun p => match p with PQuery q => q_d q | PForm _ => [] end) (r_post r) = Some [(!"k", [PU !"v"; PU [233%N]])] /\
   s_charset st = !"utf-8") /\
  (let '(x, (st, r)) := run (parse ex_reg no_cp ok_temp) ex_set (one_by_one ex_broken) in
   x = Ok tt /\ option_map (fun p => match p with PQuery q => [] | PForm d => map fst d end) (r_post r) = Some [!"a"]).
Proof. split; [repeat constructor|]. split; [do 2 eexists; split; vm_compute; reflexivity|]. vm_compute. repeat split. Qed.

(** ** Requests that differ in their header fields *)
Definition agree_on (ns : list str) (w w' : wire) : Prop :=
  forall n v, In n ns -> (RequestSpec.last_value n w v <-> RequestSpec.last_value n w' v).
Lemma header_last n d w : dget n d = match values_named n (w_fields w) with [] => None | vs => Some vs end ->
  forall v, header n d = Some v <-> RequestSpec.last_value n w v.
Proof.
  intros Hd v. unfold header, RequestSpec.last_value, last_of. rewrite Hd. destruct (values_named n (w_fields w)) as [|x l] eqn:E.
  - split; [easy|]. intros [pre Hp]. now destruct pre.
  - cbn [option_map]. split.
    + intros HH. assert (Hv : last (x :: l) [] = v) by congruence. rewrite <- Hv. exists (removelast (x :: l)). now apply app_removelast_last.
    + intros [pre ->]. now rewrite last_last.
Qed.
Lemma header_agree n d d' w w' ns : In n ns -> agree_on ns w w' ->
  dget n d = match values_named n (w_fields w) with [] => None | vs => Some vs end ->
  dget n d' = match values_named n (w_fields w') with [] => None | vs => Some vs end -> header n d = header n d'.
Proof.
  intros Hn HA Hd Hd'. destruct (header n d) as [v|] eqn:E.
  - apply (header_last n d w Hd) in E. apply HA in E; [|exact Hn]. symmetry. now apply (header_last n d' w' Hd').
  - destruct (header n d') as [v|] eqn:E'; [|reflexivity]. apply (header_last n d' w' Hd') in E'. apply HA in E'; [|exact Hn].
    apply (header_last n d w Hd) in E'. congruence.
Qed.
Lemma header_ddel n m d : n <> m -> header n (ddel m d) = header n d.
Proof. intros H. unfold header. now rewrite dget_ddel_other. Qed.

Definition uses (ns : list str) (h h' : headers) : Prop := forall n, In n ns -> header n h = header n h'.
Lemma heads_agree ns mu reg l d d' w w' :
  In !"Host" ns -> In !"Content-Type" ns -> agree_on ns w w' ->
  (forall n, dget n d = match values_named n (w_fields w) with [] => None | vs => Some vs end) ->
  (forall n, dget n d' = match values_named n (w_fields w') with [] => None | vs => Some vs end) ->
  (mu = false -> forall host h c ch, pick_host l d = Ok (host, h) -> ctype_of reg h = Ok (c, ch) -> c <> Some CT_MULTI) ->
  heads_like (uses (filter (fun n => negb (seqb n !"Host")) ns)) mu reg l d d'.
Proof.
  intros I1 I2 HA Hd Hd' Hc. assert (HU : forall n, In n ns -> header n d = header n d') by (intros n Hn; now apply (header_agree n d d' w w' ns)).
  unfold heads_like. unfold pick_host in *. destruct (nonempty (rl_domain l)).
  - split; [reflexivity|]. split; [|split].
    + intros n [Hn _]%filter_In. now apply HU.
    + unfold ctype_of. now rewrite (HU _ I2).
    + intros Hm c ch. now apply (Hc Hm _ _ c ch eq_refl).
  - rewrite <- (HU _ I1). destruct (header !"Host" d) as [v|]; [|reflexivity]. split; [reflexivity|]. split; [|split].
    + intros n [Hn Hne]%filter_In. assert (n <> !"Host") by (intros ->; discriminate Hne). rewrite !header_ddel by assumption. now apply HU.
    + unfold ctype_of. rewrite !header_ddel by discriminate. now rewrite (HU _ I2).
    + intros Hm c ch. now apply (Hc Hm _ _ c ch eq_refl).
Qed.

Definition fields_of (w : wire) (d : headers) : Prop :=
  forall n, dget n d = match values_named n (w_fields w) with [] => None | vs => Some vs end.
Lemma same_heads_rel (rel : request -> request -> Prop) H mu reg n2 mk st s s' r r' w w' :
  request_init reg st s = Ok r -> request_init reg st s' = Ok r' -> delivers s w -> delivers s' w' -> max_ok (s_hdr st) ->
  w_line w = w_line w' -> w_body w = w_body w' ->
  (forall mu l d d', wf d -> wf d' -> fields_of w d -> fields_of w' d' ->
    (mu = false -> forall host h c ch, pick_host l d = Ok (host, h) -> ctype_of reg h = Ok (c, ch) -> c <> Some CT_MULTI) -> heads_like H mu reg l d d') ->
  (mu = true -> forall h h', H h h' -> like_init (s_handlers st)
    (mp_init reg (header !"Content-Type" h) (header !"Content-Length" h)) (mp_init reg (header !"Content-Type" h') (header !"Content-Length" h'))) ->
  (mu = false -> forall st1 r1, parse_request_header reg (st, r) = (Ok tt, (st1, r1)) -> a_ctype (r_attrs r1) <> Some (Some CT_MULTI)) ->
  (forall mu k r r', twin H mu k r r' -> rel r r') ->
  same_outcome rel (parse reg n2 mk (st, r)) (parse reg n2 mk (st, r')).
Proof.
  intros Hi Hi' Hw Hw' Hm HL HB HA HC HN Hrel.
  destruct (parse_wire reg st s r w Hi Hw Hm) as (q & s1 & d & -> & Hs1 & Wd & Hd & HP).
  destruct (parse_wire reg st s' r' w' Hi' Hw' Hm) as (q' & t1 & d' & -> & Ht1 & Wd' & Hd' & HP').
  assert (q' = q) as ->. { rewrite init_eq in Hi, Hi'. destruct (querydict reg (Some (s_query st)) None true); [|easy].
    apply (f_equal (fun x => match x with Ok r => r_get r | Err _ => None end)) in Hi, Hi'. cbn in Hi, Hi'. congruence. }
  rewrite HP in HN. unfold parse, mbind. rewrite HP, HP'. clear HP HP'. cbn zeta in *. rewrite <- HL. rewrite <- HB in Ht1.
  assert (HR : held 3 s1 t1) by (now exists (w_body w)).
  assert (T : forall mu, tw H mu (s_handlers st) 3 (st, set_flags true false (set_stream s1 (fresh q s))) (st, set_flags true false (set_stream t1 (fresh q s')))).
  { intros mu0. split; [now split|]. constructor; try reflexivity; [exact HR| |easy]. now split. }
  destruct (parse_request_line (w_line w)) as [l|e].
  2:{ eapply (outcome_of H true (s_handlers st) 3); [lia|apply Hrel|]. split; [reflexivity|apply T]. }
  pose proof (HA true l d d' Wd Wd' Hd Hd' ltac:(easy)) as HH.
  pose proof (twin_populate H true (s_handlers st) reg 3 l d d' _ _ HH (T true) ltac:(easy)) as HT.
  destruct (populate reg l d _) as [[u|e] w1] eqn:EP, (populate reg l d' _) as [[u'|e'] w1'] eqn:EP'; destruct HT as [E HT]; cbn [fst snd] in E, HT; try discriminate E.
  2:{ injection E as <-. eapply (outcome_of H true (s_handlers st) 3); [lia|apply Hrel|]. now split. }
  clear HH HT. destruct u, u', w1 as [st1 r1].
  assert (HH : heads_like H mu reg l d d').
  { apply (HA mu l d d' Wd Wd' Hd Hd'). intros Hmu host h c ch Hp Hc ->.
    apply (HN Hmu st1 r1 eq_refl). rewrite populate_eq, Hp, Hc in EP. cbn in EP. destruct (query_of _ _ _); [|easy]. injection EP as _ <-. now destruct ch. }
  pose proof (twin_populate H mu (s_handlers st) reg 3 l d d' _ _ HH (T mu) ltac:(easy)) as [_ HT]. rewrite EP, EP' in HT. cbn [snd] in HT.
  eapply (outcome_of H mu (s_handlers st) 5); [lia|apply Hrel|]. apply (twin_parse_body H mu (s_handlers st) reg n2 mk) with (k := 3); [exact HC|lia|exact HT].
Qed.

Lemma same_heads H mu reg n2 mk st s s' r r' w w' :
  request_init reg st s = Ok r -> request_init reg st s' = Ok r' -> delivers s w -> delivers s' w' -> max_ok (s_hdr st) ->
  w_line w = w_line w' -> w_body w = w_body w' ->
  (forall mu l d d', fields_of w d -> fields_of w' d' ->
    (mu = false -> forall host h c ch, pick_host l d = Ok (host, h) -> ctype_of reg h = Ok (c, ch) -> c <> Some CT_MULTI) -> heads_like H mu reg l d d') ->
  (mu = true -> forall h h', H h h' ->
    mp_init reg (header !"Content-Type" h) (header !"Content-Length" h) = mp_init reg (header !"Content-Type" h') (header !"Content-Length" h')) ->
  (mu = false -> forall st1 r1, parse_request_header reg (st, r) = (Ok tt, (st1, r1)) -> a_ctype (r_attrs r1) <> Some (Some CT_MULTI)) ->
  same_outcome same_results (parse reg n2 mk (st, r)) (parse reg n2 mk (st, r')).
Proof.
  intros Hi Hi' Hw Hw' Hm HL HB HA HC HN. apply (same_heads_rel same_results H mu reg n2 mk st s s' r r' w w' Hi Hi' Hw Hw' Hm HL HB); [intros mu0 l d d' _ _; apply HA| |exact HN|].
  - intros Hmu h h' Hh. apply like_init_eq. now apply HC.
  - intros mu0 k r1 r2. apply twin_results.
Qed.

Lemma same_wire ns mu reg n2 mk st s s' r r' w w' :
  In !"Host" ns -> In !"Content-Type" ns -> (mu = true -> In !"Content-Length" ns) ->
  request_init reg st s = Ok r -> request_init reg st s' = Ok r' -> delivers s w -> delivers s' w' -> max_ok (s_hdr st) ->
  w_line w = w_line w' -> w_body w = w_body w' -> agree_on ns w w' ->
  (mu = false -> forall st1 r1, parse_request_header reg (st, r) = (Ok tt, (st1, r1)) -> a_ctype (r_attrs r1) <> Some (Some CT_MULTI)) ->
  same_outcome same_results (parse reg n2 mk (st, r)) (parse reg n2 mk (st, r')).
Proof.
  intros I1 I2 I3 Hi Hi' Hw Hw' Hm HL HB HA HN.
  apply (same_heads (uses (filter (fun n => negb (seqb n !"Host")) ns)) mu reg n2 mk st s s' r r' w w' Hi Hi' Hw Hw' Hm HL HB); [| |exact HN].
  - intros mu0 l d d' Hd Hd'. now apply (heads_agree ns mu0 reg l d d' w w').
  - intros Hmu h h' Hh. f_equal; apply Hh; apply filter_In; (split; [|reflexivity]); [exact I2|now apply I3].
Qed.

(** ** C110 *)
Theorem C110_only_three_headers_matter :
  forall reg n2 mk st s s' r r' w w',
    request_init reg st s = Ok r -> request_init reg st s' = Ok r' -> delivers s w -> delivers s' w' -> max_ok (s_hdr st) ->
    w_line w = w_line w' -> w_body w = w_body w' ->
    agree_on [!"Host"; !"Content-Type"; !"Content-Length"] w w' ->
    same_outcome same_results (parse reg n2 mk (st, r)) (parse reg n2 mk (st, r')).
Proof.
  intros. eapply (same_wire [!"Host"; !"Content-Type"; !"Content-Length"] true); try eassumption; try discriminate; cbn; auto.
Qed.
Print Assumptions C110_only_three_headers_matter.

(** ** C111: Content-Length *)
(** It is not even looked at unless the request is a multipart one. *)
Theorem C111_length_unused_refuted :
  forall reg n2 mk st s s' r r' w w',
    request_init reg st s = Ok r -> request_init reg st s' = Ok r' -> delivers s w -> delivers s' w' -> max_ok (s_hdr st) ->
    w_line w = w_line w' -> w_body w = w_body w' ->
    agree_on [!"Host"; !"Content-Type"] w w' ->
    (forall st1 r1, parse_request_header reg (st, r) = (Ok tt, (st1, r1)) -> a_ctype (r_attrs r1) <> Some (Some !"multipart/form-data")) ->
    same_outcome same_results (parse reg n2 mk (st, r)) (parse reg n2 mk (st, r')).
Proof.
  intros. eapply (same_wire [!"Host"; !"Content-Type"] false); try eassumption; try discriminate; cbn; auto.
Qed.
Print Assumptions C111_length_unused_refuted.

(** so a transfer coding is neither undone nor refused: whatever further header is added at the end, nothing changes *)
Theorem C111_transfer_coding_ignored_refuted :
  forall reg n2 mk st s s' r r' w w' n v,
    request_init reg st s = Ok r -> request_init reg st s' = Ok r' -> delivers s w -> delivers s' w' -> max_ok (s_hdr st) ->
    w_line w' = w_line w -> w_body w' = w_body w -> w_fields w' = w_fields w ++ [(n, v)] ->
    ~ In n [!"Host"; !"Content-Type"; !"Content-Length"] ->
    same_outcome same_results (parse reg n2 mk (st, r)) (parse reg n2 mk (st, r')).
Proof.
  intros reg n2 mk st s s' r r' w w' n v Hi Hi' Hw Hw' Hm HL HB HF Hn.
  eapply C110_only_three_headers_matter; try eassumption; try (symmetry; assumption).
  intros m x Hin. unfold RequestSpec.last_value. rewrite HF.
  assert (E : values_named m (w_fields w ++ [(n, v)]) = values_named m (w_fields w)).
  { assert (Hne : seqb m n = false) by (destruct (seqb m n) eqn:Q; [|reflexivity]; apply seqb_eq in Q; subst m; contradiction).
    clear HF. induction (w_fields w) as [|[a b] l IH]; cbn [values_named app]; [now rewrite Hne|]. destruct (seqb m a); now rewrite IH. }
  rewrite E. reflexivity.
Qed.
Print Assumptions C111_transfer_coding_ignored_refuted.
(** two headers that contradict each other are not refused either: of several Host, Content-Type or
    Content-Length headers all but the last may be left out *)
Theorem C111_contradiction_ignored_refuted :
  forall reg n2 mk st s s' r r' w w' pre post n v,
    request_init reg st s = Ok r -> request_init reg st s' = Ok r' -> delivers s w -> delivers s' w' -> max_ok (s_hdr st) ->
    w_line w' = w_line w -> w_body w' = w_body w -> w_fields w = pre ++ post -> w_fields w' = pre ++ (n, v) :: post -> In n (map fst post) ->
    same_outcome same_results (parse reg n2 mk (st, r)) (parse reg n2 mk (st, r')).
Proof.
  intros reg n2 mk st s s' r r' w w' pre post n v Hi Hi' Hw Hw' Hm HL HB HF HF' Hn.
  eapply C110_only_three_headers_matter; try eassumption; try (symmetry; assumption).
  intros m x _. unfold RequestSpec.last_value. rewrite HF, HF'.
  assert (EA : forall a b, values_named m (a ++ b) = values_named m a ++ values_named m b).
  { intros a b. induction a as [|[c d] a IH]; [reflexivity|]. cbn [values_named app]. destruct (seqb m c); now rewrite IH. }
  rewrite !EA. cbn [values_named]. destruct (seqb m n) eqn:Q; [|reflexivity]. apply seqb_eq in Q. subst m.
  assert (EN : exists l y, values_named n post = l ++ [y]).
  { destruct (values_named n post) as [|y l] eqn:EP.
    - exfalso. clear - Hn EP. induction post as [|[c d] post IH]; [easy|]. cbn [values_named] in EP. destruct (seqb n c) eqn:Q; [easy|].
      destruct Hn as [Hn|Hn]; [|now apply IH]. cbn in Hn. subst c. now rewrite (proj2 (seqb_eq n n) eq_refl) in Q.
    - exists (removelast (y :: l)), (last (y :: l) []). now apply app_removelast_last. }
  destruct EN as (l & y & EP). rewrite EP. split; intros [p E].
  - rewrite app_assoc in E. apply app_inj_tail in E as [_ <-]. exists (values_named n pre ++ v :: l). now rewrite <- app_assoc.
  - exists (values_named n pre ++ l). rewrite app_comm_cons, app_assoc in E. apply app_inj_tail in E as [_ <-]. now rewrite app_assoc.
Qed.
Print Assumptions C111_contradiction_ignored_refuted.
Lemma agree_lasts ns w w' : (forall n, In n ns -> hd_error (rev (values_named n (w_fields w))) = hd_error (rev (values_named n (w_fields w')))) -> agree_on ns w w'.
Proof.
  intros H n v Hn. specialize (H n Hn). unfold RequestSpec.last_value.
  assert (E : forall l : list str, (exists pre, l = pre ++ [v]) <-> hd_error (rev l) = Some v).
  { intros l. split.
    - intros [pre ->]. now rewrite rev_app_distr.
    - intros E. destruct (rev l) as [|x r] eqn:R; [easy|]. injection E as ->. exists (rev r). now rewrite <- (rev_involutive l), R. }
  rewrite !E. now rewrite H.
Qed.
Definition ex110 (fs : list (str * str)) (b : str) : src := req (ex_line :: map field fs) b.
Definition wire110 (fs : list (str * str)) (b : str) : wire := mkWire ex_line (map field fs) fs b.
Definition f110 : list (str * str) := [(!"Host", !"c"); (!"Host", !"a"); (!"Content-Type", !"text/plain")].
Definition f110' : list (str * str) := [(!"Host", !"a"); (!"content-type", !"text/html"); (!"Content-Type", !"text/plain"); (!"Transfer-Encoding", !"chunked")].
Definition chunked_text : str := !"2" ++ crlf ++ !"ab" ++ crlf ++ !"0" ++ crlf ++ crlf.
Example C110_case :
  delivers (ex110 f110 chunked_text) (wire110 f110 chunked_text) /\ delivers (ex110 f110' chunked_text) (wire110 f110' chunked_text) /\
  agree_on [!"Host"; !"Content-Type"; !"Content-Length"] (wire110 f110 chunked_text) (wire110 f110' chunked_text) /\
  (let '(x, (st, r)) := run (parse ex_reg no_cp ok_temp) ex_set (ex110 f110' chunked_text) in
   x = Ok tt /\ r_body r = Some (PU chunked_text) /\ a_host (r_attrs r) = Some (Some !"a")).
Proof.
  split; [apply delivers_msg; reflexivity || discriminate|]. split; [apply delivers_msg; reflexivity || discriminate|]. split.
  - apply agree_lasts. intros n [<-|[<-|[<-|[]]]]; reflexivity.
  - vm_compute. repeat split.
Qed.
(** the bytes of a second request that follows are taken for the body of the first; two lengths that contradict each other are accepted *)
Theorem C111_pipelined_request_swallowed_refuted :
  exists s w, delivers s w /\ RequestSpec.last_value !"Content-Length" w !"3" /\ values_named !"Content-Length" (w_fields w) = [!"5"; !"3"] /\
    let '(x, (st, r)) := run (parse ex_reg no_cp ok_temp) ex_set s in
    x = Ok tt /\ r_body r = Some (PU !"abcGET /second HTTP/1.1").
Proof.
  set (fs := [(!"Host", !"a"); (!"Content-Length", !"5"); (!"Content-Length", !"3")]).
  exists (ex110 fs !"abcGET /second HTTP/1.1"), (wire110 fs !"abcGET /second HTTP/1.1").
  split; [apply delivers_msg; reflexivity || discriminate|]. split; [now exists [!"5"]|]. split; [reflexivity|]. vm_compute. now split.
Qed.
Print Assumptions C111_pipelined_request_swallowed_refuted.
(** and a body shorter than announced is not noticed *)
Theorem C111_short_body_accepted_refuted :
  exists s w, delivers s w /\ RequestSpec.last_value !"Content-Length" w !"900" /\
    let '(x, (st, r)) := run (parse ex_reg no_cp ok_temp) ex_set s in
    x = Ok tt /\ r_body r = Some (PU !"a=1") /\ option_map (fun p => match p with PQuery q => q_d q | PForm _ => [] end) (r_post r) = Some [(!"a", [PU !"1"])].
Proof.
  set (fs := [(!"Host", !"a"); (!"Content-Length", !"900"); (!"Content-Type", !"application/x-www-form-urlencoded")]).
  exists (ex110 fs !"a=1"), (wire110 fs !"a=1").
  split; [apply delivers_msg; reflexivity || discriminate|]. split; [now exists []|]. vm_compute. repeat split.
Qed.
Print Assumptions C111_short_body_accepted_refuted.
