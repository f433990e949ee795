(** * Theorems C120-C122: body parses that fail, and how much of the stream body() takes *)
From Coq Require Import ZifyBool ZifyN ZifyNat.
From Verif Require Import Py Spec HeadSpec PyFacts PyDict StreamModel StreamSpec StreamFacts StreamCalm CodecModel PercentModel
  QueryModel HeadModel HeadFacts HeaderModel UploadModel MultipartModel RequestModel RequestSpec HeaderRun BodyRun ParseRun TapeFacts
  PropsPart PropsRequest PropsBody.

Local Arguments querydict : simpl never.
Local Arguments decode : simpl never.
Local Arguments mp_parse : simpl never.

(** ** C120: what the caller sees of the last form *)
Definition form_of (r : request) : option postv * option (dict (list ufile)) * bool := (r_post r, r_files r, r_bp r).
Definition leaves {A} (m : M A) : Prop := forall w, form_of (snd (snd (m w))) = form_of (snd w).
Lemma lv_ret {A} (a : A) : leaves (mret a). Proof. easy. Qed.
Lemma lv_raise {A} e : leaves (@mraise A e). Proof. easy. Qed.
Lemma lv_lift {A} (x : res A) : leaves (mlift x). Proof. easy. Qed.
Lemma lv_sett : leaves msett. Proof. easy. Qed.
Lemma lv_req : leaves mreq. Proof. easy. Qed.
Lemma lv_upd f : (forall r, form_of (f r) = form_of r) -> leaves (mupd f). Proof. intros H w. apply H. Qed.
Lemma lv_stream {A} (f : l0 -> res A * l0) : leaves (mstream f).
Proof. intros w. unfold mstream. now destruct (f (r_stream (snd w))). Qed.
Lemma lv_bind {A B} (m : M A) (f : A -> M B) : leaves m -> (forall a, leaves (f a)) -> leaves (mbind m f).
Proof.
  intros Hm Hf w. unfold mbind. specialize (Hm w). destruct (m w) as [[a|e] w1]; [|exact Hm]. cbn [snd] in Hm.
  rewrite <- Hm. exact (Hf a w1).
Qed.
Ltac lv := repeat match goal with
  | |- leaves (mbind _ _) => apply lv_bind; [|intros ?]
  | |- leaves (mret _) => apply lv_ret
  | |- leaves (mraise _) => apply lv_raise
  | |- leaves (mlift _) => apply lv_lift
  | |- leaves msett => apply lv_sett
  | |- leaves mreq => apply lv_req
  | |- leaves (mstream _) => apply lv_stream
  | |- leaves (mupd _) => apply lv_upd; intros []; reflexivity
  | |- leaves (match ?x with _ => _ end) => destruct x
  | |- leaves (let (_, _) := ?x in _) => destruct x
  | |- leaves (let x := _ in _) => cbv zeta
  end.
Section Form.
  Context (reg : registry) (name2cp : str -> option N) (mk_temp : str -> res unit).
  Lemma lv_query q b : leaves (new_query reg q b). Proof. unfold new_query. lv. Qed.
  Lemma lv_encoding v : leaves (set_encoding v). Proof. intros [st []]. reflexivity. Qed.
  Lemma lv_populate l hs : leaves (populate reg l hs).
  Proof. unfold populate. lv; try apply lv_encoding; try apply lv_query. Qed.
  Lemma lv_header : leaves (parse_request_header reg).
  Proof.
    unfold parse_request_header. lv; [|apply lv_populate].
    intros w. now destruct (frame _ _) as [[x b] s1].
  Qed.
  Lemma lv_mread n : leaves (m_read n). Proof. apply lv_stream. Qed.
  Lemma lv_loop : forall fuel max size chunk acc, leaves (body_loop fuel max size chunk acc).
  Proof. induction fuel as [|fuel IH]; intros; cbn [body_loop]; lv; try apply lv_mread; try apply IH. Qed.
  Lemma lv_body : leaves (body reg).
  Proof.
    assert (H1 : leaves body1).
    { unfold body1, read_body. lv; try apply lv_mread; try apply lv_loop. }
    unfold body. apply lv_bind; [apply lv_req|intros r]. match goal with |- context [if ?b then _ else _] => destruct b end; [exact H1|].
    apply lv_bind; [apply lv_header|intros _; exact H1].
  Qed.
  Lemma lv_empty : leaves (empty_post reg). Proof. unfold empty_post. lv. apply lv_query. Qed.
  Lemma lv_upload : leaves (parse_file_upload reg name2cp mk_temp).
  Proof. unfold parse_file_upload. lv. Qed.
  Lemma lv_post : leaves (parse_post reg name2cp mk_temp).
  Proof.
    unfold parse_post. apply lv_bind; [apply lv_req|intros r]. destruct (a_ctype (r_attrs r)) as [c|]; [|apply lv_raise].
    destruct (match c with Some c0 => seqb c0 CT_MULTI | None => false end).
    - intros w. pose proof (lv_upload w) as H. destruct (parse_file_upload reg name2cp mk_temp w) as [[pf|e] w1]; [exact H|].
      destruct e; try exact H. cbn [snd] in H. rewrite <- H.
      assert (G : leaves (let! _ := empty_post reg in @mraise (postv * dict (list ufile)) MultiPartParserError)) by (lv; apply lv_empty).
      apply G.
    - lv; first [apply lv_body|apply lv_query|apply lv_empty].
  Qed.
End Form.

Theorem C120_failure_publishes_nothing :
  forall reg name2cp mk_temp w e w', parse_request_body reg name2cp mk_temp w = (Err e, w') ->
    r_post (snd w') = r_post (snd w) /\ r_files (snd w') = r_files (snd w) /\ r_bp (snd w') = r_bp (snd w).
Proof.
  intros reg name2cp mk_temp w e w' H.
  assert (HF : form_of (snd w') = form_of (snd w)).
  { revert H. unfold parse_request_body. unfold mbind at 1, mreq at 1. destruct (r_bp (snd w)); [easy|].
    unfold mbind at 1, msett at 1. unfold mbind at 1, mupd at 1. set (w0 := (fst w, _)).
    assert (H0 : form_of (snd w0) = form_of (snd w)) by (unfold w0; now destruct w as [st []]). rewrite <- H0. clearbody w0. clear H0.
    assert (HL : forall A (m : M A) w1, leaves m -> m w1 = (Err e, w') -> form_of (snd w') = form_of (snd w1)).
    { intros A m w1 Hm E. specialize (Hm w1). now rewrite E in Hm. }
    destruct (negb (r_hp (snd w))).
    { apply HL. lv. apply lv_empty. }
    unfold mbind at 1. pose proof (lv_stream (l0_read (Some 1%Z)) w0) as H1.
    destruct (mstream (l0_read (Some 1%Z)) w0) as [[d|x] w1]; [|intros [= -> <-]; exact H1]. cbn [snd] in H1. rewrite <- H1.
    destruct d as [|c d]; [apply HL; lv; apply lv_empty|].
    unfold mbind at 1. pose proof (lv_stream (ls_unget (c :: d)) w1) as H2.
    destruct (mstream (ls_unget (c :: d)) w1) as [[u|x] w2]; [|intros [= -> <-]; exact H2]. cbn [snd] in H2. rewrite <- H2.
    unfold mbind at 1. pose proof (lv_post reg name2cp mk_temp w2) as H3.
    destruct (parse_post reg name2cp mk_temp w2) as [[pf|x] w3]; [|intros [= -> <-]; exact H3]. cbn [snd] in H3. rewrite <- H3.
    unfold mbind at 1. pose proof (lv_body reg w3) as H4.
    destruct (body reg w3) as [[b|x] w4]; [|intros [= -> <-]; exact H4]. cbn [snd] in H4. rewrite <- H4.
    unfold mbind, msett, mlift, mupd. destruct (decode_text reg (s_charset (fst w4)) b); [easy|now intros [= _ <-]]. }
  unfold form_of in HF. now injection HF.
Qed.
Print Assumptions C120_failure_publishes_nothing.
(** the same for parse() *)
Theorem C120_parse :
  forall reg name2cp mk_temp w e w', parse reg name2cp mk_temp w = (Err e, w') ->
    r_post (snd w') = r_post (snd w) /\ r_files (snd w') = r_files (snd w) /\ r_bp (snd w') = r_bp (snd w).
Proof.
  intros reg name2cp mk_temp w e w'. unfold parse, mbind. pose proof (lv_header reg w) as H.
  destruct (parse_request_header reg w) as [[u|x] w1]; cbn [snd] in H; unfold form_of in H.
  - intros E. apply C120_failure_publishes_nothing in E as (E1 & E2 & E3). injection H as H1 H2 H3. rewrite E1, E2, E3. now repeat split.
  - intros [= -> <-]. now injection H.
Qed.
Print Assumptions C120_parse.
(** a form with too many fields, after a form that was accepted: the first one stays *)
Example C120_case :
  let w0 := (ex10, ex_req ex10 (ex_src !"application/x-www-form-urlencoded" !"a=1&b=2")) in
  let w1 := after ex_reg no_cp ok_temp [OParse; OSettings (mkS (Some 16%Z) (Some 30%Z) (Some 10%Z) (Some 1%Z) !"utf-8" [KConv])] w0 in
  let '(x, w2) := parse_request_body ex_reg no_cp ok_temp (fst w1, set_flags true false (set_body None (set_stream (l0_init [SData !"c=3&d=4"]) (snd w1)))) in
  x = Err TooManyFieldsSent /\ r_post (snd w2) = r_post (snd w1) /\
  match r_post (snd w1) with Some (PQuery q) => q_d q = [(!"a", [PU !"1"]); (!"b", [PU !"2"])] | _ => False end.
Proof. vm_compute. repeat split; reflexivity. Qed.

(** ** C121 is false: every form refused by its QueryDict is accepted as an empty form by the
    second call *)
Theorem C121_second_call_refuted :
  forall reg name2cp mk_temp st s r w st1 r1 e q, request_init reg st s = Ok r -> delivers s w -> max_ok (s_hdr st) ->
    parse_request_header reg (st, r) = (Ok tt, (st1, r1)) -> a_ctype (r_attrs r1) = Some (Some !"application/x-www-form-urlencoded") ->
    w_body w <> [] -> fits (length (w_body w)) (s_dmem st) ->
    querydict reg (Some (mkQS (s_charset st1) (s_dnum st))) (Some (PB (w_body w))) false = Err e ->
    querydict reg (Some (s_query st1)) None false = Ok q ->
    exists w2 r3 q0, parse reg name2cp mk_temp (st, r) = (Err e, w2) /\ parse reg name2cp mk_temp w2 = (Ok tt, (st1, r3)) /\
      r_post r3 = Some (PQuery q0) /\ r_files r3 = Some [] /\ querydict reg (Some (s_query st)) None true = Ok q0.
Proof.
  intros reg name2cp mk_temp st s r w st1 r1 e q Hi Hd Hm HP Hc Hb Hf Hq Hq2. pose proof (header_ready _ _ _ _ _ _ _ Hi Hd Hm HP) as R.
  destruct (ready_set _ _ _ _ _ R) as (_ & Hdm1 & _ & Hdn & Hh). destruct R.
  unfold parse at 1, mbind at 1. rewrite HP.
  destruct (parse_body_some reg name2cp mk_temp 3 st1 r1 _ rd_bp rd_hp rd_stream ltac:(lia) Hb) as (s2 & HA2 & ->).
  unfold fits in Hf. destruct (s_dmem st) as [m|] eqn:Em; [|easy].
  destruct (finish_form reg name2cp mk_temp 5 st1 (set_stream s2 (at_body st1 r1)) (w_body w) m) as (s3 & HA3 & HF); try assumption; try lia.
  cbn zeta in HF. rewrite HF. unfold s_query at 1. rewrite Hdn. rewrite Hq.
  set (r2 := set_body (Some (PB (w_body w))) (set_stream s3 (set_stream s2 (at_body st1 r1)))).
  destruct (parse_body_none reg name2cp mk_temp 5 st1 r2 rd_bp rd_hp HA3 ltac:(lia)) as (s4 & _ & HN). rewrite Hq2 in HN.
  destruct rd_post as (q0 & Hq0 & Hp0).
  exists (st1, r2), (set_hasfiles true (set_stream s4 (at_body st1 r2))), q0. split; [reflexivity|]. split.
  - unfold parse, mbind. rewrite header_done by exact rd_hp. exact HN.
  - split; [exact Hp0|]. split; [exact rd_files|exact Hq0].
Qed.
Print Assumptions C121_second_call_refuted.
Example C121_case :
  let w0 := (ex10, ex_req ex10 (ex_src !"application/x-www-form-urlencoded" !"a&b&c&d&e")) in
  let '(x, w1) := parse ex_reg no_cp ok_temp w0 in
  let '(y, w2) := parse ex_reg no_cp ok_temp w1 in
  x = Err TooManyFieldsSent /\ y = Ok tt /\ match r_post (snd w2) with Some (PQuery q) => q_d q = [] | _ => False end.
Proof. vm_compute. repeat split; reflexivity. Qed.

(** ** C122: how much body() takes *)
Fixpoint nbytes (t : list cell) : Z := match t with [] => 0 | Byte _ :: t => 1 + nbytes t | Fail _ :: t => nbytes t end.
Lemma nbytes_app a b : nbytes (a ++ b) = (nbytes a + nbytes b)%Z.
Proof. induction a as [|[c|e] a IH]; cbn [nbytes app]; lia. Qed.
Lemma nbytes_map d : nbytes (map Byte d) = zlen d.
Proof. unfold zlen. induction d as [|c d IH]; cbn [nbytes map length]; lia. Qed.
Lemma nbytes_pos t : (0 <= nbytes t)%Z.
Proof. induction t as [|[c|e] t IH]; cbn [nbytes]; lia. Qed.
(** [takes n a b]: between [a] and [b] at most [n] bytes left the stream *)
Definition takes (n : Z) (a b : l0) : Prop := exists u, pending a = u ++ pending b /\ (nbytes u <= n)%Z.
Lemma takes_refl n a : (0 <= n)%Z -> takes n a a.
Proof. intros H. exists []. now split. Qed.
Lemma takes_trans n m a b c : takes n a b -> takes m b c -> takes (n + m) a c.
Proof. intros (u & H1 & H2) (v & H3 & H4). exists (u ++ v). rewrite nbytes_app. split; [now rewrite H1, H3, app_assoc|lia]. Qed.
Lemma takes_le n m a b : takes n a b -> (n <= m)%Z -> takes m a b.
Proof. intros (u & H1 & H2) H. exists u. split; [exact H1|lia]. Qed.

Lemma loop_takes k : 1 <= k <= 40 -> forall fuel n out s, calmk k s -> (0 <= n)%Z ->
  match ls_read_loop it_next fuel n out s with
  | (Ok d, s') => takes n s s' /\ exists d', d = out ++ d' /\ pending s = map Byte d' ++ pending s' /\ (zlen d' <= n)%Z
  | (Err _, s') => takes n s s'
  end.
Proof.
  intros Hk. induction fuel as [|fuel IH]; intros n out s HC Hn; cbn [ls_read_loop]; [now apply takes_refl|].
  assert (H0 : takes n s s /\ exists d', out = out ++ d' /\ pending s = map Byte d' ++ pending s /\ (zlen d' <= n)%Z).
  { split; [now apply takes_refl|]. exists []. rewrite app_nil_r. repeat split. exact Hn. }
  destruct (Z.eqb_spec n 0); [exact H0|]. destruct (Z.ltb_spec n 0); [lia|].
  pose proof (next_pending s) as HP. pose proof (calmk_next it_next k s HC) as HN.
  destruct (ls_next it_next s) as [[c| |e] s1] eqn:EN.
  - destruct HN as (HC1 & HL & HFc).
    pose proof (calmk_pushback c (Z.to_nat n) k s1 HC1 Hk HL HFc ltac:(lia)) as HU.
    pose proof (unget_pending (skipn (Z.to_nat n) c) s1) as H2.
    destruct (ls_unget (skipn (Z.to_nat n) c) s1) as [[u|e] s2]; [|easy].
    assert (E : pending s = map Byte (firstn (Z.to_nat n) c) ++ pending s2).
    { rewrite HP, H2, app_assoc, <- map_app, firstn_skipn. reflexivity. }
    assert (Hz : (zlen (firstn (Z.to_nat n) c) <= n)%Z) by (unfold zlen; rewrite firstn_length; lia).
    assert (HT : takes (zlen (firstn (Z.to_nat n) c)) s s2).
    { exists (map Byte (firstn (Z.to_nat n) c)). split; [exact E|]. rewrite nbytes_map. lia. }
    specialize (IH (n - zlen (firstn (Z.to_nat n) c))%Z (out ++ firstn (Z.to_nat n) c) s2 HU ltac:(lia)).
    destruct (ls_read_loop it_next fuel _ _ s2) as [[d|e] s3].
    + destruct IH as (IH1 & d' & -> & IH2 & IH3). split.
      * eapply takes_le; [eapply takes_trans; [exact HT|exact IH1]|]. lia.
      * exists (firstn (Z.to_nat n) c ++ d'). split; [now rewrite app_assoc|]. split.
        { now rewrite E, IH2, map_app, app_assoc. }
        { unfold zlen in *. rewrite app_length. lia. }
    + eapply takes_le; [eapply takes_trans; [exact HT|exact IH]|]. lia.
  - split.
    + exists []. split; [exact HP|cbn; lia].
    + exists []. rewrite app_nil_r. repeat split; [exact HP|exact Hn].
  - unfold ls_next in EN. destruct (ls_left s) as [|x l] eqn:El; [|discriminate EN].
    destruct (ls_prod s) as [[|[d|e'] p]|] eqn:Ep; cbn in EN; try discriminate EN; injection EN as _ <-.
    + exists [Fail e']. split; [|cbn; lia]. unfold pending. rewrite El, Ep. reflexivity.
    + now apply takes_refl.
Qed.
Lemma read_takes k n s : 1 <= k <= 40 -> calmk k s -> (0 <= n)%Z ->
  match l0_read (Some n) s with
  | (Ok d, s') => takes (zlen d) s s' /\ (zlen d <= n)%Z /\ calmk k s'
  | (Err _, s') => takes n s s' /\ calmk k s'
  end.
Proof.
  intros Hk HC Hn. pose proof (loop_takes k Hk (4 + src_items s) n [] s HC Hn) as H.
  pose proof (calmk_read_loop it_next k Hk (4 + src_items s) n [] s HC) as HC2.
  unfold l0_read, ls_read. destruct (ls_read_loop it_next (4 + src_items s) n [] s) as [[d|e] s']; cbn [snd] in HC2.
  - destruct H as (_ & d' & -> & H1 & H2). cbn [app]. split; [|now split]. exists (map Byte d'). split; [exact H1|]. rewrite nbytes_map. lia.
  - now split.
Qed.
Lemma mread_takes k st r : 1 <= k <= 40 -> calmk k (r_stream r) ->
  match m_read (Some BLOCK) (st, r) with
  | (Ok d, w) => exists s', w = (st, set_stream s' r) /\ takes (zlen d) (r_stream r) s' /\ (zlen d <= BLOCK)%Z /\ calmk k s'
  | (Err _, w) => exists s', w = (st, set_stream s' r) /\ takes BLOCK (r_stream r) s'
  end.
Proof.
  intros Hk HC. pose proof (read_takes k BLOCK (r_stream r) Hk HC block_pos) as H. unfold m_read, mstream. cbn [fst snd].
  destruct (l0_read (Some BLOCK) (r_stream r)) as [[d|e] s']; [now exists s'|]. destruct H as [H _]. destruct e; now exists s'.
Qed.
(** the limit in force: nothing beyond the first block when there is none *)
Definition limit_of (max : option Z) : Z := match max with Some m => Z.max 0 m | None => 0 end.
Lemma loop_body_takes k st max : 1 <= k <= 40 -> forall fuel r size chunk acc, calmk k (r_stream r) ->
  (0 <= size)%Z ->
  exists s', snd (body_loop fuel max size chunk acc (st, r)) = (st, set_stream s' r) /\
    takes (Z.max 0 (limit_of max + BLOCK - size)) (r_stream r) s'.
Proof.
  intros Hk. induction fuel as [|fuel IH]; intros r size chunk acc HC Hs; cbn [body_loop].
  { exists (r_stream r). split; [now destruct r|]. apply takes_refl. lia. }
  destruct (within_max size max && nonempty chunk) eqn:EW.
  2:{ exists (r_stream r). split; [now destruct r|]. apply takes_refl. lia. }
  apply andb_true_iff in EW as [EW _]. unfold within_max in EW. destruct max as [m|]; [|discriminate EW]. cbn [limit_of] in *.
  unfold mbind. pose proof (mread_takes k st r Hk HC) as HM. pose proof block_pos as HB.
  destruct (m_read (Some BLOCK) (st, r)) as [[d|e] w].
  - destruct HM as (s1 & -> & H1 & H2 & H3).
    destruct (IH (set_stream s1 r) (size + zlen d)%Z d (acc ++ chunk) H3) as (s2 & H4 & H5); [unfold zlen; lia|].
    exists s2. split; [rewrite H4; now destruct r|]. cbn [r_stream set_stream] in H5.
    eapply takes_le; [eapply takes_trans; [exact H1|exact H5]|]. generalize dependent BLOCK. intros. lia.
  - destruct HM as (s1 & -> & H1). exists s1. split; [reflexivity|]. eapply takes_le; [exact H1|]. generalize dependent BLOCK. intros. lia.
Qed.
Lemma read_body_takes k st r : 1 <= k <= 40 -> calmk k (r_stream r) ->
  takes (limit_of (s_dmem st) + BLOCK) (r_stream r) (r_stream (snd (snd (read_body (st, r))))).
Proof.
  intros Hk HC. pose proof block_pos as HB. assert (HL : (0 <= limit_of (s_dmem st))%Z) by (unfold limit_of; destruct (s_dmem st); lia).
  unfold read_body. unfold mbind at 1, msett at 1. unfold mbind at 1, mreq at 1. cbn [fst snd]. unfold mbind at 1.
  pose proof (mread_takes k st r Hk HC) as HM. destruct (m_read (Some BLOCK) (st, r)) as [[d|e] w].
  - destruct HM as (s1 & -> & H1 & H2 & H3). unfold mbind at 1.
    destruct (loop_body_takes k st (s_dmem st) Hk (2 + l0_total (r_stream r)) (set_stream s1 r) (zlen d) d [] H3) as (s2 & H4 & H5);
      [unfold zlen; lia|].
    assert (HG : takes (limit_of (s_dmem st) + BLOCK) (r_stream r) s2).
    { eapply takes_le; [eapply takes_trans; [exact H1|exact H5]|]. generalize dependent BLOCK. intros. lia. }
    destruct (body_loop (2 + l0_total (r_stream r)) (s_dmem st) (zlen d) d [] (st, set_stream s1 r)) as [[x|e] w2]; cbn [snd] in H4; rewrite H4.
    + destruct (within_max (snd x) (s_dmem st)); exact HG.
    + exact HG.
  - destruct HM as (s1 & -> & H1). eapply takes_le; [exact H1|]. generalize dependent BLOCK. intros. lia.
Qed.

Lemma frame_calm max s : (match max with Some m => (0 <= m)%Z | None => True end) -> calmk 1 s -> calmk 3 (snd (frame max s)).
Proof.
  intros Hm HC. unfold frame.
  assert (G : forall fuel h b s, calmk 1 s -> calmk 1 (snd (frame_loop fuel max h b s))).
  { induction fuel as [|fuel IH]; intros h b s1 H; [exact H|]. cbn [frame_loop].
    pose proof (calmk_read it_next 1 (4 + src_items s1) max s1 ltac:(lia) H) as HR.
    change (ls_read it_next (4 + src_items s1) max s1) with (l0_read max s1) in HR.
    destruct (l0_read max s1) as [[[|c d]|e] s2]; cbn [snd] in HR; [exact HR| |exact HR]. cbv zeta.
    destruct (find crlfcrlf (h ++ c :: d)); [exact HR|now apply IH]. }
  specialize (G (2 + l0_total s) [] false s HC).
  destruct (frame_loop (2 + l0_total s) max [] false s) as [[[[h rest]|e] b] s1]; cbn [snd] in *; [|apply (calmk_mono 1); [lia|exact G]].
  pose proof (calmk_unget rest 1 s1 G ltac:(lia)) as HU. destruct (ls_unget rest s1) as [[u|e] s2]; [|easy]. exact (proj1 HU).
Qed.
Lemma header_calm reg st s r st1 r1 : request_init reg st s = Ok r -> max_ok (s_hdr st) ->
  parse_request_header reg (st, r) = (Ok tt, (st1, r1)) ->
  calmk 3 (r_stream r1) /\ r_hp r1 = true /\ r_bp r1 = false /\ r_body r1 = None /\ s_dmem st1 = s_dmem st.
Proof.
  intros Hi Hm. rewrite init_eq in Hi. destruct (querydict reg (Some (s_query st)) None true) as [q|x]; [|easy]. injection Hi as <-.
  rewrite header_eq by reflexivity. cbn [r_stream fresh r_bp].
  pose proof (frame_calm (s_hdr st) (l0_init s)) as HC. destruct (frame (s_hdr st) (l0_init s)) as [[x b] s1] eqn:EF. cbv zeta.
  destruct x as [h|e]; [|discriminate]. apply frame_ok_flag in EF. subst b. cbn [snd] in HC.
  destruct (parse_request_headers h) as [[line hs]|e]; [|discriminate]. destruct (parse_request_line line) as [l|e]; [|discriminate].
  rewrite populate_eq. destruct (pick_host l hs) as [[host hs']|e]; [|discriminate].
  destruct (ctype_of reg hs') as [[c ch]|e]; [|discriminate]. cbv zeta. cbn [r_meta set_flags set_stream fresh].
  destruct (query_of reg (charset_after ch st) (rl_query l)) as [g|e]; [|discriminate]. intros [= <- <-].
  assert (HC' : calmk 3 s1). { apply HC; [destruct (s_hdr st); cbn in Hm; [lia|easy]|apply calmk_init]. }
  destruct ch; cbn; (split; [exact HC'|now repeat split]).
Qed.

Theorem C122_body_takes_at_most :
  forall reg st s r st1 r1, request_init reg st s = Ok r -> max_ok (s_hdr st) ->
    parse_request_header reg (st, r) = (Ok tt, (st1, r1)) ->
    takes (limit_of (s_dmem st) + 65536) (r_stream r1) (r_stream (snd (snd (body reg (st1, r1))))).
Proof.
  intros reg st s r st1 r1 Hi Hm HP. destruct (header_calm _ _ _ _ _ _ Hi Hm HP) as (H1 & H2 & H3 & H4 & H5).
  rewrite body_reads; [|assumption|now left|assumption]. rewrite <- H5. exact (read_body_takes 3 st1 r1 ltac:(lia) H1).
Qed.
Print Assumptions C122_body_takes_at_most.
(** and so does parse_request_body(), for every body that is not multipart/form-data *)
Lemma peek_takes s : calmk 3 s ->
  match l0_read (Some 1%Z) s with
  | (Ok d, s1) => (d = [] -> takes 1 s s1) /\
      match ls_unget d s1 with (Ok _, s2) => calmk 5 s2 /\ takes 0 s s2 | (Err _, s2) => False end
  | (Err _, s1) => takes 1 s s1
  end.
Proof.
  intros HC. pose proof (read_takes 3 1 s ltac:(lia) HC ltac:(lia)) as H. pose proof (read_pending (Some 1%Z) s) as HP.
  destruct (l0_read (Some 1%Z) s) as [[d|e] s1]; [|exact (proj1 H)]. destruct H as (H1 & H2 & H3).
  split; [intros _; eapply takes_le; [exact H1|exact H2]|].
  pose proof (calmk_unget d 3 s1 H3 ltac:(lia)) as HU. pose proof (unget_pending d s1) as HP2.
  destruct (ls_unget d s1) as [[u|e] s2]; [|exact HU]. split; [exact (proj1 HU)|]. exists []. cbn [app nbytes]. split; [congruence|lia].
Qed.
Definition cold (r : request) : Prop := r_hp r = true /\ r_bp r = false /\ r_body r = None.
Lemma cold_takes reg st r : cold r -> calmk 5 (r_stream r) ->
  takes (limit_of (s_dmem st) + BLOCK) (r_stream r) (r_stream (snd (snd (body reg (st, r))))).
Proof.
  intros (H1 & H2 & H3) HC. rewrite body_reads; [|assumption|now left|assumption]. exact (read_body_takes 5 st r ltac:(lia) HC).
Qed.
Lemma cold_cached reg st r b w : cold r -> body reg (st, r) = (Ok b, w) ->
  exists s', w = (st, set_body (Some b) (set_stream s' r)).
Proof.
  intros (H1 & H2 & H3). rewrite body_reads; [|assumption|now left|assumption]. unfold read_body.
  unfold mbind at 1, msett at 1. unfold mbind at 1, mreq at 1. cbn [fst snd]. unfold mbind at 1.
  assert (HM : forall r0, exists s', snd (m_read (Some BLOCK) (st, r0)) = (st, set_stream s' r0)).
  { intros r0. unfold m_read, mstream. cbn [fst snd]. destruct (l0_read (Some BLOCK) (r_stream r0)) as [[d|e] s']; [now exists s'|].
    destruct e; now exists s'. }
  assert (HL : forall fuel max size chunk acc r0, exists s', snd (body_loop fuel max size chunk acc (st, r0)) = (st, set_stream s' r0)).
  { induction fuel as [|fuel IH]; intros max size chunk acc r0; cbn [body_loop]; [exists (r_stream r0); now destruct r0|].
    destruct (within_max size max && nonempty chunk); [|exists (r_stream r0); now destruct r0]. unfold mbind.
    destruct (HM r0) as (s1 & E1). destruct (m_read (Some BLOCK) (st, r0)) as [[d|e] w1]; cbn [snd] in E1; subst w1; [|now exists s1].
    destruct (IH max (size + zlen d)%Z d (acc ++ chunk) (set_stream s1 r0)) as (s2 & E2). rewrite E2. exists s2. now destruct r0. }
  destruct (HM r) as (s1 & E1). destruct (m_read (Some BLOCK) (st, r)) as [[d|e] w1]; cbn [snd] in E1; subst w1; [|discriminate].
  unfold mbind at 1. destruct (HL (2 + l0_total (r_stream r)) (s_dmem st) (zlen d) d [] (set_stream s1 r)) as (s2 & E2).
  destruct (body_loop _ _ _ _ _ _) as [[x|e] w2]; cbn [snd] in E2; subst w2; [|discriminate].
  destruct (within_max (snd x) (s_dmem st)); [|discriminate]. intros [= <- <-]. exists s2. now destruct r.
Qed.
Theorem C122_parse_takes_at_most :
  forall reg name2cp mk_temp st s r st1 r1 c, request_init reg st s = Ok r -> max_ok (s_hdr st) ->
    parse_request_header reg (st, r) = (Ok tt, (st1, r1)) ->
    a_ctype (r_attrs r1) = Some c -> c <> Some !"multipart/form-data" ->
    takes (limit_of (s_dmem st) + 65536) (r_stream r1) (r_stream (snd (snd (parse_request_body reg name2cp mk_temp (st1, r1))))).
Proof.
  intros reg name2cp mk_temp st s r st1 r1 c Hi Hm HP Hc Hnm. destruct (header_calm _ _ _ _ _ _ Hi Hm HP) as (H1 & H2 & H3 & H4 & H5).
  rewrite <- H5. clear H5 HP Hm Hi. rewrite parse_body_eq by assumption.
  assert (HL : (1 <= limit_of (s_dmem st1) + 65536)%Z) by (unfold limit_of; destruct (s_dmem st1); lia).
  pose proof (peek_takes _ H1) as HK. destruct (l0_read (Some 1%Z) (r_stream r1)) as [[d|e] s1].
  2:{ eapply takes_le; [exact HK|exact HL]. }
  destruct HK as [HK0 HK]. destruct d as [|x d].
  { specialize (HK0 eq_refl). destruct (querydict reg (Some (s_query st1)) None false); (eapply takes_le; [exact HK0|exact HL]). }
  destruct (ls_unget (x :: d) s1) as [[u|e] s2]; [|easy]. destruct HK as [HC2 HT2].
  set (r2 := set_stream s2 (at_body st1 r1)).
  assert (G : takes (limit_of (s_dmem st1) + BLOCK) (r_stream r2) (r_stream (snd (snd (finish reg name2cp mk_temp (st1, r2)))))).
  2:{ eapply takes_le; [eapply takes_trans; [exact HT2|exact G]|]. change BLOCK with 65536%Z. lia. }
  assert (HR : cold r2) by (now repeat split). assert (HCr : calmk 5 (r_stream r2)) by exact HC2.
  assert (Hcr : a_ctype (r_attrs r2) = Some c) by exact Hc. clearbody r2. clear - Hnm HR HCr Hcr HL.
  assert (HLB : (0 <= limit_of (s_dmem st1) + BLOCK)%Z) by (change BLOCK with 65536%Z; lia).
  assert (HW : forall w2 (p : postv * dict (list ufile)), fst w2 = st1 -> takes (limit_of (s_dmem st1) + BLOCK) (r_stream r2) (r_stream (snd (snd (body reg w2)))) ->
    takes (limit_of (s_dmem st1) + BLOCK) (r_stream r2) (r_stream (snd (snd ((let! b := body reg in let! st := msett in
      let! t := mlift (decode_text reg (s_charset st) b) in
      mupd (fun r => set_post (Some (fst p)) (Some (snd p)) (set_flags (r_hp r) true (set_body (Some (PU t)) r)))) w2))))).
  { intros w2 p Hw Ht. unfold mbind at 1. destruct (body reg w2) as [[b|e] w3]; [|exact Ht].
    unfold mbind, msett, mlift. destruct (decode_text reg (s_charset (fst w3)) b); exact Ht. }
  pose proof HR as (R1 & R2 & R3).
  unfold finish. unfold mbind at 1. unfold parse_post. unfold mbind at 1, mreq at 1. cbn [snd]. rewrite Hcr.
  assert (EM : match c with Some c0 => seqb c0 CT_MULTI | None => false end = false).
  { destruct c as [c|]; [|reflexivity]. apply seqb_neq. intros ->. now apply Hnm. }
  rewrite EM. destruct (match c with Some c0 => seqb c0 CT_FORM | None => false end).
  - unfold mbind at 1. pose proof (cold_takes reg st1 r2 HR HCr) as HT. destruct (body reg (st1, r2)) as [[b|e] w3] eqn:EB; [|exact HT].
    destruct (cold_cached reg st1 r2 b w3 HR EB) as (s3 & ->). cbn [snd r_stream set_body set_stream] in HT.
    unfold mbind at 1, new_query, mbind at 1, msett at 1, mlift at 1. cbn [fst].
    destruct (querydict reg (Some (s_query st1)) (Some b) false) as [q|e]; [|exact HT].
    unfold mbind at 1, mupd at 1, mret at 1. cbn [fst snd].
    apply (HW (st1, set_hasfiles true (set_body (Some b) (set_stream s3 r2))) (PQuery q, [])); [reflexivity|]. rewrite (body_cached reg _ st1 b); [exact HT|exact R1|left; exact R2|reflexivity].
  - unfold mbind at 1. rewrite empty_post_eq. destruct (querydict reg (Some (s_query st1)) None false) as [q|e]; [|now apply takes_refl].
    unfold mret at 1. apply (HW (st1, set_hasfiles true r2) (PQuery q, [])); [reflexivity|]. apply (cold_takes reg st1 (set_hasfiles true r2)); [exact HR|exact HCr].
Qed.
Print Assumptions C122_parse_takes_at_most.
(** the source fails after the body; the body is refused and the failure is not reached: 10 bytes are allowed *)
Example C122_case :
  let s := ex_src !"text/plain" !"more than ten" in
  let w := ex_ready ex10 (s ++ [SFail IOError]) in
  request_init ex_reg ex10 (s ++ [SFail IOError]) = Ok (ex_req ex10 (s ++ [SFail IOError])) /\
  parse_request_header ex_reg (ex10, ex_req ex10 (s ++ [SFail IOError])) = (Ok tt, w) /\
  pending (r_stream (snd w)) = map Byte !"more than ten" ++ [Fail IOError] /\ limit_of (s_dmem ex10) = 10%Z /\
  takes 13 (r_stream (snd w)) (r_stream (snd (snd (body ex_reg w)))).
Proof.
  split; [reflexivity|]. split; [vm_compute; reflexivity|]. split; [vm_compute; reflexivity|]. split; [reflexivity|].
  exists (map Byte !"more than ten" ++ [Fail IOError]). vm_compute. split; [reflexivity|discriminate].
Qed.
