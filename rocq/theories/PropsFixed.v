(** * C155: what was parsed stays as it is *)
From Verif Require Import Py PyFacts PyDict StreamModel CodecModel PercentModel QueryModel HeadModel HeaderModel
  BoundaryModel UploadModel MultipartModel EncModel RequestModel PropsData.

(** ** Programs that use a request and its dictionaries *)
(** calls of the request, and of the changing methods of request.POST and request.GET.  A POST made by the multipart
    parser is a QueryDict that is not mutable (multipartparser.py:105, 315) *)
Inductive call := CReq (o : op) | CPost (o : qop) | CGet (o : qop).
Definition do_call (reg : registry) (n2 : str -> option N) (mk : str -> res unit) (c : call) (w : world) : world :=
  match c with
  | CReq o => snd (perform reg n2 mk o w)
  | CPost o => let r := snd w in
      (fst w, set_post (match r_post r with Some (PQuery q) => Some (PQuery (snd (qstep reg o q))) | p => p end) (r_files r) r)
  | CGet o => let r := snd w in
      (fst w, set_get (match r_get r with Some q => Some (snd (qstep reg o q)) | None => None end) r)
  end.
Definition calls (reg : registry) (n2 : str -> option N) (mk : str -> res unit) (cs : list call) (w : world) : world :=
  fold_left (fun w c => do_call reg n2 mk c w) cs w.
(** it assigns a new stream *)
Definition new_stream (c : call) : bool := match c with CReq (OStream _) | CReq (OBodyStream _) => true | _ => false end.
Definition immutable (p : postv) : Prop := match p with PQuery q => q_mut q = false | PForm _ => True end.

(** ** The parts of a request that matter here *)
Definition same3 (w w' : world) : Prop :=
  r_post (snd w') = r_post (snd w) /\ r_files (snd w') = r_files (snd w) /\ r_bp (snd w') = r_bp (snd w).
Lemma same3_refl w : same3 w w.
Proof. now repeat split. Qed.
Lemma same3_trans a b c : same3 a b -> same3 b c -> same3 a c.
Proof. intros (H1 & H2 & H3) (H4 & H5 & H6). repeat split; congruence. Qed.
Definition fixes {A} (m : M A) : Prop := forall w, same3 w (snd (m w)).
Lemma f_bind {A B} (m : M A) (f : A -> M B) : fixes m -> (forall a, fixes (f a)) -> fixes (mbind m f).
Proof.
  intros Hm Hf w. unfold mbind. specialize (Hm w). destruct (m w) as [[a|e] w1]; cbn [snd] in *; [|exact Hm].
  exact (same3_trans _ _ _ Hm (Hf a w1)).
Qed.
Lemma f_ret {A} (a : A) : fixes (mret a).
Proof. intros w. apply same3_refl. Qed.
Lemma f_raise {A} e : fixes (@mraise A e).
Proof. intros w. apply same3_refl. Qed.
Lemma f_lift {A} (r : res A) : fixes (mlift r).
Proof. intros w. apply same3_refl. Qed.
Lemma f_sett : fixes msett.
Proof. intros w. apply same3_refl. Qed.
Lemma f_req : fixes mreq.
Proof. intros w. apply same3_refl. Qed.
Lemma f_stream {A} (f : l0 -> res A * l0) : fixes (mstream f).
Proof. intros w. unfold mstream. destruct (f (r_stream (snd w))). now repeat split. Qed.
Lemma f_upd f : (forall r, r_post (f r) = r_post r /\ r_files (f r) = r_files r /\ r_bp (f r) = r_bp r) -> fixes (mupd f).
Proof. intros H w. exact (H (snd w)). Qed.
Ltac fx := first [apply f_ret | apply f_raise | apply f_lift | apply f_sett | apply f_req | apply f_stream | apply f_upd; now repeat split
                 | apply f_bind; [fx|intros ?] ].

Section Fixed.
  Context (reg : registry) (n2 : str -> option N) (mk : str -> res unit).
  Lemma f_query q m : fixes (new_query reg q m).
  Proof. unfold new_query. apply f_bind; [fx|]. intros st. fx. Qed.
  Lemma f_encoding v : fixes (set_encoding v).
  Proof. intros w. now repeat split. Qed.
  Lemma f_populate l h : fixes (populate reg l h).
  Proof.
    unfold populate. apply f_bind; [fx|]. intros [host hs]. destruct (split_domain_port host) as [d p].
    apply f_bind; [fx|]. intros _. apply f_bind.
    { destruct (header !"Content-Type" hs); [|fx]. apply f_bind; [fx|]. intros x. fx. }
    intros ch. apply f_bind; [fx|]. intros _. apply f_bind.
    { destruct (snd ch); [apply f_encoding|fx]. }
    intros _. apply f_bind; [fx|]. intros r. destruct (r_meta r); [|fx]. apply f_bind; [fx|]. intros _.
    apply f_bind; [destruct (nonempty (rl_query l)); apply f_query|]. intros g. fx.
  Qed.
  Lemma f_header : fixes (parse_request_header reg).
  Proof.
    unfold parse_request_header. apply f_bind; [fx|]. intros r. destruct (r_hp r); [fx|]. apply f_bind; [fx|]. intros st.
    apply f_bind.
    { intros w. destruct (frame (s_hdr st) (r_stream (snd w))) as [[x b] s1]. now repeat split. }
    intros h. apply f_bind; [fx|]. intros lh. apply f_bind; [fx|]. intros l. apply f_populate.
  Qed.
  Lemma f_loop : forall fuel max size chunk acc, fixes (body_loop fuel max size chunk acc).
  Proof.
    induction fuel as [|fuel IH]; intros max size chunk acc; cbn [body_loop]; [fx|].
    destruct (within_max size max && nonempty chunk); [|fx]. apply f_bind; [fx|]. intros c. apply IH.
  Qed.
  Lemma f_body1 : fixes (body1 ).
  Proof.
    unfold body1. apply f_bind; [fx|]. intros r. destruct (r_bp r && _); [fx|]. destruct (r_body r); [fx|]. destruct (r_hp r); [|fx].
    unfold read_body. apply f_bind; [fx|]. intros st. apply f_bind; [fx|]. intros r1. apply f_bind; [fx|]. intros c. apply f_bind; [apply f_loop|].
    intros x. destruct (within_max (snd x) (s_dmem st)); [|fx]. apply f_bind; [fx|]. intros _. fx.
  Qed.
  Lemma f_body : fixes (body reg).
  Proof.
    unfold body. apply f_bind; [fx|]. intros r. destruct (r_hp r || _); [apply f_body1|]. apply f_bind; [apply f_header|]. intros _. apply f_body1.
  Qed.
  Lemma f_empty : fixes (empty_post reg).
  Proof. unfold empty_post. apply f_bind; [apply f_query|]. intros q. apply f_bind; [fx|]. intros _. fx. Qed.
  Lemma f_upload : fixes (parse_file_upload reg n2 mk).
  Proof.
    unfold parse_file_upload. apply f_bind; [fx|]. intros r. apply f_bind; [fx|]. intros st. destruct (r_meta r) as [m|]; [|fx].
    destruct (m_headers m) as [h|]; [|fx]. apply f_bind; [fx|]. intros bl. apply f_bind; [fx|]. intros pf. fx.
  Qed.
  Lemma f_post : fixes (parse_post reg n2 mk).
  Proof.
    unfold parse_post. apply f_bind; [fx|]. intros r. destruct (a_ctype (r_attrs r)) as [c|]; [|fx].
    destruct (match c with Some c => seqb c CT_MULTI | None => false end).
    { intros w. pose proof (f_upload w) as H. destruct (parse_file_upload reg n2 mk w) as [[pf|e] w1]; cbn [snd] in H.
      - exact H.
      - destruct e; try exact H. refine (same3_trans _ _ _ H _). apply (f_bind (empty_post reg) (fun _ => mraise MultiPartParserError)); [apply f_empty|].
        intros ?. fx. }
    destruct (match c with Some c => seqb c CT_FORM | None => false end).
    - apply f_bind; [apply f_body|]. intros b. apply f_bind; [apply f_query|]. intros q. apply f_bind; [fx|]. intros _. fx.
    - apply f_bind; [apply f_empty|]. intros p. fx.
  Qed.
  Lemma query_flag st q m x : querydict reg st q m = Ok x -> q_mut x = m.
  Proof.
    unfold querydict. destruct st as [st|]; [|discriminate]. destruct (query_text _ _ _); [|discriminate]. cbn [bind].
    destruct (limited_parse_qsl _ _ _ _ _); [|discriminate]. cbn [bind]. destruct (q_fill _ _ _) as [[?|?] ?]; [|discriminate].
    intros H. now injection H as <-.
  Qed.
  Lemma empty_fixed w p w1 : empty_post reg w = (Ok p, w1) -> immutable p.
  Proof.
    unfold empty_post, new_query, mbind, msett, mlift, mupd, mret. cbn match beta. destruct (querydict reg (Some (s_query (fst w))) None false) as [q|e] eqn:E; cbn; [|intros H; discriminate H].
    cbn. intros H. injection H as <- _. exact (query_flag _ _ _ _ E).
  Qed.
  Lemma post_fixed w pf w1 : parse_post reg n2 mk w = (Ok pf, w1) -> immutable (fst pf).
  Proof.
    unfold parse_post. unfold mbind at 1. unfold mreq. cbn match beta. destruct (a_ctype (r_attrs (snd w))) as [c|]; [|discriminate].
    destruct (match c with Some c => seqb c CT_MULTI | None => false end).
    { destruct (parse_file_upload reg n2 mk w) as [[x|e] w2] eqn:E.
      - intros H. injection H as <- _. unfold parse_file_upload, mbind, mreq, msett in E. destruct (r_meta (snd w)) as [m|]; [|discriminate].
        destruct (m_headers m) as [h|]; [|discriminate]. unfold mlift in E. destruct (mp_init _ _ _) as [bl|]; [|discriminate].
        unfold mstream in E. destruct (mp_parse _ _ _ _ _ _ _ _ _ _ _ _) as [[y|] s]; [|discriminate]. cbn in E. injection E as <- _. exact I.
      - destruct e; try discriminate. unfold mbind. destruct (empty_post reg w2) as [[?|?] ?]; discriminate. }
    destruct (match c with Some c => seqb c CT_FORM | None => false end).
    - unfold mbind. destruct (body reg w) as [[b|e] w2]; [|discriminate]. unfold new_query, mbind, msett, mlift.
      destruct (querydict reg (Some (s_query (fst w2))) (Some b) false) as [q|e] eqn:E; [|discriminate]. cbn. intros H. injection H as <- _.
      exact (query_flag _ _ _ _ E).
    - unfold mbind. destruct (empty_post reg w) as [[p|e] w2] eqn:E; [|discriminate]. intros H. injection H as <- _. exact (empty_fixed _ _ _ E).
  Qed.

  (** parse_request_body(): refused, nothing changes; accepted, POST is immutable, or the body was empty and POST
      and FILES are what they were *)
  Definition done (w : world) (o : res unit * world) : Prop :=
    same3 w (snd o) \/
    (fst o = Ok tt /\ r_bp (snd w) = false /\ r_bp (snd (snd o)) = true /\ exists p f, r_post (snd (snd o)) = Some p /\ immutable p /\ r_files (snd (snd o)) = Some f).
  Lemma body_cases w : done w (parse_request_body reg n2 mk w).
  Proof.
    unfold parse_request_body. unfold mbind at 1. unfold mreq. cbn match beta.
    destruct (r_bp (snd w)) eqn:Eb; [left; apply same3_refl|].
    unfold mbind at 1, msett at 1. cbn match beta. unfold mbind at 1, mupd at 1. cbn match beta.
    set (w0 := (fst w, set_handlers (Some (s_handlers (fst w))) (snd w))). assert (H0 : same3 w w0) by now repeat split.
    destruct (negb (r_hp (snd w))).
    { left. refine (same3_trans _ _ _ H0 _). apply (f_bind (empty_post reg) (fun _ => mraise RequestHeaderParseException)); [apply f_empty|]. intros ?. fx. }
    unfold mbind at 1. pose proof (f_stream (l0_read (Some 1%Z)) w0) as H1. destruct (mstream (l0_read (Some 1%Z)) w0) as [[d|e] w1]; cbn [snd] in H1.
    2: { left. exact (same3_trans _ _ _ H0 H1). }
    pose proof (same3_trans _ _ _ H0 H1) as H2. clear H0 H1 w0. destruct d as [|x d].
    { left. refine (same3_trans _ _ _ H2 _). apply (f_bind (empty_post reg) (fun _ => mret tt)); [apply f_empty|]. intros ?. fx. }
    unfold mbind at 1. pose proof (f_stream (ls_unget (x :: d)) w1) as H3. destruct (mstream (ls_unget (x :: d)) w1) as [[u|e] w3]; cbn [snd] in H3.
    2: { left. exact (same3_trans _ _ _ H2 H3). }
    pose proof (same3_trans _ _ _ H2 H3) as H4. clear H2 H3 w1. unfold mbind at 1. pose proof (f_post w3) as H5. pose proof (post_fixed w3) as HP.
    destruct (parse_post reg n2 mk w3) as [[pf|e] w5]; cbn [snd] in H5.
    2: { left. exact (same3_trans _ _ _ H4 H5). }
    specialize (HP pf w5 eq_refl). pose proof (same3_trans _ _ _ H4 H5) as H6. clear H4 H5 w3. unfold mbind at 1. pose proof (f_body w5) as H7.
    destruct (body reg w5) as [[b|e] w7]; cbn [snd] in H7.
    2: { left. exact (same3_trans _ _ _ H6 H7). }
    pose proof (same3_trans _ _ _ H6 H7) as H8. clear H6 H7 w5. unfold mbind, msett, mlift. cbn match beta.
    destruct (decode_text reg (s_charset (fst w7)) b) as [t|e]; [|left; exact H8]. right. cbn [fst snd mupd]. split; [reflexivity|]. split; [exact Eb|]. split; [reflexivity|]. exists (fst pf), (snd pf). now split.
  Qed.
End Fixed.

Section Calls.
  Context (reg : registry) (n2 : str -> option N) (mk : str -> res unit).
  Notation step := (do_call reg n2 mk).
  Lemma qstep_fixed o q : q_mut q = false -> snd (qstep reg o q) = q.
  Proof.
    intros Hm. destruct o as [k v|k|k l|k l|k v|items|k d|k| |k v]; cbn [qstep drop snd];
      unfold q_setitem, q_delitem, q_setlist, q_setlistdefault, q_appendlist, q_pop, q_popitem, q_clear, q_setdefault, q_assert;
      rewrite ?Hm; try reflexivity.
    destruct items as [|[k vs] items]; [reflexivity|]. cbn [q_update]. unfold q_extend, q_setlistdefault, q_assert. now rewrite Hm.
  Qed.
  Lemma v_snd {A} (f : A -> value) (m : M A) w : snd (vmap f m w) = snd (m w).
  Proof. unfold vmap, mbind. now destruct (m w) as [[a|e] w1]. Qed.
  (** parsed, and POST is immutable *)
  Definition settled (w : world) : Prop := r_bp (snd w) = true /\ forall p, r_post (snd w) = Some p -> immutable p.
  Lemma settled_same w w' : same3 w w' -> settled w -> settled w'.
  Proof. intros (H1 & _ & H3) [H4 H5]. split; [congruence|]. intros p Hp. apply H5. congruence. Qed.
  Lemma call_settled c w : new_stream c = false -> settled w -> same3 w (step c w).
  Proof.
    intros Hc [Hb Hi]. destruct c as [o|o|o]; cbn [do_call].
    - assert (HB : same3 w (snd (parse_request_body reg n2 mk w))).
      { destruct (body_cases reg n2 mk w) as [H|(_ & H & _)]; [exact H|congruence]. }
      destruct o; cbn [perform new_stream] in *; try discriminate; unfold vunit; rewrite ?v_snd; try (now repeat split).
      + apply f_header.
      + apply f_body.
      + exact HB.
      + unfold parse, mbind. pose proof (f_header reg w) as H1. destruct (parse_request_header reg w) as [[u|e] w1]; cbn [snd] in H1; [|exact H1].
        refine (same3_trans _ _ _ H1 _). destruct (body_cases reg n2 mk w1) as [H|(_ & H & _)]; [exact H|]. destruct H1 as (_ & _ & H1). congruence.
      + apply f_stream.
      + unfold set_scheme. apply f_upd. intros r. now destruct (nonempty s).
      + unfold assign_handlers. apply f_bind; [fx|]. intros r. destruct (r_hasfiles r); fx.
      + unfold get_handlers. apply f_bind; [fx|]. intros r. apply f_bind; [fx|]. intros st. destruct (r_handlers r) as [[|h l]|]; fx.
    - split; [|now split]. cbn. destruct (r_post (snd w)) as [[q|d]|] eqn:E; try reflexivity. now rewrite (qstep_fixed o q (Hi _ eq_refl)).
    - now repeat split.
  Qed.
  Lemma calls_settled : forall cs w, forallb (fun c => negb (new_stream c)) cs = true -> settled w -> same3 w (calls reg n2 mk cs w).
  Proof.
    induction cs as [|c cs IH]; intros w H Hs; [apply same3_refl|]. cbn [forallb] in H. apply andb_true_iff in H as [H1 H2]. apply negb_true_iff in H1.
    pose proof (call_settled c w H1 Hs) as HS. refine (same3_trans _ _ _ HS _). apply IH; [exact H2|]. exact (settled_same _ _ HS Hs).
  Qed.
  (** parsed implies settled, at any time *)
  Definition sound (w : world) : Prop := r_bp (snd w) = true -> settled w.
  Lemma sound_same w w' : same3 w w' -> sound w -> sound w'.
  Proof. intros H1 H2 Hb. apply (settled_same _ _ H1), H2. destruct H1 as (_ & _ & H1). congruence. Qed.
  Lemma body_sound w : sound w -> sound (snd (parse_request_body reg n2 mk w)).
  Proof.
    intros Hs. destruct (body_cases reg n2 mk w) as [H|(_ & _ & H1 & p & f & H2 & H3 & _)]; [exact (sound_same _ _ H Hs)|].
    intros _. split; [exact H1|]. intros p' E. rewrite H2 in E. now injection E as <-.
  Qed.
  Lemma call_sound c w : sound w -> sound (step c w).
  Proof.
    intros Hs. destruct (r_bp (snd w)) eqn:Eb.
    - destruct (new_stream c) eqn:Ec; [|exact (sound_same _ _ (call_settled c w Ec (Hs Eb)) Hs)].
      destruct c as [[]| |]; try discriminate; cbn [do_call perform]; unfold vunit; rewrite v_snd.
      + unfold assign_stream, re_init, new_query, mbind, mupd, msett, mlift. cbn match beta.
        destruct (querydict _ _ _ _) as [q|e]; intros H; cbn in H; [discriminate|]. specialize (Hs Eb). destruct Hs as [_ Hs]. split; [exact H|exact Hs].
      + unfold assign_body_stream, new_query, mbind, mupd, msett, mlift. cbn match beta.
        destruct (querydict _ _ _ _) as [q|e]; intros H; cbn in H; [discriminate|]. split; [exact H|]. intros p Hp. discriminate.
    - destruct c as [o|o|o]; cbn [do_call].
      + destruct o; cbn [perform]; unfold vunit; rewrite ?v_snd.
        * exact (sound_same _ _ (f_header reg w) Hs).
        * exact (sound_same _ _ (f_body reg w) Hs).
        * exact (body_sound w Hs).
        * unfold parse, mbind. pose proof (f_header reg w) as H1. destruct (parse_request_header reg w) as [[u|e] w1]; cbn [snd] in H1.
          -- apply body_sound. exact (sound_same _ _ H1 Hs).
          -- exact (sound_same _ _ H1 Hs).
        * exact (sound_same _ _ (f_stream _ w) Hs).
        * unfold assign_stream, re_init, new_query, mbind, mupd, msett, mlift. cbn match beta.
          destruct (querydict _ _ _ _) as [q|e]; intros H; cbn in H; congruence.
        * unfold assign_body_stream, new_query, mbind, mupd, msett, mlift. cbn match beta.
          destruct (querydict _ _ _ _) as [q|e]; intros H; cbn in H; congruence.
        * intros H. cbn in H. congruence.
        * intros H. cbn in H. congruence.
        * apply (sound_same w); [|exact Hs]. unfold set_scheme. apply f_upd. intros r. now destruct (nonempty s).
        * intros H. cbn in H. congruence.
        * apply (sound_same w); [|exact Hs]. unfold assign_handlers. apply f_bind; [fx|]. intros r. destruct (r_hasfiles r); fx.
        * apply (sound_same w); [|exact Hs]. unfold get_handlers. apply f_bind; [fx|]. intros r. apply f_bind; [fx|]. intros st. destruct (r_handlers r) as [[|h l]|]; fx.
        * intros H. cbn in H. congruence.
      + intros H. cbn in H. congruence.
      + intros H. cbn in H. congruence.
  Qed.
  Lemma calls_sound : forall cs w, sound w -> sound (calls reg n2 mk cs w).
  Proof. induction cs as [|c cs IH]; intros w H; [exact H|]. cbn. apply IH. now apply call_sound. Qed.
End Calls.

(** ** C155 *)
(** in any program: once a body has been parsed, POST and FILES stay as they are, whatever is called on the request,
    on its POST and on its GET, until another stream is assigned *)
Theorem C155_stays :
  forall reg n2 mk st s r before later,
  request_init reg st s = Ok r -> forallb (fun c => negb (new_stream c)) later = true ->
  let w := calls reg n2 mk before (st, r) in
  let w' := calls reg n2 mk later w in
  r_bp (snd w) = true -> r_post (snd w') = r_post (snd w) /\ r_files (snd w') = r_files (snd w) /\ r_bp (snd w') = true.
Proof.
  intros reg n2 mk st s r before later Hr HL. cbv zeta. intros Hb.
  assert (HS : sound (st, r)).
  { unfold request_init, re_init, new_query, mbind, msett, mlift, mupd in Hr. cbn [fst snd] in Hr. cbv beta zeta in Hr.
    destruct (querydict reg (Some (s_query st)) None true) as [q|e] eqn:E; [|discriminate]. injection Hr as <-. intros H. cbn in H. discriminate. }
  pose proof (calls_sound reg n2 mk before _ HS Hb) as HT. destruct (calls_settled reg n2 mk later _ HL HT) as (H1 & H2 & H3). now rewrite H1, H2, H3.
Qed.
Print Assumptions C155_stays.
Lemma init_sound reg st s r : request_init reg st s = Ok r -> sound (st, r) /\ r_bp r = false /\ exists q, r_post r = Some (PQuery q) /\ q_mut q = true.
Proof.
  intros Hr. unfold request_init, re_init, new_query, mbind, msett, mlift, mupd in Hr. cbn [fst snd] in Hr. cbv beta zeta in Hr.
  destruct (querydict reg (Some (s_query st)) None true) as [q|e] eqn:E; [|discriminate]. injection Hr as <-.
  split; [intros H; cbn in H; discriminate|]. split; [reflexivity|]. exists q. split; [reflexivity|]. exact (query_flag _ _ _ _ _ E).
Qed.
(** in any program, the POST of a request whose body has been parsed is immutable: by C44 its changing methods raise *)
Theorem C155_immutable :
  forall reg n2 mk st s r before p,
  request_init reg st s = Ok r ->
  let w := calls reg n2 mk before (st, r) in
  r_bp (snd w) = true -> r_post (snd w) = Some p -> immutable p.
Proof.
  intros reg n2 mk st s r before p Hr. cbv zeta. intros Hb Hp. destruct (init_sound reg st s r Hr) as [HS _].
  destruct (calls_sound reg n2 mk before _ HS Hb) as [_ HT]. exact (HT p Hp).
Qed.
Print Assumptions C155_immutable.
(** parse() of a new request that succeeds: POST is immutable, or it is the mutable one of the new request *)
Theorem C155_parse_partial :
  forall reg n2 mk st s r w1, request_init reg st s = Ok r -> parse reg n2 mk (st, r) = (Ok tt, w1) ->
  (r_bp (snd w1) = true /\ exists p, r_post (snd w1) = Some p /\ immutable p) \/
  (r_bp (snd w1) = false /\ r_post (snd w1) = r_post r).
Proof.
  intros reg n2 mk st s r w1 Hr HP. destruct (init_sound reg st s r Hr) as (_ & Hb & _). unfold parse, mbind in HP.
  pose proof (f_header reg (st, r)) as H1. destruct (parse_request_header reg (st, r)) as [[u|e] w0]; cbn [snd] in H1; [|discriminate].
  pose proof (body_cases reg n2 mk w0) as H2. rewrite HP in H2. destruct H1 as (A1 & _ & A3). cbn [snd] in A1, A3.
  destruct H2 as [(B1 & _ & B3)|(_ & _ & B3 & p & f & B4 & B5 & _)]; cbn [snd] in *.
  - right. split; congruence.
  - left. split; [exact B3|]. now exists p.
Qed.
Print Assumptions C155_parse_partial.
(** a request with an empty body: parse() succeeds, and then POST can be changed *)
Theorem C155_empty_body_refuted :
  forall reg n2 mk st s r w1 k v, request_init reg st s = Ok r -> parse reg n2 mk (st, r) = (Ok tt, w1) -> r_bp (snd w1) = false ->
  exists q, r_post (snd (calls reg n2 mk [CPost (QSetItem (PU k) (PU v))] w1)) = Some (PQuery q) /\ q_list k q = [PU v].
Proof.
  intros reg n2 mk st s r w1 k v Hr HP Hb. destruct (init_sound reg st s r Hr) as (_ & _ & q & Hq & Hm).
  destruct (C155_parse_partial reg n2 mk st s r w1 Hr HP) as [[H _]|[_ H]]; [congruence|]. rewrite Hq in H.
  cbn [calls fold_left do_call snd set_post r_post]. rewrite H. eexists. split; [reflexivity|].
  cbn [qstep drop snd]. unfold q_setitem, q_assert. rewrite Hm. unfold q_conv, bytes_to_text. cbn. unfold q_list, q_set. cbn [q_d]. now rewrite dget_dset_same.
Qed.
Print Assumptions C155_empty_body_refuted.
(** GET is immutable exactly when the query string is not empty *)
Theorem C155_get_partial :
  forall reg w w1, r_hp (snd w) = false -> parse_request_header reg w = (Ok tt, w1) ->
  exists g query, r_get (snd w1) = Some g /\ option_map m_query (r_meta (snd w1)) = Some (Some query) /\ q_mut g = negb (nonempty query).
Proof.
  intros reg w w1 Hh HP. unfold parse_request_header in HP. unfold mbind at 1 in HP. unfold mreq in HP. cbn match beta in HP. rewrite Hh in HP.
  unfold mbind at 1 in HP. unfold msett in HP. cbn match beta in HP. unfold mbind at 1 in HP.
  destruct (frame (s_hdr (fst w)) (r_stream (snd w))) as [[[x|e] b] s1]; [|discriminate].
  unfold mbind at 1 in HP. unfold mlift in HP at 1. destruct (parse_request_headers x) as [lh|e]; [|discriminate].
  unfold mbind at 1 in HP. unfold mlift in HP at 1. destruct (parse_request_line (fst lh)) as [l|e]; [|discriminate].
  set (w2 := (fst w, _)) in HP. clearbody w2. unfold populate in HP. unfold mbind at 1 in HP. unfold mlift in HP at 1.
  destruct (pick_host l (snd lh)) as [[host hs]|e]; [|discriminate]. destruct (split_domain_port host) as [d p].
  unfold mbind at 1 in HP. unfold mupd in HP at 1. set (w3 := (fst w2, _)) in HP. clearbody w3. unfold mbind at 1 in HP.
  match goal with H : (let (_, _) := ?m w3 in _) = _ |- _ => destruct (m w3) as [[ch|e] w4] end; [|discriminate].
  unfold mbind at 1 in HP. unfold mupd in HP at 1. set (w5 := (fst w4, _)) in HP. clearbody w5. unfold mbind at 1 in HP.
  match goal with H : (let (_, _) := ?m w5 in _) = _ |- _ => destruct (m w5) as [[u|e] w6] end; [|discriminate].
  unfold mbind at 1 in HP. unfold mreq in HP. cbn match beta in HP. destruct (r_meta (snd w6)) as [m|]; [|discriminate].
  unfold mbind at 1 in HP. unfold mupd in HP at 1. set (w7 := (fst w6, _)) in HP. clearbody w7. unfold mbind at 1 in HP.
  destruct (nonempty (rl_query l)) eqn:En; unfold new_query, mbind, msett, mlift in HP; cbn match beta in HP;
    match goal with H : context[querydict ?a ?b ?c ?d] |- _ => destruct (querydict a b c d) as [g|e] eqn:E; [|discriminate] end;
    unfold mupd in HP; injection HP as <-; exists g, (rl_query l); (split; [reflexivity|]); (split; [reflexivity|]); rewrite En; exact (query_flag _ _ _ _ _ E).
Qed.
Print Assumptions C155_get_partial.
(** a posted form, changes tried afterwards, and a request without a body or a query *)
Definition exf_set : sett := mkS (Some 200%Z) (Some 1000%Z) (Some 1000%Z) (Some 100%Z) !"utf-8" [KConv].
Definition exf_crlf (l : list str) : str := flat_map (fun x => x ++ [13%N; 10%N]) l.
Definition exf_form : src := [SData (exf_crlf [!"POST /p?x=1 HTTP/1.1"; !"Host: a"; !"Content-Type: application/x-www-form-urlencoded"; []] ++ !"k=v&k=w")].
Definition exf_bare : src := [SData (exf_crlf [!"GET /p HTTP/1.1"; !"Host: a"; []])].
Definition exf_run (s : src) (cs : list call) : option (bool * list pystr * list pystr) :=
  match request_init ex_reg exf_set s with
  | Ok r => let r1 := snd (calls ex_reg (fun _ => None) (fun _ => Ok tt) cs (exf_set, r)) in
      match r_post r1, r_get r1 with Some (PQuery q), Some g => Some (r_bp r1, q_list !"k" q, q_list !"x" g) | _, _ => None end
  | Err _ => None
  end.
Example C155_case :
  let change := [CPost (QSetItem (PU !"k") (PU !"z")); CPost QClear; CGet QClear; CReq (OContentType None); CReq OParse; CReq OBody] in
  exf_run exf_form [CReq OParse] = Some (true, [PU !"v"; PU !"w"], [PU !"1"]) /\
  exf_run exf_form (CReq OParse :: change) = Some (true, [PU !"v"; PU !"w"], [PU !"1"]) /\
  forallb (fun c => negb (new_stream c)) change = true /\
  exf_run exf_bare [CReq OParse] = Some (false, [], []) /\
  exf_run exf_bare [CReq OParse; CPost (QSetItem (PU !"k") (PU !"z")); CGet (QSetItem (PU !"x") (PU !"y"))] = Some (false, [PU !"z"], [PU !"y"]).
Proof. vm_compute. repeat split; reflexivity. Qed.
