(** * Relations between states of a request object that its methods preserve *)
From Verif Require Import Py Spec HeadSpec PyFacts PyDict StreamModel StreamSpec StreamFacts StreamCalm CodecModel PercentModel
  QueryModel HeadModel HeadFacts HeaderModel UploadModel MultipartModel RequestModel RequestSpec HeaderRun BodyRun ParseRun.

Local Arguments querydict : simpl never.
Local Arguments decode : simpl never.

(** ** Two objects that a method cannot tell apart *)
(** the same up to upload handlers and, as asked, up to GET, up to POST and FILES, and up to the stored body *)
Record alike (g p y : bool) (r r' : request) : Prop := {
  al_stream : r_stream r = r_stream r';
  al_hp : r_hp r = r_hp r';
  al_bp : r_bp r = r_bp r';
  al_meta : r_meta r = r_meta r';
  al_attrs : r_attrs r = r_attrs r';
  al_get : g = true -> r_get r = r_get r';
  al_post : p = true -> r_post r = r_post r' /\ r_files r = r_files r';
  al_body : y = true -> r_body r = r_body r' }.
Definition agree (g p y : bool) (a b : world) : Prop := fst a = fst b /\ alike g p y (snd a) (snd b).
Definition respects (g p y : bool) {A} (m : M A) : Prop :=
  forall a b, agree g p y a b -> fst (m a) = fst (m b) /\ agree g p y (snd (m a)) (snd (m b)).

Section Rel.
  Context (g p y : bool).
  Lemma rp_ret {A} (x : A) : respects g p y (mret x). Proof. now intros a b H. Qed.
  Lemma rp_raise {A} e : respects g p y (@mraise A e). Proof. now intros a b H. Qed.
  Lemma rp_lift {A} (x : res A) : respects g p y (mlift x). Proof. now intros a b H. Qed.
  Lemma rp_sett : respects g p y msett. Proof. intros a b H. split; [|exact H]. cbn. now rewrite (proj1 H). Qed.
  Lemma rp_bind {A B} (m : M A) (f : A -> M B) : respects g p y m -> (forall x, respects g p y (f x)) -> respects g p y (mbind m f).
  Proof.
    intros Hm Hf a b H. unfold mbind. specialize (Hm a b H). destruct (m a) as [[x|e] a1], (m b) as [[x2|e'] b1]; cbn in Hm;
      destruct Hm as [E H1]; try discriminate E; injection E as <-; [now apply Hf|now split].
  Qed.
  Lemma rp_req {B} (f : request -> M B) :
    (forall a b, agree g p y a b -> fst (f (snd a) a) = fst (f (snd b) b) /\ agree g p y (snd (f (snd a) a)) (snd (f (snd b) b))) ->
    respects g p y (mbind mreq f).
  Proof. intros H a b Hab. exact (H a b Hab). Qed.
  Lemma rp_upd f : (forall r r', alike g p y r r' -> alike g p y (f r) (f r')) -> respects g p y (mupd f).
  Proof. intros H a b [H1 H2]. split; [reflexivity|]. split; [exact H1|]. now apply H. Qed.
  Lemma rp_stream {A} (f : l0 -> res A * l0) : respects g p y (mstream f).
  Proof.
    intros a b [H1 H2]. unfold mstream. rewrite (al_stream _ _ _ _ _ H2). destruct (f (r_stream (snd b))) as [x s].
    split; [reflexivity|]. split; [exact H1|]. destruct H2. now constructor.
  Qed.
End Rel.

Ltac alike_step :=
  intros [? ? ? ? ? ? ? ? ? ? ?] [? ? ? ? ? ? ? ? ? ? ?] [? ? ? ? ? ? ? ?]; cbn in *; subst; constructor; cbn; auto.
Ltac resp :=
  repeat lazymatch goal with
  | |- respects _ _ _ (mbind mreq _) => fail
  | |- respects _ _ _ (mbind _ _) => apply rp_bind; [|intros]
  | |- respects _ _ _ (mret _) => apply rp_ret
  | |- respects _ _ _ (mraise _) => apply rp_raise
  | |- respects _ _ _ (mlift _) => apply rp_lift
  | |- respects _ _ _ msett => apply rp_sett
  | |- respects _ _ _ (mstream _) => apply rp_stream
  | |- respects _ _ _ (mupd _) => apply rp_upd; alike_step
  end.

Section Ops.
  Context (reg : registry) (name2cp : str -> option N) (mk_temp : str -> res unit) (g p y : bool).
  Notation respects := (respects g p y).
  Lemma rp_query q mut : respects (new_query reg q mut). Proof. unfold new_query. resp. Qed.
  Lemma rp_encoding v : respects (set_encoding v).
  Proof. intros a b [H1 H2]. split; [reflexivity|]. unfold set_encoding. cbn [snd fst]. split; cbn [fst snd]; [now rewrite H1|]. destruct H2. now constructor. Qed.
  Lemma rp_reinit : respects (re_init reg). Proof. unfold re_init. resp. apply rp_query. Qed.
  Lemma rp_read n : respects (m_read n). Proof. apply rp_stream. Qed.
  Lemma rp_populate l hs : respects (populate reg l hs).
  Proof.
    unfold populate. resp. destruct x as [host hs']. destruct (split_domain_port host) as [domain port]. resp.
    - destruct (header !"Content-Type" hs'); resp.
    - destruct (snd x0); [apply rp_encoding|apply rp_ret].
    - apply rp_req. intros a b H. rewrite (al_meta _ _ _ _ _ (proj2 H)). destruct (r_meta (snd b)) as [m|].
      + revert a b H. match goal with |- forall a b, _ -> fst (?m a) = _ /\ _ => change (respects m) end.
        apply rp_bind; [resp|]. intros _. apply rp_bind; [destruct (nonempty (rl_query l)); apply rp_query|]. intros q. resp.
      + now apply rp_raise.
  Qed.
  Lemma rp_header : respects (parse_request_header reg).
  Proof.
    unfold parse_request_header. apply rp_req. intros a b H. rewrite (al_hp _ _ _ _ _ (proj2 H)). destruct (r_hp (snd b)).
    - now apply rp_ret.
    - revert a b H. match goal with |- forall a b, _ -> fst (?m a) = _ /\ _ => change (respects m) end.
      apply rp_bind; [apply rp_sett|]. intros st. apply rp_bind.
      + intros a b [H1 H2]. rewrite (al_stream _ _ _ _ _ H2). destruct (frame (s_hdr st) (r_stream (snd b))) as [[x t] s1].
        split; [reflexivity|]. split; [exact H1|]. destruct H2. now constructor.
      + intros hdr. resp. apply rp_populate.
  Qed.
  Lemma rp_loop : forall fuel max size chunk acc, respects (body_loop fuel max size chunk acc).
  Proof.
    induction fuel as [|fuel IH]; intros; cbn [body_loop]; [apply rp_raise|].
    destruct (within_max size max && nonempty chunk); [|apply rp_ret]. resp; [apply rp_read|apply IH].
  Qed.
  Lemma rp_read_body : respects read_body.
  Proof.
    unfold read_body. resp. apply rp_req. intros a b H. rewrite (al_stream _ _ _ _ _ (proj2 H)).
    revert a b H. match goal with |- forall a b, _ -> fst (?m _) = _ /\ _ => idtac end.
    intros a b H. set (n := l0_total (r_stream (snd b))). clearbody n. revert a b H.
    match goal with |- forall a b, _ -> fst (?m a) = _ /\ _ => change (respects m) end.
    resp; [apply rp_read|apply rp_loop|]. destruct (within_max (snd x1) (s_dmem x)); resp.
  Qed.
End Ops.
Section Ops2.
  Context (reg : registry) (name2cp : str -> option N) (mk_temp : str -> res unit) (g p : bool).
  Notation respects := (respects g p true).
  Lemma rp_body1 : respects body1.
  Proof.
    unfold body1. apply rp_req. intros a b H. destruct H as [H1 H2].
    rewrite (al_bp _ _ _ _ _ H2), (al_attrs _ _ _ _ _ H2), (al_body _ _ _ _ _ H2 eq_refl), (al_hp _ _ _ _ _ H2).
    destruct (r_bp (snd b) && _); [now apply rp_raise|]. destruct (r_body (snd b)); [now apply rp_ret|].
    destruct (r_hp (snd b)); [now apply rp_read_body|now apply rp_raise].
  Qed.
  Lemma rp_body : respects (body reg).
  Proof.
    unfold body. apply rp_req. intros a b H. destruct H as [H1 H2].
    rewrite (al_bp _ _ _ _ _ H2), (al_attrs _ _ _ _ _ H2), (al_hp _ _ _ _ _ H2).
    destruct (r_hp (snd b) || _); [now apply rp_body1|].
    apply (rp_bind g p true (parse_request_header reg) (fun _ => body1)); [apply rp_header|intros; apply rp_body1|now split].
  Qed.
  Lemma rp_empty : respects (empty_post reg). Proof. unfold empty_post. resp. apply rp_query. Qed.
  Lemma rp_upload : respects (parse_file_upload reg name2cp mk_temp).
  Proof.
    unfold parse_file_upload. apply rp_req. intros a b H. destruct H as [H1 H2]. rewrite (al_meta _ _ _ _ _ H2).
    assert (H : agree g p true a b) by now split. clear H1 H2. revert a b H. intros a b H. set (me := r_meta (snd b)). clearbody me. revert a b H.
    match goal with |- forall a b, _ -> fst (?m a) = _ /\ _ => change (respects m) end.
    resp. destruct me as [m|]; [|apply rp_raise]. destruct (m_headers m) as [h|]; [|apply rp_raise]. resp.
  Qed.
  Lemma rp_post : respects (parse_post reg name2cp mk_temp).
  Proof.
    unfold parse_post. apply rp_req. intros a b H. destruct H as [H1 H2]. rewrite (al_attrs _ _ _ _ _ H2).
    destruct (a_ctype (r_attrs (snd b))) as [c|]; [|now apply rp_raise].
    assert (H : agree g p true a b) by now split. clear H1 H2.
    destruct (match c with Some c0 => seqb c0 CT_MULTI | None => false end).
    - destruct (rp_upload a b H) as [E H1].
      destruct (parse_file_upload reg name2cp mk_temp a) as [[x|e] a1], (parse_file_upload reg name2cp mk_temp b) as [[y|e'] b1];
        cbn in E, H1; try discriminate E; injection E as <-.
      + split; [reflexivity|]. destruct H1 as [H1 H2]. split; [exact H1|]. cbn [snd]. destruct H2. now constructor.
      + assert (G : respects (let! _ := empty_post reg in @mraise (postv * dict (list ufile)) MultiPartParserError))
          by (resp; apply rp_empty).
        destruct e; try (now split). now apply G.
    - destruct (match c with Some c0 => seqb c0 CT_FORM | None => false end); revert a b H;
        match goal with |- forall a b, _ -> fst (?m a) = _ /\ _ => change (respects m) end.
      + resp; [apply rp_body|apply rp_query].
      + resp. apply rp_empty.
  Qed.
  Lemma rp_parse_body : respects (parse_request_body reg name2cp mk_temp).
  Proof.
    unfold parse_request_body. apply rp_req. intros a b H. destruct H as [H1 H2].
    rewrite (al_bp _ _ _ _ _ H2), (al_hp _ _ _ _ _ H2). destruct (r_bp (snd b)); [now apply rp_ret|].
    assert (H : agree g p true a b) by now split. set (h := r_hp (snd b)). clearbody h. clear H1 H2. revert a b H.
    match goal with |- forall a b, _ -> fst (?m a) = _ /\ _ => change (respects m) end.
    resp. destruct (negb h); [resp; apply rp_empty|]. resp. destruct x1; [resp; apply rp_empty|].
    resp; [apply rp_post|apply rp_body].
  Qed.
End Ops2.

(** ** Assigning a stream *)
Lemma assign_stream_eq reg s st r : assign_stream reg s (st, r) =
  match querydict reg (Some (s_query st)) None true with
  | Ok q => (Ok tt, (st, set_flags false false (set_attrs none_attrs (set_meta (Some (mkMeta None None)) (set_get (Some q)
               (set_stream (l0_init s) r))))))
  | Err e => (Err e, (st, set_attrs no_attrs (set_meta None (set_get None (set_stream (l0_init s) r)))))
  end.
Proof.
  unfold assign_stream, re_init, new_query, mbind, mupd, msett, mlift. cbn [fst snd].
  destruct (querydict reg (Some (s_query st)) None true); reflexivity.
Qed.
Lemma assign_body_eq reg s st r : assign_body_stream reg s (st, r) =
  match querydict reg (Some (s_query st)) None true with
  | Ok q => (Ok tt, (st, set_flags (r_hp r) false (set_post (Some (PQuery q)) (Some []) (set_body None (set_stream (l0_init s) r)))))
  | Err e => (Err e, (st, set_body None (set_post None None (set_stream (l0_init s) r))))
  end.
Proof.
  unfold assign_body_stream, new_query, mbind, mupd, msett, mlift. cbn [fst snd].
  destruct (querydict reg (Some (s_query st)) None true); reflexivity.
Qed.

(** ** The last step of parse_request_body makes POST and FILES the same *)
Definition unites (g : bool) {A} (m : M A) : Prop :=
  forall a b x, agree g false true a b -> fst (m a) = Ok x -> agree g true true (snd (m a)) (snd (m b)).
Lemma unites_bind g {A B} (m : M A) (f : A -> M B) : respects g false true m -> (forall x, unites g (f x)) -> unites g (mbind m f).
Proof.
  intros Hm Hf a b y H. unfold mbind. specialize (Hm a b H).
  destruct (m a) as [[x|e] a1], (m b) as [[x'|e'] b1]; cbn in Hm; destruct Hm as [E H1]; try discriminate E;
    injection E as <-; [now apply Hf|discriminate].
Qed.
Lemma unites_finish reg name2cp mk_temp g : unites g (finish reg name2cp mk_temp).
Proof.
  unfold finish. apply unites_bind; [apply rp_post|]. intros pf. apply unites_bind; [apply rp_body|]. intros b.
  apply unites_bind; [apply rp_sett|]. intros st. apply unites_bind; [apply rp_lift|]. intros t.
  intros w w' x [H1 H2] _. split; [exact H1|]. unfold mupd. cbn [snd]. destruct H2. constructor; cbn; auto.
Qed.

(** ** What cannot change once the header is parsed *)
Definition still (w w' : world) : Prop := r_hp (snd w) = true ->
  fst w' = fst w /\ r_hp (snd w') = true /\ r_attrs (snd w') = r_attrs (snd w) /\ r_meta (snd w') = r_meta (snd w) /\
  r_get (snd w') = r_get (snd w).
Lemma still_refl w : still w w. Proof. intros H. now repeat split. Qed.
Lemma still_trans a b c : still a b -> still b c -> still a c.
Proof.
  intros H1 H2 H. destruct (H1 H) as (A1 & A2 & A3 & A4 & A5). destruct (H2 A2) as (B1 & B2 & B3 & B4 & B5).
  repeat split; congruence.
Qed.
Definition stillM {A} (m : M A) : Prop := forall w, still w (snd (m w)).
Lemma still_ret {A} (x : A) : stillM (mret x). Proof. intros w. apply still_refl. Qed.
Lemma still_raise {A} e : stillM (@mraise A e). Proof. intros w. apply still_refl. Qed.
Lemma still_lift {A} (x : res A) : stillM (mlift x). Proof. intros w. apply still_refl. Qed.
Lemma still_sett : stillM msett. Proof. intros w. apply still_refl. Qed.
Lemma still_req : stillM mreq. Proof. intros w. apply still_refl. Qed.
Lemma still_bind {A B} (m : M A) (f : A -> M B) : stillM m -> (forall x, stillM (f x)) -> stillM (mbind m f).
Proof.
  intros Hm Hf w. unfold mbind. specialize (Hm w). destruct (m w) as [[x|e] w1]; [|exact Hm].
  eapply still_trans; [exact Hm|apply Hf].
Qed.
Lemma still_upd f : (forall r, r_hp (f r) = r_hp r /\ r_attrs (f r) = r_attrs r /\ r_meta (f r) = r_meta r /\ r_get (f r) = r_get r) -> stillM (mupd f).
Proof. intros H w Hw. destruct (H (snd w)) as (H1 & H2 & H3 & H4). cbn. repeat split; congruence. Qed.
Lemma still_stream {A} (f : l0 -> res A * l0) : stillM (mstream f).
Proof. intros w H. unfold mstream. destruct (f (r_stream (snd w))) as [x s]. now repeat split. Qed.
Ltac still :=
  repeat lazymatch goal with
  | |- stillM (mbind _ _) => apply still_bind; [|intros]
  | |- stillM (mret _) => apply still_ret
  | |- stillM (mraise _) => apply still_raise
  | |- stillM (mlift _) => apply still_lift
  | |- stillM msett => apply still_sett
  | |- stillM mreq => apply still_req
  | |- stillM (mstream _) => apply still_stream
  | |- stillM (mupd _) => apply still_upd; intros; repeat split
  end.
Section Still.
  Context (reg : registry) (name2cp : str -> option N) (mk_temp : str -> res unit).
  Lemma still_query q mut : stillM (new_query reg q mut). Proof. unfold new_query. still. Qed.
  Lemma still_header : stillM (parse_request_header reg).
  Proof. intros [st r] H. cbn in H. rewrite header_done by exact H. now repeat split. Qed.
  Lemma still_read n : stillM (m_read n). Proof. apply still_stream. Qed.
  Lemma still_loop : forall fuel max size chunk acc, stillM (body_loop fuel max size chunk acc).
  Proof.
    induction fuel as [|fuel IH]; intros; cbn [body_loop]; [apply still_raise|].
    destruct (within_max size max && nonempty chunk); [|apply still_ret]. still; [apply still_read|apply IH].
  Qed.
  Lemma still_body1 : stillM body1.
  Proof.
    unfold body1. still. match goal with |- context [r_bp ?r && ?x] => destruct (r_bp r && x) end; [apply still_raise|].
    match goal with |- context [r_body ?r] => destruct (r_body r) end; [apply still_ret|].
    match goal with |- context [r_hp ?r] => destruct (r_hp r) end; [|apply still_raise]. unfold read_body. still;
      [apply still_read|apply still_loop|].
    match goal with |- context [within_max ?x ?y] => destruct (within_max x y) end; still.
  Qed.
  Lemma still_body : stillM (body reg).
  Proof.
    unfold body. still. match goal with |- context [r_hp ?r || ?x] => destruct (r_hp r || x) end; [apply still_body1|].
    still; [apply still_header|apply still_body1].
  Qed.
  Lemma still_empty : stillM (empty_post reg). Proof. unfold empty_post. still. apply still_query. Qed.
  Lemma still_upload : stillM (parse_file_upload reg name2cp mk_temp).
  Proof.
    unfold parse_file_upload. still. match goal with |- context [r_meta ?r] => destruct (r_meta r) as [m|] end; [|apply still_raise].
    destruct (m_headers m); [|apply still_raise]. still.
  Qed.
  Lemma still_post : stillM (parse_post reg name2cp mk_temp).
  Proof.
    unfold parse_post. still. match goal with |- context [a_ctype (r_attrs ?r)] => destruct (a_ctype (r_attrs r)) as [c|] end; [|apply still_raise].
    destruct (match c with Some c0 => seqb c0 CT_MULTI | None => false end).
    - intros w. pose proof (still_upload w) as H. destruct (parse_file_upload reg name2cp mk_temp w) as [[pf|e] w1]; cbn [snd] in H.
      + exact H.
      + assert (G : stillM (let! _ := empty_post reg in @mraise (postv * dict (list ufile)) MultiPartParserError))
          by (still; apply still_empty).
        destruct e; try exact H. eapply still_trans; [exact H|apply G].
    - destruct (match c with Some c0 => seqb c0 CT_FORM | None => false end); still; [apply still_body|apply still_query|apply still_empty].
  Qed.
  Lemma still_finish : stillM (finish reg name2cp mk_temp).
  Proof. unfold finish. still; [apply still_post|apply still_body]. Qed.
  Lemma still_parse_body : stillM (parse_request_body reg name2cp mk_temp).
  Proof.
    unfold parse_request_body. still. match goal with |- context [r_bp ?r] => destruct (r_bp r) end; [apply still_ret|]. still.
    match goal with |- context [negb ?r] => destruct (negb r) end; [still; apply still_empty|]. still.
    match goal with |- stillM (match ?d with [] => _ | _ :: _ => _ end) => destruct d end; still; [apply still_empty|apply still_post|apply still_body].
  Qed.
End Still.

(** ** The two flags *)
Lemma populate_flags reg l hs st r : r_hp (snd (snd (populate reg l hs (st, r)))) = r_hp r /\
  r_bp (snd (snd (populate reg l hs (st, r)))) = r_bp r.
Proof.
  rewrite populate_eq. destruct (pick_host l hs) as [[host hs']|e]; [|easy].
  destruct (ctype_of reg hs') as [[c [ch|]]|e]; [| |easy]; cbn zeta; (destruct (r_meta r); [|easy]);
    destruct (query_of reg _ (rl_query l)); easy.
Qed.
Lemma header_bp reg st r : r_bp (snd (snd (parse_request_header reg (st, r)))) = r_bp r.
Proof.
  destruct (r_hp r) eqn:E; [now rewrite header_done|]. rewrite header_eq by exact E.
  destruct (frame (s_hdr st) (r_stream r)) as [[[h|e] b] s1]; cbn zeta; [|reflexivity].
  destruct (parse_request_headers h) as [[line hs]|e]; [|reflexivity].
  destruct (parse_request_line line) as [l|e]; [|reflexivity].
  now rewrite (proj2 (populate_flags reg l hs st (set_flags b (r_bp r) (set_stream s1 r)))).
Qed.
(** the body is never marked as parsed before the header *)
Definition ordered (r : request) : Prop := r_bp r = true -> r_hp r = true.
Definition orderedM {A} (m : M A) : Prop := forall w, ordered (snd w) -> ordered (snd (snd (m w))).
Section Ordered.
  Context (reg : registry) (name2cp : str -> option N) (mk_temp : str -> res unit).
  Lemma ordered_header : orderedM (parse_request_header reg).
  Proof.
    intros [st r] H. cbn in H. destruct (r_hp r) eqn:E; [now rewrite header_done|].
    intros Hb. rewrite header_bp in Hb. specialize (H Hb). congruence.
  Qed.
  Lemma ordered_still {A} (m : M A) : stillM m -> (forall w, r_hp (snd w) = false -> r_bp (snd w) = false -> ordered (snd (snd (m w)))) -> orderedM m.
  Proof.
    intros H1 H2 w Hw. destruct (r_hp (snd w)) eqn:E.
    - intros _. now destruct (H1 w E) as (_ & H & _).
    - apply H2; [exact E|]. destruct (r_bp (snd w)) eqn:E2; [|reflexivity]. specialize (Hw E2). congruence.
  Qed.
  Lemma body1_bp w : r_bp (snd (snd (body1 w))) = r_bp (snd w).
  Proof.
    assert (L : forall fuel max size chunk acc w, r_bp (snd (snd (body_loop fuel max size chunk acc w))) = r_bp (snd w)).
    { induction fuel as [|fuel IH]; intros; cbn [body_loop]; [reflexivity|].
      destruct (within_max size max && nonempty chunk); [|reflexivity]. unfold mbind, m_read, mstream.
      match goal with |- context [l0_read ?n ?s] => destruct (l0_read n s) as [[c|e] s1] end; [now rewrite IH|]. now destruct e. }
    unfold body1, mbind at 1, mreq. destruct (r_bp (snd w) && _); [reflexivity|]. destruct (r_body (snd w)); [reflexivity|].
    destruct (r_hp (snd w)); [|reflexivity]. unfold read_body. unfold mbind at 1, msett. unfold mbind at 1, mreq.
    unfold mbind at 1, m_read, mstream. destruct (l0_read (Some BLOCK) (r_stream (snd w))) as [[c|e] s1]; [|now destruct e].
    unfold mbind at 1. specialize (L (2 + l0_total (r_stream (snd w))) (s_dmem (fst w)) (zlen c) c [] (fst w, set_stream s1 (snd w))).
    destruct (body_loop _ _ _ _ _ _) as [[x|e] w2]; cbn [snd] in L; [|exact L].
    destruct (within_max (snd x) (s_dmem (fst w))); exact L.
  Qed.
  Lemma ordered_body : orderedM (body reg).
  Proof.
    apply ordered_still; [apply still_body|]. intros [st r] H1 H2. cbn in H1, H2. unfold body, mbind at 1, mreq. cbn [snd].
    rewrite H1, H2. cbn [andb orb]. unfold mbind. pose proof (header_bp reg st r) as H3.
    destruct (parse_request_header reg (st, r)) as [[x|e] w1]; cbn [snd] in *; intros Hb.
    - rewrite body1_bp in Hb. congruence.
    - congruence.
  Qed.
  Lemma ordered_parse_body : orderedM (parse_request_body reg name2cp mk_temp).
  Proof.
    apply ordered_still; [apply still_parse_body|]. intros [st r] H1 H2. cbn in H1, H2.
    rewrite parse_body_early by assumption. intros Hb. exfalso.
    destruct (querydict reg (Some (s_query st)) None false); cbn in Hb; congruence.
  Qed.
  Lemma ordered_bind {A B} (m : M A) (f : A -> M B) : orderedM m -> (forall x, orderedM (f x)) -> orderedM (mbind m f).
  Proof.
    intros Hm Hf w H. unfold mbind. specialize (Hm w H). destruct (m w) as [[x|e] w1]; [|exact Hm]. now apply Hf.
  Qed.
  Lemma ordered_ret {A} (x : A) : orderedM (mret x). Proof. now intros w. Qed.
  Lemma ordered_upd f : (forall r, r_hp (f r) = r_hp r /\ r_bp (f r) = r_bp r) -> orderedM (mupd f).
  Proof. intros Hf w H. unfold mupd, ordered. cbn. destruct (Hf (snd w)) as [-> ->]. exact H. Qed.
  Theorem perform_ordered o : orderedM (perform reg name2cp mk_temp o).
  Proof.
    destruct o; unfold perform, vunit, vmap; try (apply ordered_bind; [|intros; apply ordered_ret]).
    - apply ordered_header.
    - apply ordered_body.
    - apply ordered_parse_body.
    - unfold parse. apply ordered_bind; [apply ordered_header|]. intros _. apply ordered_parse_body.
    - intros w H. unfold m_read, mstream. destruct (l0_read n (r_stream (snd w))) as [[d|e] s1]; [exact H|]. destruct e; exact H.
    - intros [st r] H. rewrite assign_stream_eq. destruct (querydict reg (Some (s_query st)) None true); [easy|exact H].
    - intros [st r] H. rewrite assign_body_eq. destruct (querydict reg (Some (s_query st)) None true); [easy|exact H].
    - intros w H. exact H.
    - apply ordered_upd. now intros r.
    - apply ordered_upd. intros r. now destruct (nonempty s).
    - apply ordered_upd. now intros r.
    - intros w H. unfold assign_handlers, mbind, mreq, mraise, mupd. destruct (r_hasfiles (snd w)); exact H.
    - intros w H. unfold get_handlers, mbind, mreq, msett. destruct (r_handlers (snd w)) as [[|h hs]|]; exact H.
    - intros w H. exact H.
  Qed.
  Theorem after_ordered os : forall w, ordered (snd w) -> ordered (snd (after reg name2cp mk_temp os w)).
  Proof. induction os as [|o os IH]; intros w H; cbn; [exact H|]. apply IH. now apply perform_ordered. Qed.
  Lemma after_app os1 os2 w : after reg name2cp mk_temp (os1 ++ os2) w = after reg name2cp mk_temp os2 (after reg name2cp mk_temp os1 w).
  Proof. unfold after. apply fold_left_app. Qed.
End Ordered.
