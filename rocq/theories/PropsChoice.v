(** * Theorem C128 for requests: which of the library's upload handlers are set makes no difference to a parsed request *)
From Verif Require Import Py Spec PyFacts PyDict StreamModel StreamSpec StreamFacts CodecModel QueryModel HeadModel HeaderModel
  BoundaryModel UploadModel MultipartModel ItemFacts FormSpec ReaderSim RequestModel RequestSpec PropsPart PropsMultipart PropsSetup PropsRequest PropsEnd.

Local Arguments querydict : simpl never.
Local Arguments decode : simpl never.

(** the settings with another list of handlers *)
Definition with_handlers (ks : list hkind) (st : sett) : sett :=
  mkS (s_hdr st) (s_fmem st) (s_dmem st) (s_dnum st) (s_charset st) ks.
(** the same names, with the same files under every name; where their content is kept may differ *)
Definition same_filedict (a b : dict (list ufile)) : Prop :=
  map fst a = map fst b /\ forall k, Forall2 same_file (getl k a) (getl k b).
(** everything but the files and the list of handlers *)
Definition rest_of (r : request) : request := set_handlers None (set_post (r_post r) None r).
Definition alike_request (a b : request) : Prop := rest_of a = rest_of b /\ simo same_filedict (r_files a) (r_files b).
(** the length of the body as the headers have it *)
Definition announced (h : headers) : Z :=
  match header !"Content-Length" h with
  | None => 0%Z
  | Some v => match py_int 10 v with Some z => z | None => 0%Z end
  end.

Lemma same_file_refl f : same_file f f.
Proof. unfold same_file. tauto. Qed.
Lemma filedict_refl d : same_filedict d d.
Proof. split; [reflexivity|]. intros k. induction (getl k d); constructor; [apply same_file_refl|assumption]. Qed.
Lemma files_refl o : simo same_filedict o o.
Proof. destruct o; [apply filedict_refl|exact I]. Qed.

Section Choice.
  Context (ks1 ks2 : list hkind).
  Definition setts (s t : sett) : Prop := with_handlers [] s = with_handlers [] t /\ s_handlers s = ks1 /\ s_handlers t = ks2.
  Section Pairs.
  Context (P : request -> Prop).
  Definition near (a b : world) : Prop := setts (fst a) (fst b) /\ alike_request (snd a) (snd b) /\ P (snd a) /\ P (snd b).
  Definition simv {A B} (V : A -> B -> Prop) (x : res A * world) (y : res B * world) : Prop :=
    match fst x, fst y with Ok u, Ok v => V u v | Err e, Err e' => e = e' | _, _ => False end /\ near (snd x) (snd y).
  Definition prv {A B} (V : A -> B -> Prop) (m : M A) (m' : M B) : Prop := forall a b, near a b -> simv V (m a) (m' b).
  Notation tk m := (prv eq m m).
  Lemma p_ret {A B} (V : A -> B -> Prop) x y : V x y -> prv V (mret x) (mret y). Proof. now intros Hv a b. Qed.
  Lemma p_raise {A B} (V : A -> B -> Prop) e : prv V (mraise e) (mraise e). Proof. now intros a b. Qed.
  Lemma p_lift {A} (x : res A) : tk (mlift x). Proof. intros a b Hab. split; [now destruct x|exact Hab]. Qed.
  Lemma p_bind {A B A' B'} (V : A -> A' -> Prop) (W : B -> B' -> Prop) m m' (f : A -> M B) (g : A' -> M B') :
    prv V m m' -> (forall x y, V x y -> prv W (f x) (g y)) -> prv W (mbind m f) (mbind m' g).
  Proof.
    intros Hm Hf a b Hab. unfold mbind. specialize (Hm a b Hab). destruct (m a) as [[x|e] a1], (m' b) as [[y|e'] b1]; destruct Hm as [E H1]; cbn [fst snd] in E, H1;
      try easy. now apply Hf.
  Qed.
  Lemma p_eq {A B} (m : M A) (f g : A -> M B) : tk m -> (forall x, prv eq (f x) (g x)) -> prv eq (mbind m f) (mbind m g).
  Proof. intros H1 H2. apply (p_bind eq eq); [exact H1|]. intros x y <-. apply H2. Qed.
  Lemma p_sett {A B} (W : A -> B -> Prop) (f : sett -> M A) (g : sett -> M B) :
    (forall s t, setts s t -> prv W (f s) (g t)) -> prv W (mbind msett f) (mbind msett g).
  Proof. intros H a b Hab. cbn. apply H; [apply Hab|exact Hab]. Qed.
  Lemma p_req {A B} (W : A -> B -> Prop) (f : request -> M A) (g : request -> M B) :
    (forall r r', alike_request r r' -> P r -> P r' -> prv W (f r) (g r')) -> prv W (mbind mreq f) (mbind mreq g).
  Proof. intros H a b Hab. cbn. apply H; [apply Hab|apply Hab|apply Hab|exact Hab]. Qed.
  Lemma p_upd f : (forall r, rest_of (f (rest_of r)) = rest_of (f r)) -> (forall r, r_files (f r) = r_files r) -> (forall r, P r -> P (f r)) -> tk (mupd f).
  Proof.
    intros H1 H2 H3 a b (HS & [HR HF] & HP & HP'). split; [reflexivity|]. split; [exact HS|]. cbn. split; [|now split; apply H3].
    split; [rewrite <- (H1 (snd a)), HR; apply H1|now rewrite !H2].
  Qed.
  Lemma p_stream {A} (f : l0 -> res A * l0) : (forall s r, P r -> P (set_stream s r)) -> tk (mstream f).
  Proof.
    intros HP0 a b (HS & [HR HF] & HP & HP'). unfold mstream. assert (E : r_stream (snd a) = r_stream (snd b)) by exact (f_equal r_stream HR).
    rewrite E. destruct (f (r_stream (snd b))) as [x s]. split; [now destruct x|]. split; [exact HS|]. split; [|split; now apply HP0].
    split; [|exact HF]. exact (f_equal (set_stream s) HR).
  Qed.
  Context (reg : registry) (HPs : forall s r, P r -> P (set_stream s r)).
  Lemma setts_charset s t : setts s t -> s_charset s = s_charset t.
  Proof. intros [E _]. exact (f_equal s_charset E). Qed.
  Lemma setts_query s t : setts s t -> s_query s = s_query t.
  Proof. intros [E _]. exact (f_equal s_query E). Qed.
  Lemma p_new_query q mut : tk (new_query reg q mut).
  Proof. unfold new_query. apply p_sett. intros s t H. rewrite (setts_query _ _ H). apply p_lift. Qed.
  Lemma p_read n : tk (m_read n). Proof. now apply p_stream. Qed.
  Lemma p_loop max fuel : forall size chunk acc, tk (body_loop fuel max size chunk acc).
  Proof.
    induction fuel as [|f IH]; intros size chunk acc; cbn [body_loop]; [apply p_raise|].
    destruct (_ && _); [|now apply p_ret]. apply p_eq; [apply p_read|]. intros c. apply IH.
  Qed.
  Context (HPb : forall b r, P r -> P (set_body b r)) (HPf : forall b r, P r -> P (set_hasfiles b r)).
  Lemma p_read_body : tk read_body.
  Proof.
    unfold read_body. apply p_sett. intros s t HS. apply p_req. intros r r' HR _ _. assert (E : r_stream r = r_stream r') by exact (f_equal r_stream (proj1 HR)).
    assert (E2 : s_dmem s = s_dmem t) by exact (f_equal s_dmem (proj1 HS)). rewrite E, E2.
    apply p_eq; [apply p_read|]. intros c. apply p_eq; [apply p_loop|]. intros x. destruct (within_max _ _); [|apply p_raise].
    apply p_eq; [|intros _; now apply p_ret]. apply p_upd; [reflexivity|reflexivity|]. intros; now apply HPb.
  Qed.
  Lemma p_body1 : tk body1.
  Proof.
    unfold body1. apply p_req. intros r r' HR _ _. assert (E1 : r_bp r = r_bp r') by exact (f_equal r_bp (proj1 HR)).
    assert (E2 : r_attrs r = r_attrs r') by exact (f_equal r_attrs (proj1 HR)). assert (E3 : r_body r = r_body r') by exact (f_equal r_body (proj1 HR)).
    assert (E4 : r_hp r = r_hp r') by exact (f_equal r_hp (proj1 HR)). rewrite E1, E2, E3, E4.
    destruct (_ && _); [apply p_raise|]. destruct (r_body r'); [now apply p_ret|]. destruct (r_hp r'); [apply p_read_body|apply p_raise].
  Qed.
  Lemma p_empty : tk (empty_post reg).
  Proof.
    unfold empty_post. apply p_eq; [apply p_new_query|]. intros q. apply p_eq; [|intros _; now apply p_ret].
    apply p_upd; [reflexivity|reflexivity|]. intros; now apply HPf.
  Qed.
  End Pairs.

  (** ** The header *)
  Notation anyr := (fun _ : request => True).
  Lemma p_set_encoding v : prv anyr eq (set_encoding v) (set_encoding v).
  Proof.
    intros a b (HS & [HR HF] & _). split; [reflexivity|]. unfold set_encoding. cbn. split; [|split; [|split; exact I]].
    - destruct HS as (E & E1 & E2). split; [|split; [exact E1|exact E2]]. exact (f_equal (with_charset v) E).
    - split; [|exact HF]. exact (f_equal (fun r => set_body None (set_get None r)) HR).
  Qed.
  Lemma p_populate reg l hs : prv anyr eq (populate reg l hs) (populate reg l hs).
  Proof.
    unfold populate. apply p_eq; [apply p_lift|]. intros [host hs']. destruct (split_domain_port host) as [domain port].
    apply p_eq; [now apply p_upd|]. intros _. apply p_eq.
    { destruct (header !"Content-Type" hs'); [|now apply p_ret]. apply p_eq; [apply p_lift|]. intros p. now apply p_ret. }
    intros ch. apply p_eq; [now apply p_upd|]. intros _. apply p_eq.
    { destruct (snd ch); [apply p_set_encoding|now apply p_ret]. }
    intros _. apply p_req. intros r r' HR _ _. assert (E : r_meta r = r_meta r') by exact (f_equal r_meta (proj1 HR)). rewrite E.
    destruct (r_meta r') as [m|]; [|apply p_raise]. apply p_eq; [now apply p_upd|]. intros _. apply p_eq.
    { destruct (nonempty (rl_query l)); apply p_new_query. }
    intros g. now apply p_upd.
  Qed.
  Lemma p_header reg : prv anyr eq (parse_request_header reg) (parse_request_header reg).
  Proof.
    unfold parse_request_header. apply p_req. intros r r' HR _ _. assert (E : r_hp r = r_hp r') by exact (f_equal r_hp (proj1 HR)). rewrite E.
    destruct (r_hp r'); [now apply p_ret|]. apply p_sett. intros s t HS. assert (E2 : s_hdr s = s_hdr t) by exact (f_equal s_hdr (proj1 HS)). rewrite E2.
    apply p_eq.
    { intros a b (HS' & [HR' HF] & _). assert (E3 : r_stream (snd a) = r_stream (snd b)) by exact (f_equal r_stream HR'). rewrite E3.
      destruct (frame (s_hdr t) (r_stream (snd b))) as [[x started] s1]. split; [now destruct x|]. split; [exact HS'|]. cbn. split; [|split; exact I].
      split; [|exact HF]. exact (f_equal (fun r => set_flags started (r_bp r) (set_stream s1 r)) HR'). }
    intros hdr. apply p_eq; [apply p_lift|]. intros lh. apply p_eq; [apply p_lift|]. intros l. apply p_populate.
  Qed.

  (** ** The body *)
  Section Body.
  Context (reg : registry) (n2 : str -> option N) (mk : str -> res unit) (Hmk : can_create mk) (m : Z) (Hm : (0 <= m)%Z).
  (** a multipart request with a length: both lists fit it *)
  Definition fits (r : request) : Prop :=
    a_ctype (r_attrs r) = Some (Some CT_MULTI) -> forall mt h, r_meta r = Some mt -> m_headers mt = Some h -> (0 < announced h)%Z ->
    setup (announced h) m ks1 /\ setup (announced h) m ks2.
  Definition parsed (r : request) : Prop := r_hp r = true /\ fits r.

  Lemma setup_chunk len ks : setup len m ks -> mp_chunk ks = Z.to_nat 65536.
  Proof. intros [H _]. now destruct H. Qed.
  Lemma init_length ct cl b len : mp_init reg ct cl = Ok (b, len) ->
    len = match cl with None => 0%Z | Some v => match py_int 10 v with Some z => z | None => 0%Z end end /\ (0 <= len)%Z.
  Proof.
    unfold mp_init. destruct (negb _); [easy|]. destruct (negb _); [easy|]. destruct (parse_header reg _); cbn [bind]; [|easy].
    destruct (match dget _ _ with Some _ => _ | None => _ end); cbn [bind]; [|easy]. destruct (Z.ltb_spec (match cl with None => 0%Z | Some v => match py_int 10 v with Some z => z | None => 0%Z end end) 0); [easy|].
    intros E. injection E as <- <-. now split.
  Qed.
  Lemma upload_unf st r : parse_file_upload reg n2 mk (st, r) =
    match r_meta r with
    | None => (Err AttributeError, (st, r))
    | Some mt =>
        match m_headers mt with
        | None => (Err AttributeError, (st, r))
        | Some h =>
            match mp_init reg (header !"Content-Type" h) (header !"Content-Length" h) with
            | Err e => (Err e, (st, r))
            | Ok bl =>
                let (x, s) := mp_parse l0_rd l0_exh reg n2 mk (s_multi st) (!"--" ++ pchars (fst bl)) (2 * l0_total (r_stream r) + 4)
                                (mp_chunk (s_handlers st)) (snd bl) (map new_handler (s_handlers st)) (r_stream r) in
                (match x with Ok pf => Ok (PForm (fst pf), snd pf) | Err e => Err e end, (st, set_stream s r))
            end
        end
    end.
  Proof.
    unfold parse_file_upload. unfold mbind, mreq, msett, mlift, mstream, mret. cbn [fst snd]. destruct (r_meta r) as [mt|]; [|reflexivity].
    destruct (m_headers mt) as [h|]; [|reflexivity]. destruct (mp_init reg _ _) as [bl|e]; [|reflexivity].
    destruct (mp_parse _ _ _ _ _ _ _ _ _ _ _ _) as [[pf|e] s]; reflexivity.
  Qed.
  Definition pf_like (x y : postv * dict (list ufile)) : Prop := fst x = fst y /\ same_filedict (snd x) (snd y).
  Lemma p_upload a b : near parsed a b -> s_fmem (fst a) = Some m -> a_ctype (r_attrs (snd a)) = Some (Some CT_MULTI) ->
    simv parsed pf_like (parse_file_upload reg n2 mk a) (parse_file_upload reg n2 mk b).
  Proof.
    intros Hab Hfm Hct. destruct a as [st1 r1], b as [st2 r2]. pose proof Hab as (HS & HA & HP1 & HP2). pose proof HP1 as [Hp1 Hf1].
    assert (HR : rest_of r1 = rest_of r2) by apply HA. assert (HF : simo same_filedict (r_files r1) (r_files r2)) by apply HA.
    rewrite !upload_unf. cbn [fst snd] in *.
    assert (E : r_meta r1 = r_meta r2) by exact (f_equal r_meta HR). rewrite <- E.
    destruct (r_meta r1) as [mt|] eqn:Emt; [|now split]. destruct (m_headers mt) as [h|] eqn:Eh; [|now split].
    destruct (mp_init reg (header !"Content-Type" h) (header !"Content-Length" h)) as [[bd len]|e] eqn:EI; [|now split].
    destruct (init_length _ _ _ _ EI) as [EL HL]. change (len = announced h) in EL. specialize (Hf1 Hct mt h Emt Eh). rewrite <- EL in Hf1.
    cbn [fst snd]. assert (E3 : r_stream r1 = r_stream r2) by exact (f_equal r_stream HR). rewrite <- E3.
    assert (E4 : s_multi st2 = s_multi st1) by (symmetry; exact (f_equal s_multi (proj1 HS))). rewrite E4.
    assert (HQ : same_parse
      (mp_parse l0_rd l0_exh reg n2 mk (s_multi st1) (!"--" ++ pchars bd) (2 * l0_total (r_stream r1) + 4) (mp_chunk (s_handlers st1)) len (map new_handler (s_handlers st1)) (r_stream r1))
      (mp_parse l0_rd l0_exh reg n2 mk (s_multi st1) (!"--" ++ pchars bd) (2 * l0_total (r_stream r1) + 4) (mp_chunk (s_handlers st2)) len (map new_handler (s_handlers st2)) (r_stream r1))).
    { destruct HS as (_ & -> & ->). destruct (Z.eqb_spec len 0) as [->|Hn].
      - unfold mp_parse. cbn [Z.eqb]. destruct (querydict reg _ _ _) as [q|e]; (split; [|reflexivity]); [|reflexivity].
        split; [reflexivity|apply filedict_refl].
      - destruct (Hf1 ltac:(lia)) as [F1 F2]. rewrite (setup_chunk _ _ F1), (setup_chunk _ _ F2). eapply C128_same_partial; eassumption. }
    match type of HQ with same_parse ?x ?y => destruct x as [[[p1 f1]|e1] s1], y as [[[p2 f2]|e2] s2] end; destruct HQ as [HQ E5]; cbn [fst snd] in HQ, E5; try easy; subst s2.
    - destruct HQ as (-> & HQ). split; [split; [reflexivity|exact HQ]|]. split; [exact HS|]. split; [split; [exact (f_equal (set_stream s1) HR)|exact HF]|].
      split; [exact HP1|exact HP2].
    - split; [exact HQ|]. split; [exact HS|]. split; [split; [exact (f_equal (set_stream s1) HR)|exact HF]|].
      split; [exact HP1|exact HP2].
  Qed.

  Lemma p_body : prv parsed eq (body reg) (body reg).
  Proof.
    unfold body. apply p_req. intros r r' HR [H1 _] [H2 _]. rewrite H1, H2. cbn [orb]. now apply p_body1.
  Qed.
  Lemma p_post a b : near parsed a b -> s_fmem (fst a) = Some m -> simv parsed pf_like (parse_post reg n2 mk a) (parse_post reg n2 mk b).
  Proof.
    intros Hab Hfm. unfold parse_post. unfold mbind at 1, mreq at 1. cbn [fst snd].
    match goal with |- context [(mbind mreq ?f) b] => change ((mbind mreq f) b) with (f (snd b) b) end. cbv beta.
    assert (E : r_attrs (snd a) = r_attrs (snd b)) by exact (f_equal r_attrs (proj1 (proj1 (proj2 Hab)))). rewrite <- E.
    destruct (a_ctype (r_attrs (snd a))) as [c|] eqn:Ec; [|now split].
    assert (HU : forall V (x y : M (postv * dict (list ufile))), prv parsed V x y -> simv parsed V (x a) (y b)) by (intros V x y H; now apply H).
    destruct (match c with Some c0 => seqb c0 CT_MULTI | None => false end) eqn:Em.
    - assert (Ect : a_ctype (r_attrs (snd a)) = Some (Some CT_MULTI)).
      { rewrite Ec. destruct c as [c|]; [|discriminate]. f_equal. f_equal. now apply seqb_eq. }
      pose proof (p_upload a b Hab Hfm Ect) as HQ.
      destruct (parse_file_upload reg n2 mk a) as [[[p1 f1]|e1] a1], (parse_file_upload reg n2 mk b) as [[[p2 f2]|e2] b1]; destruct HQ as [HQ HN]; cbn [fst snd] in HQ; try easy.
      + split; [exact HQ|]. cbn [snd] in HN. destruct HN as (HS & [HR HF] & HP & HP'). split; [exact HS|]. split; [|split; [exact HP|exact HP']].
        split; [exact (f_equal (set_hasfiles true) HR)|exact HF].
      + subst e2. assert (HK : simv parsed pf_like ((let! _ := empty_post reg in mraise MultiPartParserError) a1) ((let! _ := empty_post reg in mraise MultiPartParserError) b1)).
        { refine (p_bind parsed eq pf_like _ _ _ _ _ _ a1 b1 HN); [now apply p_empty|]. intros; apply p_raise. }
        destruct e1; try (split; [reflexivity|exact HN]). exact HK.
    - destruct (match c with Some c0 => seqb c0 CT_FORM | None => false end).
      + apply HU. apply (p_bind parsed eq); [apply p_body|]. intros x y <-. apply (p_bind parsed eq); [now apply p_new_query|]. intros q q' <-.
        apply (p_bind parsed eq); [now apply p_upd|]. intros _ _ _. apply p_ret. split; [reflexivity|apply filedict_refl].
      + apply HU. apply (p_bind parsed eq); [now apply p_empty|]. intros q q' <-. apply p_ret. split; [reflexivity|apply filedict_refl].
  Qed.

  Lemma p_request_body a b : near (fun r => r_hp r = true -> fits r) a b -> s_fmem (fst a) = Some m ->
    simv (fun _ => True) eq (parse_request_body reg n2 mk a) (parse_request_body reg n2 mk b).
  Proof.
    intros (HS & HA & HP1 & HP2) Hfm. assert (HN : near (fun _ => True) a b) by (split; [exact HS|split; [exact HA|split; exact I]]).
    unfold parse_request_body.
    match goal with |- simv _ _ ((mbind mreq ?f) a) _ => change ((mbind mreq f) a) with (f (snd a) a); change ((mbind mreq f) b) with (f (snd b) b) end. cbv beta.
    assert (E1 : r_bp (snd a) = r_bp (snd b)) by exact (f_equal r_bp (proj1 HA)). rewrite <- E1. destruct (r_bp (snd a)); [now split|].
    assert (E2 : r_hp (snd a) = r_hp (snd b)) by exact (f_equal r_hp (proj1 HA)). rewrite <- E2.
    match goal with |- simv _ _ ((mbind msett ?f) a) _ => change ((mbind msett f) a) with (f (fst a) a) end.
    match goal with |- simv _ _ _ ((mbind msett ?f) b) => change ((mbind msett f) b) with (f (fst b) b) end. cbv beta.
    match goal with |- simv _ _ ((mbind (mupd ?u) ?f) a) _ => change ((mbind (mupd u) f) a) with (f tt (fst a, u (snd a))) end.
    match goal with |- simv _ _ _ ((mbind (mupd ?u) ?f) b) => change ((mbind (mupd u) f) b) with (f tt (fst b, u (snd b))) end. cbv beta.
    set (a1 := (fst a, set_handlers (Some (s_handlers (fst a))) (snd a))). set (b1 := (fst b, set_handlers (Some (s_handlers (fst b))) (snd b))).
    assert (HA1 : alike_request (snd a1) (snd b1)) by exact HA.
    destruct (r_hp (snd a)) eqn:Ehp; cbn [negb].
    2: { refine (p_bind (fun _ => True) eq eq _ _ _ _ _ _ a1 b1 _); [now apply p_empty| |].
         - intros; apply p_raise.
         - split; [exact HS|split; [exact HA1|split; exact I]]. }
    assert (HN1 : near parsed a1 b1).
    { split; [exact HS|]. split; [exact HA1|]. split; (split; [exact Ehp || now symmetry|]); [exact (HP1 eq_refl)|exact (HP2 (eq_sym E2))]. }
    assert (Hfm1 : s_fmem (fst a1) = Some m) by exact Hfm. clearbody a1 b1. clear - HN1 Hfm1 Hmk Hm.
    assert (HD : forall x y, simv parsed eq x y -> simv (fun _ => True) eq (A := unit) x y).
    { intros x y [H1 (H2 & H3 & _)]. split; [exact H1|]. split; [exact H2|]. split; [exact H3|split; exact I]. }
    unfold mbind at 1. match goal with |- simv _ _ _ ((mbind ?u ?f) b1) => change ((mbind u f) b1) with (match u b1 with (Ok x, w1) => f x w1 | (Err e, w1) => (Err e, w1) end) end.
    pose proof (p_stream parsed (l0_read (Some 1%Z)) ltac:(easy) a1 b1 HN1) as [H1 H2].
    assert (Hfm2 : s_fmem (fst (snd (mstream (l0_read (Some 1%Z)) a1))) = Some m).
    { unfold mstream. destruct (l0_read _ _). exact Hfm1. }
    destruct (mstream (l0_read (Some 1%Z)) a1) as [[d|e] a2], (mstream (l0_read (Some 1%Z)) b1) as [[d'|e'] b2]; cbn [fst snd] in *; try easy.
    2: { subst e'. apply HD. now split. }
    subst d'. destruct d as [|c d].
    { apply HD. refine (p_bind parsed eq eq _ _ _ _ _ _ a2 b2 H2); [now apply p_empty|]. intros; now apply p_ret. }
    unfold mbind at 1. match goal with |- simv _ _ _ ((mbind ?u ?f) b2) => change ((mbind u f) b2) with (match u b2 with (Ok x, w1) => f x w1 | (Err e, w1) => (Err e, w1) end) end.
    pose proof (p_stream parsed (ls_unget (c :: d)) ltac:(easy) a2 b2 H2) as [H3 H4].
    assert (Hfm3 : s_fmem (fst (snd (mstream (ls_unget (c :: d)) a2))) = Some m).
    { unfold mstream. destruct (ls_unget _ _). exact Hfm2. }
    destruct (mstream (ls_unget (c :: d)) a2) as [[u|e] a3], (mstream (ls_unget (c :: d)) b2) as [[u'|e'] b3]; cbn [fst snd] in *; try easy.
    2: { subst e'. apply HD. now split. }
    unfold mbind at 1. match goal with |- simv _ _ _ ((mbind ?u ?f) b3) => change ((mbind u f) b3) with (match u b3 with (Ok x, w1) => f x w1 | (Err e, w1) => (Err e, w1) end) end.
    pose proof (p_post a3 b3 H4 Hfm3) as [H5 H6].
    destruct (parse_post reg n2 mk a3) as [[pf|e] a4], (parse_post reg n2 mk b3) as [[pf'|e'] b4]; cbn [fst snd] in *; try easy.
    2: { subst e'. apply HD. now split. }
    assert (HT : prv parsed eq
      (let! b := body reg in let! st := msett in mlift (decode_text reg (s_charset st) b))
      (let! b := body reg in let! st := msett in mlift (decode_text reg (s_charset st) b))).
    { apply p_eq; [apply p_body|]. intros x. apply p_sett. intros s t HS. rewrite (setts_charset _ _ HS). apply p_lift. }
    specialize (HT a4 b4 H6). destruct HT as [H7 H8].
    assert (HB : forall w (p : postv * dict (list ufile)), (let! b := body reg in let! st := msett in let! t := mlift (decode_text reg (s_charset st) b) in
        mupd (fun r => set_post (Some (fst p)) (Some (snd p)) (set_flags (r_hp r) true (set_body (Some (PU t)) r)))) w =
      match (let! b := body reg in let! st := msett in mlift (decode_text reg (s_charset st) b)) w with
      | (Ok t, w1) => (Ok tt, (fst w1, set_post (Some (fst p)) (Some (snd p)) (set_flags (r_hp (snd w1)) true (set_body (Some (PU t)) (snd w1)))))
      | (Err e, w1) => (Err e, w1)
      end).
    { intros w p. unfold mbind, msett, mlift, mupd. destruct (body reg w) as [[x|e] w1]; [|reflexivity]. now destruct (decode_text reg (s_charset (fst w1)) x). }
    rewrite !HB. destruct ((let! b := body reg in let! st := msett in mlift (decode_text reg (s_charset st) b)) a4) as [[t|e] a5],
      ((let! b := body reg in let! st := msett in mlift (decode_text reg (s_charset st) b)) b4) as [[t'|e'] b5]; cbn [fst snd] in *; try easy.
    2: { subst e'. apply HD. now split. }
    subst t'. destruct H8 as (HS & [HR HF] & _). split; [reflexivity|]. split; [exact HS|]. split; [|split; exact I].
    destruct pf as [p f], pf' as [p' f']. destruct H5 as [E5 H5]. cbn [fst snd] in E5, H5. subst p'. cbn [fst snd]. split; [|exact H5].
    assert (E6 : r_hp (snd a5) = r_hp (snd b5)) by exact (f_equal r_hp HR).
    exact (f_equal (fun r => set_post (Some p) None (set_flags (r_hp r) true (set_body (Some (PU t)) r))) HR).
  Qed.
  End Body.
End Choice.

(** parsing the header leaves FILE_UPLOAD_MAX_MEMORY_SIZE alone *)
Definition keeps {A} (m : M A) : Prop := forall w, s_fmem (fst (snd (m w))) = s_fmem (fst w).
Lemma k_bind {A B} (m : M A) (f : A -> M B) : keeps m -> (forall x, keeps (f x)) -> keeps (mbind m f).
Proof. intros H1 H2 w. unfold mbind. specialize (H1 w). destruct (m w) as [[x|e] w1]; cbn [fst snd] in H1; [now rewrite H2|exact H1]. Qed.
Lemma header_fmem reg : keeps (parse_request_header reg).
Proof.
  unfold parse_request_header. apply k_bind; [easy|]. intros r. destruct (r_hp r); [easy|]. apply k_bind; [easy|]. intros st. apply k_bind.
  { intros w. now destruct (frame _ _) as [[x b] s]. }
  intros hd. apply k_bind; [easy|]. intros lh. apply k_bind; [easy|]. intros l. unfold populate. apply k_bind; [easy|]. intros [host hs].
  destruct (split_domain_port host). apply k_bind; [easy|]. intros _. apply k_bind.
  { destruct (header _ _); [|easy]. apply k_bind; easy. }
  intros ch. apply k_bind; [easy|]. intros _. apply k_bind; [now destruct (snd ch)|]. intros _. apply k_bind; [easy|]. intros r'.
  destruct (r_meta r'); [|easy]. apply k_bind; [easy|]. intros _. apply k_bind; [|easy]. destruct (nonempty _); easy.
Qed.

(** ** C128 *)
(** parse() with two lists of handlers that fit the request: the same exception, or requests that differ only in
    where the content of the files is kept *)
Theorem C128_requests_partial :
  forall reg n2 mk st m ks1 ks2 r, can_create mk -> s_fmem st = Some m -> (0 <= m)%Z ->
  (forall st1 r1 mt h, parse_request_header reg (st, r) = (Ok tt, (st1, r1)) -> a_ctype (r_attrs r1) = Some (Some CT_MULTI) ->
     r_meta r1 = Some mt -> m_headers mt = Some h -> (0 < announced h)%Z -> setup (announced h) m ks1 /\ setup (announced h) m ks2) ->
  let a := parse reg n2 mk (with_handlers ks1 st, r) in
  let b := parse reg n2 mk (with_handlers ks2 st, r) in
  fst a = fst b /\ alike_request (snd (snd a)) (snd (snd b)) /\
  with_handlers [] (fst (snd a)) = with_handlers [] (fst (snd b)).
Proof.
  intros reg n2 mk st m ks1 ks2 r Hmk Hf Hm HS a b.
  assert (HA : alike_request r r) by (split; [reflexivity|apply files_refl]).
  assert (H0 : forall ka kb, near ka kb (fun _ => True) (with_handlers ka st, r) (with_handlers kb st, r)).
  { intros ka kb. split; [repeat split|]. split; [exact HA|split; exact I]. }
  assert (Hst : with_handlers (s_handlers st) st = st) by now destruct st.
  unfold parse in a, b. unfold mbind in a, b.
  pose proof (p_header ks1 ks2 reg _ _ (H0 ks1 ks2)) as [X1 X2].
  pose proof (p_header (s_handlers st) ks1 reg _ _ (H0 (s_handlers st) ks1)) as [Y1 Y2]. rewrite Hst in Y1, Y2.
  pose proof (p_header (s_handlers st) ks2 reg _ _ (H0 (s_handlers st) ks2)) as [Z1 Z2]. rewrite Hst in Z1, Z2.
  destruct (parse_request_header reg (st, r)) as [x0 [st0 r0]] eqn:E0.
  destruct (parse_request_header reg (with_handlers ks1 st, r)) as [x1 w1] eqn:E1.
  destruct (parse_request_header reg (with_handlers ks2 st, r)) as [x2 w2] eqn:E2.
  assert (HK : forall c c' : res unit * world, simv ks1 ks2 (fun _ => True) eq c c' -> fst c = fst c' /\ alike_request (snd (snd c)) (snd (snd c')) /\
     with_handlers [] (fst (snd c)) = with_handlers [] (fst (snd c'))).
  { intros c c' (H1 & H2 & H3 & _). split; [|split; [exact H3|apply H2]]. destruct (fst c), (fst c'); try easy; now subst. }
  cbn [fst snd] in *. destruct x1 as [[]|e1], x2 as [[]|e2]; try easy.
  2: { subst e2. apply HK. now split. }
  destruct x0 as [[]|e0]; [|easy]. apply HK. apply (p_request_body ks1 ks2 reg n2 mk Hmk m Hm).
  - destruct X2 as (S1 & A1 & _). split; [exact S1|]. split; [exact A1|].
    assert (HQ : forall w : world, alike_request r0 (snd w) -> r_hp (snd w) = true -> fits ks1 ks2 m (snd w)).
    { intros w [HR _] _ Hc mt h Hmt Hh Hp. apply (HS st0 r0 mt h eq_refl); try assumption.
      - rewrite <- Hc. exact (f_equal (fun r => a_ctype (r_attrs r)) HR).
      - rewrite <- Hmt. exact (f_equal r_meta HR). }
    split; apply HQ; [apply Y2|apply Z2].
  - pose proof (header_fmem reg (with_handlers ks1 st, r)) as H. rewrite E1 in H. cbn [fst snd] in H. now rewrite H.
Qed.
Print Assumptions C128_requests_partial.

(** ** A multipart request as it is sent *)
From Verif Require Import HeadFacts HeaderSpec BoundarySpec BodySpec FormFacts BodyFacts MultipartSpec MultipartFacts MultipartDet MultipartSem PropsBody.
From Verif Require Import ItemFacts PropsSetup PropsRequest PropsEnd.
Lemma init_handlers reg ks st s : request_init reg (with_handlers ks st) s = request_init reg st s.
Proof.
  unfold request_init, re_init, new_query, mbind, msett, mlift, mupd. cbn [fst snd]. change (s_query (with_handlers ks st)) with (s_query st).
  destruct (querydict reg (Some (s_query st)) None true); reflexivity.
Qed.
(** the request parsed with its own handlers and with the default one *)
Lemma wire_choice reg n2 mk st s r w st1 r1 ps b clen z m :
  request_init reg st s = Ok r -> delivers s w -> max_ok (s_hdr st) ->
  parse_request_header reg (st, r) = (Ok tt, (st1, r1)) -> multipart_wire w ps b clen z ->
  setup z m (s_handlers st) -> settings_ok reg (s_multi st1) m -> can_create mk ->
  let a := parse reg n2 mk (st, r) in let d := parse reg n2 mk (with_handlers [KConv] st, r) in
  (fst a = fst d /\ alike_request (snd (snd a)) (snd (snd d)) /\ with_handlers [] (fst (snd a)) = with_handlers [] (fst (snd d))) /\
  exists st1' r1', parse_request_header reg (with_handlers [KConv] st, r) = (Ok tt, (st1', r1')) /\ with_handlers [] st1' = with_handlers [] st1.
Proof.
  intros Hi Hd Hm HP HW HS Hset Hmk a d.
  pose proof (ready_set _ _ _ _ _ (header_ready _ _ _ _ _ _ _ Hi Hd Hm HP)) as (_ & _ & Hfm & _).
  destruct (multi_known _ _ _ _ _ _ _ _ _ _ _ Hi Hd Hm HP HW) as (Hct & q & h & Hme & Hin).
  destruct (init_length reg _ _ _ _ Hin) as [EL _].
  assert (Hst : with_handlers (s_handlers st) st = st) by now destruct st.
  split.
  - subst a d. rewrite <- Hst at 1 3 5. apply (C128_requests_partial reg n2 mk st m).
    + exact Hmk.
    + rewrite <- Hfm. apply Hset.
    + apply Hset.
    + intros st2 r2 mt h2 E _ Em Eh _. rewrite HP in E. injection E as <- <-. rewrite Hme in Em. injection Em as <-. injection Eh as <-.
      change (z = announced h) in EL. rewrite <- EL. split; [exact HS|]. split; [now constructor|]. intros [|? [|? ?]] ? ? Ek; try discriminate. now injection Ek.
  - assert (H0 : near (s_handlers st) [KConv] (fun _ => True) (st, r) (with_handlers [KConv] st, r)).
    { split; [split; [reflexivity|split; reflexivity]|]. split; [split; [reflexivity|apply files_refl]|split; exact I]. }
    pose proof (p_header (s_handlers st) [KConv] reg _ _ H0) as [X1 (X2 & _)]. rewrite HP in X1, X2.
    destruct (parse_request_header reg (with_handlers [KConv] st, r)) as [[[]|e] [st1' r1']]; cbn [fst snd] in X1, X2; [|easy].
    exists st1', r1'. split; [reflexivity|]. symmetry. apply X2.
Qed.
(** a form sent as a multipart request comes out in POST and FILES with every list of handlers that fits it *)
Theorem C79_any_handlers :
  forall reg n2 mk st s r w st1 r1 ps b clen z m d fs,
    request_init reg st s = Ok r -> delivers s w -> max_ok (s_hdr st) ->
    parse_request_header reg (st, r) = (Ok tt, (st1, r1)) -> multipart_wire w ps b clen z -> (0 < z)%Z ->
    setup z m (s_handlers st) -> settings_ok reg (s_multi st1) m -> s_dmem st = Some d -> (0 <= d)%Z -> can_create mk ->
    w_body w = render_form (!"--" ++ b) fs -> Forall (part_ok (!"--" ++ b)) fs -> within (s_multi st1) fs ->
    exists st2 r2 post files, parse reg n2 mk (st, r) = (Ok tt, (st2, r2)) /\ r_post r2 = Some (PForm post) /\ r_files r2 = Some files /\
      (forall k, Forall2 entry_for (getl k post) (fields_named k fs)) /\
      (forall k, Forall2 file_for (getl k files) (files_named k fs)).
Proof.
  intros reg n2 mk st s r w st1 r1 ps b clen z m d fs Hi Hd Hm HP HW Hz HS Hset Hdm Hd0 Hmk Hb HF Hin.
  destruct (wire_choice reg n2 mk st s r w st1 r1 ps b clen z m Hi Hd Hm HP HW HS Hset Hmk) as [(E1 & [E2 E3] & _) (st1' & r1' & HP' & Est)].
  assert (Ems : s_multi st1' = s_multi st1) by exact (f_equal s_multi Est).
  destruct (C79_multipart_request reg n2 mk (with_handlers [KConv] st) s r w st1' r1' ps b clen z m d fs) as (r2 & post & files & Hr & Hp & Hf & H1 & H2);
    try assumption; try reflexivity; try (now rewrite Ems); try (now rewrite init_handlers).
  destruct (parse reg n2 mk (st, r)) as [x [st3 r3]]. rewrite Hr in E1, E2, E3. cbn [fst snd] in E1, E2, E3. subst x.
  rewrite Hf in E3. destruct (r_files r3) as [files3|] eqn:Ef3; [|easy]. exists st3, r3, post, files3. split; [reflexivity|].
  split; [rewrite <- Hp; exact (f_equal r_post E2)|]. split; [exact Ef3|]. split; [exact H1|].
  intros k. destruct E3 as [_ E3]. specialize (E3 k). specialize (H2 k). revert H2. generalize (files_named k fs). induction E3 as [|f g l l' Hfg _ IH]; intros ps' H2;
    inversion H2; subst; constructor; [|now apply IH].
  unfold same_file in Hfg. unfold file_for in *. destruct Hfg as (-> & -> & -> & -> & -> & -> & ->). assumption.
Qed.
Print Assumptions C79_any_handlers.
(** ... and so does the result of MultiPartParser, whatever the body holds *)
Theorem C80_any_handlers :
  forall reg n2 mk st s r w st1 r1 ps b clen z m d pre es epi src csize len fuel,
    request_init reg st s = Ok r -> delivers s w -> max_ok (s_hdr st) ->
    parse_request_header reg (st, r) = (Ok tt, (st1, r1)) -> multipart_wire w ps b clen z -> (0 < z)%Z ->
    setup z m (s_handlers st) -> settings_ok reg (s_multi st1) m -> s_dmem st = Some d -> (0 <= d)%Z -> can_create mk ->
    w_body w = render_body (!"--" ++ b) pre es epi ->
    pre_ok (!"--" ++ b) pre -> Forall (piece_ok (!"--" ++ b)) es -> junk_ok (!"--" ++ b) (!"--" ++ epi) ->
    arrives src (w_body w) csize len fuel ->
    match fst (parse_src reg n2 mk (s_multi st1) (!"--" ++ b) fuel csize len default_handler src) with
    | Err e => fst (parse reg n2 mk (st, r)) = Err e
    | Ok (post, files) => exists st2 r2 files2, parse reg n2 mk (st, r) = (Ok tt, (st2, r2)) /\
        r_post r2 = Some (PForm post) /\ r_files r2 = Some files2 /\ same_filedict files2 files /\ r_bp r2 = true
    end.
Proof.
  intros reg n2 mk st s r w st1 r1 ps b clen z m d pre es epi src csize len fuel Hi Hd Hm HP HW Hz HS Hset Hdm Hd0 Hmk Hb Hpre HF Hepi HA.
  destruct (wire_choice reg n2 mk st s r w st1 r1 ps b clen z m Hi Hd Hm HP HW HS Hset Hmk) as [(E1 & [E2 E3] & _) (st1' & r1' & HP' & Est)].
  assert (Ems : s_multi st1' = s_multi st1) by exact (f_equal s_multi Est).
  rewrite <- (init_handlers reg [KConv]) in Hi. pose proof (C80_same_as_parser reg n2 mk (with_handlers [KConv] st) s r w st1' r1' ps b clen z m d pre es epi src csize len fuel Hi Hd Hm HP' HW Hz eq_refl) as H.
  rewrite Ems in H. specialize (H Hset Hdm Hd0 Hmk Hb Hpre HF Hepi HA).
  destruct (fst (parse_src _ _ _ _ _ _ _ _ _ _)) as [[post files]|e]; [|congruence].
  destruct H as (r2 & Hr & Hp & Hf & Hbp). destruct (parse reg n2 mk (st, r)) as [x [st3 r3]]. rewrite Hr in E1, E2, E3. cbn [fst snd] in E1, E2, E3. subst x.
  rewrite Hf in E3. destruct (r_files r3) as [files3|] eqn:Ef3; [|easy]. exists st3, r3, files3. split; [reflexivity|].
  split; [rewrite <- Hp; exact (f_equal r_post E2)|]. split; [exact Ef3|]. split; [exact E3|]. rewrite <- Hbp. exact (f_equal r_bp E2).
Qed.
Print Assumptions C80_any_handlers.

(** the request of C79 with MemoryFileUploadHandler and TemporaryFileUploadHandler, of which 400 bytes were announced *)
Definition exm_both : sett := with_handlers [KMem; KTemp] (exm_set (Some 1000%Z)).
Definition on_disk (f : ufile) : bool := match uf_kind f with InMemory _ => false | Temporary _ => true end.
Example C128_requests_case :
  setup 400 100 (s_handlers exm_both) /\
  match run (parse ex_reg no_cp ok_temp) exm_both exm_src with
  | (Ok tt, (_, r2)) => match r_post r2, r_files r2 with
                        | Some (PForm post), Some files => map fst post = [!"a b"] /\ map on_disk (getl !"f" files) = [true; true]
                        | _, _ => False
                        end
  | _ => False
  end.
Proof.
  split.
  - split; [apply Exists_cons_tl; now constructor|]. intros [|? [|? [|? ?]]] ? ? E; try discriminate; injection E as <- <-; cbn; try lia; easy.
  - vm_compute. split; reflexivity.
Qed.
