(** * Two request objects whose streams hold the same bytes cannot be told apart by parsing *)
From Coq Require Import ZifyBool ZifyN ZifyNat.
From Verif Require Import Py Spec HeadSpec PyFacts PyDict StreamModel StreamSpec StreamFacts StreamCalm CodecModel PercentModel
  QueryModel HeadModel HeadFacts UrlFacts HeaderModel BoundaryModel UploadModel MultipartModel ReaderSim
  RequestModel RequestSpec HeaderRun BodyRun ParseRun RequestMulti.

Local Arguments querydict : simpl never.
Local Arguments decode : simpl never.

(** ** Streams *)
Definition held (k : nat) (s t : l0) : Prop := exists b, l0at k s b /\ l0at k t b.
Lemma held_mono k k' s t : k <= k' -> held k s t -> held k' s t.
Proof. intros H (b & H1 & H2). exists b. split; eapply l0at_mono; eassumption. Qed.
Lemma held_total k s t : held k s t -> l0_total s = l0_total t.
Proof. intros (b & H1 & H2). now rewrite (l0at_total k s b H1), (l0at_total k t b H2). Qed.
Lemma held_read k n s t : 1 <= k <= 40 -> held k s t -> sim2 (held k) (l0_read n s) (l0_read n t).
Proof.
  intros Hk (b & H1 & H2). destruct n as [n|].
  - destruct (Z.ltb_spec n 0).
    + unfold l0_read. rewrite !read_neg by lia. split; [reflexivity|now exists b].
    + destruct (l0_read_spec k s b (Z.to_nat n) H1 Hk) as (s1 & E1 & A1). destruct (l0_read_spec k t b (Z.to_nat n) H2 Hk) as (t1 & E2 & A2).
      rewrite Z2Nat.id in E1, E2 by lia. rewrite E1, E2. split; [reflexivity|]. now exists (skipn (Z.to_nat n) b).
  - destruct (l0_read_all_spec k s b H1) as (s1 & E1 & A1). destruct (l0_read_all_spec k t b H2) as (t1 & E2 & A2).
    rewrite E1, E2. split; [reflexivity|]. now exists [].
Qed.
Lemma held_rd k n s t : 1 <= k <= 40 -> held k s t -> sim2 (held k) (l0_rd n s) (l0_rd n t).
Proof. intros Hk H. now apply held_read. Qed.
Lemma held_exh k s t : held k s t -> sim2 (held k) (l0_exh s) (l0_exh t).
Proof.
  intros (b & H1 & H2). destruct (l0_drain k s b H1) as (s1 & E1 & A1). destruct (l0_drain k t b H2) as (t1 & E2 & A2).
  rewrite E1, E2. split; [reflexivity|]. now exists [].
Qed.
Lemma held_unget k c s t : k <= 38 -> held k s t -> sim2 (held (k + 2)) (ls_unget c s) (ls_unget c t).
Proof.
  intros Hk (b & H1 & H2). destruct (l0_unget_spec k s b c H1 ltac:(lia)) as (s1 & E1 & A1).
  destruct (l0_unget_spec k t b c H2 ltac:(lia)) as (t1 & E2 & A2). rewrite E1, E2. split; [reflexivity|]. now exists (c ++ b).
Qed.

(** ** Objects *)
Section Twin.
  Context (H : headers -> headers -> Prop).
  Definition meta_like (a b : option meta) : Prop :=
    match a, b with
    | Some m, Some m' => m_query m = m_query m' /\ simo H (m_headers m) (m_headers m')
    | None, None => True
    | _, _ => False
    end.
  (** [mu]: whether the request may be a multipart one *)
  Record twin (mu : bool) (k : nat) (r r' : request) : Prop := {
    tw_stream : held k (r_stream r) (r_stream r');
    tw_hp : r_hp r = true; tw_hp' : r_hp r' = true;
    tw_bp : r_bp r = r_bp r';
    tw_get : r_get r = r_get r';
    tw_post : r_post r = r_post r';
    tw_files : r_files r = r_files r';
    tw_body : r_body r = r_body r';
    tw_hf : r_hasfiles r = r_hasfiles r';
    tw_hs : r_handlers r = r_handlers r';
    tw_attrs : r_attrs r = r_attrs r';
    tw_meta : meta_like (r_meta r) (r_meta r');
    tw_ct : mu = false -> a_ctype (r_attrs r) <> Some (Some CT_MULTI) }.
  (** [ks]: the handlers in the settings, which parsing does not change *)
  Context (mu : bool) (ks : list hkind).
  Definition same_st (a b : sett) : Prop := a = b /\ s_handlers a = ks.
  Definition tw (k : nat) (a b : world) : Prop := same_st (fst a) (fst b) /\ twin mu k (snd a) (snd b).
  Definition like_init (x y : res (pystr * Z)) : Prop :=
    match x, y with
    | Ok (b, z), Ok (b', z') => b = b' /\ (z = z' \/ (z <> 0%Z /\ z' <> 0%Z /\ ~ In KMem ks))
    | Err e, Err e' => e = e'
    | _, _ => False
    end.
  Lemma like_init_eq x y : x = y -> like_init x y.
  Proof. intros <-. destruct x as [[b z]|e]; cbn; auto. Qed.
  Lemma like_parse {R} (rd : nat -> R -> res str * R) exh reg n2 mk st D fuel c z z' r :
    z = z' \/ (z <> 0%Z /\ z' <> 0%Z /\ ~ In KMem ks) ->
    mp_parse rd exh reg n2 mk st D fuel c z (map new_handler ks) r = mp_parse rd exh reg n2 mk st D fuel c z' (map new_handler ks) r.
  Proof.
    intros [->|(H1 & H2 & H3)]; [reflexivity|]. unfold mp_parse. rewrite (proj2 (Z.eqb_neq z 0) H1), (proj2 (Z.eqb_neq z' 0) H2).
    replace (map (h_raw_input (ms_fmem st) z') (map new_handler ks)) with (map (h_raw_input (ms_fmem st) z) (map new_handler ks)); [reflexivity|].
    rewrite !map_map. apply map_ext_in. intros [| |] Hin; [contradiction|reflexivity|reflexivity].
  Qed.
  Definition pairs (k k' : nat) {A} (m : M A) : Prop := forall a b, tw k a b -> sim2 (tw k') (m a) (m b).

  Lemma twin_mono k k' r r' : k <= k' -> twin mu k r r' -> twin mu k' r r'.
  Proof. intros Hk []. constructor; try assumption. eapply held_mono; eassumption. Qed.

  Section Fix.
  Context (k : nat) (Hk : 1 <= k <= 40).
  Notation tk := (pairs k k).
  Lemma tk_ret {A} (x : A) : tk (mret x). Proof. now intros a b. Qed.
  Lemma tk_raise {A} e : tk (@mraise A e). Proof. now intros a b. Qed.
  Lemma tk_lift {A} (x : res A) : tk (mlift x). Proof. now intros a b. Qed.
  Lemma tk_sett : tk msett. Proof. intros a b Hab. split; [cbn; now rewrite (proj1 (proj1 Hab))|exact Hab]. Qed.
  Lemma tk_bind {A B} (m : M A) (f : A -> M B) : tk m -> (forall x, tk (f x)) -> tk (mbind m f).
  Proof.
    intros Hm Hf a b Hab. unfold mbind. specialize (Hm a b Hab).
    destruct (m a) as [[x|e] a1], (m b) as [[y|e'] b1]; destruct Hm as [E H1]; cbn [fst snd] in E, H1; try discriminate E; injection E as <-;
      [now apply Hf|now split].
  Qed.
  Lemma tk_settings {B} (f : sett -> M B) : (forall st, s_handlers st = ks -> tk (f st)) -> tk (mbind msett f).
  Proof.
    intros Hf a b Hab. unfold mbind, msett. destruct (proj1 Hab) as [E1 E2]. rewrite <- E1. now apply Hf.
  Qed.
  Lemma tk_req {B} (f : request -> M B) : (forall a b, tw k a b -> sim2 (tw k) (f (snd a) a) (f (snd b) b)) -> tk (mbind mreq f).
  Proof. intros Hf a b Hab. exact (Hf a b Hab). Qed.
  Lemma tk_upd f : (forall r r', twin mu k r r' -> twin mu k (f r) (f r')) -> tk (mupd f).
  Proof. intros Hf a b [H1 H2]. split; [reflexivity|]. split; [exact H1|]. now apply Hf. Qed.
  Lemma tw_stream_of a b s t : tw k a b -> held k s t -> tw k (fst a, set_stream s (snd a)) (fst b, set_stream t (snd b)).
  Proof. intros [H1 []] Hs. split; [exact H1|]. now constructor. Qed.
  Lemma tk_stream {A} (f : l0 -> res A * l0) : (forall s t, held k s t -> sim2 (held k) (f s) (f t)) -> tk (mstream f).
  Proof.
    intros Hf a b Hab. unfold mstream. specialize (Hf _ _ (tw_stream _ _ _ _ (proj2 Hab))).
    destruct (f (r_stream (snd a))) as [x s], (f (r_stream (snd b))) as [y t]. destruct Hf as [E Hs]. cbn [fst snd] in E, Hs. subst y.
    split; [reflexivity|]. now apply tw_stream_of.
  Qed.
  Ltac upd := apply tk_upd; intros [? ? ? ? ? ? ? ? ? ? ?] [? ? ? ? ? ? ? ? ? ? ?] []; cbn in *; subst; constructor; cbn; auto; congruence.

  Context (reg : registry) (name2cp : str -> option N) (mk_temp : str -> res unit).
  Lemma tk_query q mut : tk (new_query reg q mut).
  Proof. apply tk_bind; [apply tk_sett|intros; apply tk_lift]. Qed.
  Lemma tk_read n : tk (m_read n).
  Proof.
    apply tk_stream. intros s t Hs. pose proof (held_read k n s t Hk Hs) as HR.
    destruct (l0_read n s) as [[x|e] s1], (l0_read n t) as [[y|e'] t1]; destruct HR as [E HR]; cbn [fst snd] in E, HR; try discriminate E; injection E as <-.
    - now split.
    - destruct e; now split.
  Qed.
  Lemma tk_loop : forall fuel max size chunk acc, tk (body_loop fuel max size chunk acc).
  Proof.
    induction fuel as [|f IH]; intros; cbn [body_loop]; [apply tk_raise|].
    destruct (within_max size max && nonempty chunk); [|apply tk_ret]. apply tk_bind; [apply tk_read|intros; apply IH].
  Qed.
  Lemma tk_read_body : tk read_body.
  Proof.
    unfold read_body. apply tk_bind; [apply tk_sett|]. intros st. apply tk_req. intros a b Hab.
    rewrite (held_total k _ _ (tw_stream _ _ _ _ (proj2 Hab))). set (n := l0_total _). clearbody n. revert a b Hab.
    match goal with |- forall a b, _ -> sim2 _ (?m a) _ => change (tk m) end.
    apply tk_bind; [apply tk_read|]. intros c. apply tk_bind; [apply tk_loop|]. intros x.
    destruct (within_max (snd x) (s_dmem st)); [|apply tk_raise]. apply tk_bind; [upd|intros; apply tk_ret].
  Qed.
  Lemma tk_body : tk (body reg).
  Proof.
    intros a b Hab. rewrite !body_hp by apply Hab. revert a b Hab. match goal with |- forall a b, _ -> sim2 _ (?m a) _ => change (tk m) end.
    unfold body1. apply tk_req. intros a b Hab. pose proof (proj2 Hab) as T.
    rewrite <- (tw_bp _ _ _ _ T), <- (tw_attrs _ _ _ _ T), <- (tw_body _ _ _ _ T), (tw_hp _ _ _ _ T), (tw_hp' _ _ _ _ T). clear T.
    destruct (r_bp (snd a) && _); [now apply tk_raise|]. destruct (r_body (snd a)); [now apply tk_ret|now apply tk_read_body].
  Qed.
  Lemma tk_empty : tk (empty_post reg).
  Proof. apply tk_bind; [apply tk_query|]. intros q. apply tk_bind; [upd|intros; apply tk_ret]. Qed.

  (** what the multipart parser takes from the headers; only MemoryFileUploadHandler looks at the number *)
  Context (HC : mu = true -> forall h h', H h h' ->
    like_init (mp_init reg (header !"Content-Type" h) (header !"Content-Length" h)) (mp_init reg (header !"Content-Type" h') (header !"Content-Length" h'))).
  Lemma tk_upload : mu = true -> tk (parse_file_upload reg name2cp mk_temp).
  Proof.
    intros Hmu. unfold parse_file_upload. apply tk_req. intros a b Hab. pose proof (tw_meta _ _ _ _ (proj2 Hab)) as Hm. unfold meta_like in Hm.
    destruct (r_meta (snd a)) as [m|], (r_meta (snd b)) as [m'|]; try easy.
    destruct Hm as [_ Hm]. destruct (m_headers m) as [h|], (m_headers m') as [h'|]; try easy.
    specialize (HC Hmu h h' Hm). unfold mbind at 1 4, msett. destruct (proj1 Hab) as [E1 E2]. rewrite <- E1, E2.
    destruct (mp_init reg (header !"Content-Type" h) (header !"Content-Length" h)) as [[bd len]|e],
      (mp_init reg (header !"Content-Type" h') (header !"Content-Length" h')) as [[bd' len']|e']; try easy.
    2:{ cbn in HC. subst e'. now split. }
    destruct HC as [<- HL]. set (st := fst a) in *. clearbody st. unfold mlift, mbind at 1 3. cbn [fst snd].
    match goal with |- sim2 _ (?m a) (?m' b) => enough (G : forall a b, tw k a b -> sim2 (tw k) (m a) (m b)) end.
    { specialize (G a b Hab). unfold mbind, mstream in *. rewrite <- (like_parse l0_rd l0_exh reg name2cp mk_temp (s_multi st) _ _ _ len len' (r_stream (snd b)) HL). exact G. }
    clear a b Hab E1 E2. match goal with |- forall a b, _ -> sim2 _ (?m a) _ => change (tk m) end.
    apply tk_bind; [|intros; apply tk_ret]. apply tk_stream. intros s t Hs.
    rewrite (held_total k s t Hs).
    apply (sim_parse (held k)); [intros; now apply held_rd|intros; now apply held_exh|exact Hs].
  Qed.
  Lemma tk_post : tk (parse_post reg name2cp mk_temp).
  Proof.
    unfold parse_post. apply tk_req. intros a b Hab. rewrite <- (tw_attrs _ _ _ _ (proj2 Hab)).
    destruct (a_ctype (r_attrs (snd a))) as [c|] eqn:Ec; [|now apply tk_raise].
    destruct (match c with Some c0 => seqb c0 CT_MULTI | None => false end) eqn:Em.
    - assert (Hmu : mu = true).
      { destruct mu eqn:E; [reflexivity|]. exfalso. apply (tw_ct _ _ _ _ (proj2 Hab) E). rewrite Ec.
        destruct c as [c|]; [|easy]. apply seqb_eq in Em. now subst c. }
      pose proof (tk_upload Hmu a b Hab) as HU.
      destruct (parse_file_upload reg name2cp mk_temp a) as [[x|e] a1], (parse_file_upload reg name2cp mk_temp b) as [[y|e'] b1];
        destruct HU as [E HU]; cbn [fst snd] in E, HU; try discriminate E; injection E as <-.
      + split; [reflexivity|]. destruct HU as [E1 []]. split; [exact E1|]. now constructor.
      + assert (G : tk (let! _ := empty_post reg in @mraise (postv * dict (list ufile)) MultiPartParserError))
          by (apply tk_bind; [apply tk_empty|intros; apply tk_raise]).
        destruct e; try (now split). now apply G.
    - destruct (match c with Some c0 => seqb c0 CT_FORM | None => false end); clear Ec; revert a b Hab;
        match goal with |- forall a b, _ -> sim2 _ (?m a) _ => change (tk m) end.
      + apply tk_bind; [apply tk_body|]. intros bd. apply tk_bind; [apply tk_query|]. intros q. apply tk_bind; [upd|intros; apply tk_ret].
      + apply tk_bind; [apply tk_empty|intros; apply tk_ret].
  Qed.
  Lemma tk_finish : tk (finish reg name2cp mk_temp).
  Proof.
    unfold finish. apply tk_bind; [apply tk_post|]. intros pf. apply tk_bind; [apply tk_body|]. intros bd.
    apply tk_bind; [apply tk_sett|]. intros st. apply tk_bind; [apply tk_lift|]. intros t. upd.
  Qed.
  End Fix.

  Context (reg : registry) (name2cp : str -> option N) (mk_temp : str -> res unit).
  Context (HC : mu = true -> forall h h', H h h' ->
    like_init (mp_init reg (header !"Content-Type" h) (header !"Content-Length" h)) (mp_init reg (header !"Content-Type" h') (header !"Content-Length" h'))).
  Theorem twin_parse_body k : 1 <= k <= 38 -> pairs k (k + 2) (parse_request_body reg name2cp mk_temp).
  Proof.
    intros Hk [st r] [st' r'] [[E K] T]. cbn [fst snd] in E, K, T. subst st'. destruct (r_bp r) eqn:Eb.
    - rewrite !parse_body_done by (rewrite <- ?(tw_bp _ _ _ _ T); exact Eb). split; [reflexivity|]. split; [split; [reflexivity|first [exact K|apply K2]]|]. cbn [snd]. eapply twin_mono; [|exact T]. lia.
    - rewrite !parse_body_eq by (try apply T; rewrite <- ?(tw_bp _ _ _ _ T); exact Eb).
      assert (T1 : forall s t, held (k + 2) s t -> tw (k + 2) (st, set_stream s (at_body st r)) (st, set_stream t (at_body st r'))).
      { intros s t Hs. split; [split; [reflexivity|exact K]|]. destruct T. now constructor. }
      pose proof (held_read k (Some 1%Z) _ _ ltac:(lia) (tw_stream _ _ _ _ T)) as HR.
      destruct (l0_read (Some 1%Z) (r_stream r)) as [[d|e] s1], (l0_read (Some 1%Z) (r_stream r')) as [[d'|e'] t1];
        destruct HR as [E HR]; cbn [fst snd] in E, HR; try discriminate E; injection E as <-.
      2:{ split; [reflexivity|]. apply T1. eapply held_mono; [|exact HR]. lia. }
      destruct d as [|c d].
      + pose proof (T1 s1 t1 ltac:(eapply held_mono; [|exact HR]; lia)) as T2.
        destruct (querydict reg (Some (s_query st)) None false); [|now split].
        split; [reflexivity|]. destruct T2 as [_ []]. split; [split; [reflexivity|exact K]|]. now constructor.
      + pose proof (held_unget k (c :: d) s1 t1 ltac:(lia) HR) as HU.
        destruct (ls_unget (c :: d) s1) as [[u|e] s2], (ls_unget (c :: d) t1) as [[u'|e'] t2]; destruct HU as [E HU]; cbn [fst snd] in E, HU; try discriminate E.
        * exact (tk_finish (k + 2) ltac:(lia) reg name2cp mk_temp HC _ _ (T1 s2 t2 HU)).
        * injection E as <-. split; [reflexivity|]. now apply T1.
  Qed.

  (** ** The second half of parse_request_header *)
  Definition heads_like (l : reqline) (hs hs' : headers) : Prop :=
    match pick_host l hs, pick_host l hs' with
    | Ok (host, h), Ok (host', h') => host = host' /\ H h h' /\ ctype_of reg h = ctype_of reg h' /\
        (mu = false -> forall c ch, ctype_of reg h = Ok (c, ch) -> c <> Some CT_MULTI)
    | Err e, Err e' => e = e'
    | _, _ => False
    end.
  Theorem twin_populate k l hs hs' a b : heads_like l hs hs' -> tw k a b ->
    (mu = false -> a_ctype (r_attrs (snd a)) = Some None) ->
    sim2 (tw k) (populate reg l hs a) (populate reg l hs' b).
  Proof.
    intros HL [[E K] T] Hct. destruct a as [st r], b as [st' r']. cbn [fst snd] in E, K, T, Hct. subst st'.
    assert (K2 : forall ch, s_handlers (charset_after ch st) = ks) by (intros [ch|]; exact K). rewrite !populate_eq. unfold heads_like in HL.
    destruct (pick_host l hs) as [[host h]|e], (pick_host l hs') as [[host' h']|e']; try easy.
    2:{ subst e'. split; [reflexivity|]. split; [split; [reflexivity|exact K]|exact T]. }
    destruct HL as (<- & HH & <- & Hc). destruct (ctype_of reg h) as [[c ch]|e].
    2:{ split; [reflexivity|]. split; [split; [reflexivity|first [exact K|apply K2]]|]. destruct T. constructor; cbn; try assumption; congruence. }
    cbn zeta. assert (T1 : twin mu k (reset_if ch (set_attrs (line_attrs l host (Some c)) r)) (reset_if ch (set_attrs (line_attrs l host (Some c)) r'))).
    { destruct T. destruct ch; constructor; cbn; auto; try congruence; intros Hmu [= ->]; exact (Hc Hmu _ _ eq_refl eq_refl). }
    pose proof (tw_meta _ _ _ _ T) as Hm. unfold meta_like in Hm. destruct (r_meta r) as [m|], (r_meta r') as [m'|]; try easy.
    - destruct (query_of reg (charset_after ch st) (rl_query l)) as [g|e].
      + split; [reflexivity|]. split; [split; [reflexivity|first [exact K|apply K2]]|]. destruct T1. constructor; cbn; auto.
      + split; [reflexivity|]. split; [split; [reflexivity|first [exact K|apply K2]]|]. destruct T1. constructor; cbn; auto. now split.
    - split; [reflexivity|]. split; [split; [reflexivity|apply K2]|exact T1].
  Qed.
End Twin.
