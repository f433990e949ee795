(** * C144: DEFAULT_CHARSET *)
From Coq Require Import ZifyBool ZifyN ZifyNat.
From Verif Require Import Py Spec HeadSpec PyFacts PyDict StreamModel StreamSpec StreamFacts StreamCalm CodecModel CodecFacts PercentModel QuerySpec
  QueryModel QueryFacts HeadModel HeadFacts UrlFacts HeaderModel BoundaryModel UploadModel MultipartModel ReaderSim
  RequestModel RequestSpec HeaderRun BodyRun ParseRun RequestRel RequestMulti TwinFacts DateSpec PropsDate PropsHead PropsPart PropsRequest PropsBody PropsEnd PropsSame PropsForm PropsOrder PropsList.

(** no percent escape of the text stands for a byte of 128 or more *)
Definition low_escapes (s : str) : Prop :=
  forall p x y t vx vy, s = p ++ 37%N :: x :: y :: t -> hex_value x vx -> hex_value y vy -> vx < 8.
(** two charsets that are known and extend ASCII, or one charset *)
Definition like_charset (reg : registry) (cs cs' : str) : Prop :=
  cs = cs' \/ exists c c', reg cs = Some c /\ codec_ok c /\ reg cs' = Some c' /\ codec_ok c'.

(** ** Percent-decoding *)
Lemma low_part a b c : low_escapes (a ++ b ++ c) -> low_escapes b.
Proof. intros H p x y t vx vy ->. apply (H (a ++ p) x y (t ++ c)). now rewrite <- !app_assoc. Qed.
Lemma hexval_value c v : hexval c = Some v -> (v < 16)%N /\ hex_value c (N.to_nat v).
Proof. intros E. pose proof (hexval_spec c) as H. now rewrite E in H. Qed.
Lemma plus_not_hex v : ~ hex_value 32%N v.
Proof. intros H. now apply hex_value_hexval in H. Qed.
Lemma low_tail c t : low_escapes (c :: t) -> low_escapes t.
Proof. intros H. apply (low_part [c] t []). now rewrite app_nil_r. Qed.
Lemma unquote_ascii : forall n s, length s <= n -> ascii_only s = true -> low_escapes s -> ascii_only (unquote_to_bytes s) = true.
Proof.
  induction n as [|n IH]; intros s Hn HA HL; [now destruct s|].
  destruct s as [|c s]; [reflexivity|]. unfold ascii_only in HA. cbn [forallb] in HA. apply andb_true_iff in HA as [Hc HA].
  assert (HT : ascii_only (c :: unquote_to_bytes s) = true).
  { unfold ascii_only. cbn [forallb]. rewrite Hc. apply IH; [cbn in Hn |- *; lia|exact HA|exact (low_tail _ _ HL)]. }
  destruct (N.eq_dec c percent) as [->|Hne]; [|now rewrite unquote_to_bytes_other].
  destruct s as [|a [|b t]]; [exact HT|exact HT|].
  destruct (hexval a) as [x|] eqn:Ea; [|rewrite unquote_to_bytes_other; [exact HT|intros _; now left]].
  destruct (hexval b) as [y|] eqn:Eb; [|rewrite unquote_to_bytes_other; [exact HT|intros _; now right]].
  rewrite (unquote_to_bytes_hex a b t x y Ea Eb).
  pose proof (HL [] a b t _ _ eq_refl (proj2 (hexval_value _ _ Ea)) (proj2 (hexval_value _ _ Eb))) as Hx.
  pose proof (proj1 (hexval_value _ _ Eb)) as Hy.
  unfold ascii_only. cbn [forallb]. apply andb_true_iff. split; [unfold is_ascii; lia|].
  apply IH; [cbn in Hn |- *; lia| |].
  - cbn [forallb] in HA. rewrite !andb_true_iff in HA. apply HA.
  - apply low_tail with b, low_tail with a, low_tail with percent. exact HL.
Qed.
Lemma run_ascii s : ascii_only s = true -> ascii_run s = (s, []).
Proof. induction s as [|c s IH]; [reflexivity|]. unfold ascii_only. cbn [forallb ascii_run]. intros [-> H]%andb_true_iff. now rewrite IH. Qed.
Lemma dec_like reg cs cs' s : like_charset reg cs cs' -> ascii_only s = true -> decode reg cs s = decode reg cs' s.
Proof.
  intros [->|(c & c' & H1 & H2 & H3 & H4)] HA; [reflexivity|]. unfold decode. rewrite H1, H3.
  now rewrite (cok_dec_ascii c H2 s HA), (cok_dec_ascii c' H4 s HA).
Qed.
Lemma unquote_like reg cs cs' s : like_charset reg cs cs' -> ascii_only s = true -> low_escapes s -> unquote reg cs s = unquote reg cs' s.
Proof.
  intros [->|(c & c' & H1 & H2 & H3 & H4)] HA HL; [reflexivity|]. unfold unquote. destruct (mem percent s); [|reflexivity]. rewrite H1, H3.
  f_equal. destruct s as [|x s]; [reflexivity|]. cbn [unquote_runs]. rewrite (run_ascii _ HA).
  assert (HX : is_ascii x = true) by (unfold ascii_only in HA; cbn [forallb] in HA; now apply andb_true_iff in HA).
  rewrite HX. pose proof (unquote_ascii _ _ (le_n _) HA HL) as HU.
  now rewrite (cok_rep c H2 _ _ (cok_dec_ascii c H2 _ HU)), (cok_rep c' H4 _ _ (cok_dec_ascii c' H4 _ HU)).
Qed.
Lemma plus_low s : ascii_only s = true -> low_escapes s -> ascii_only (replacec plus 32%N s) = true /\ low_escapes (replacec plus 32%N s).
Proof.
  intros HA HL. unfold replacec. split.
  - unfold ascii_only in *. rewrite forallb_forall in *. intros x (y & <- & Hy)%in_map_iff. destruct (N.eqb y plus); [reflexivity|now apply HA].
  - intros p x y t vx vy E Hx Hy. apply map_eq_app in E as (p0 & q0 & -> & _ & E). apply map_eq_cons in E as (c0 & q1 & -> & E0 & E).
    apply map_eq_cons in E as (x0 & q2 & -> & E1 & E). apply map_eq_cons in E as (y0 & q3 & -> & E2 & E).
    assert (c0 = 37%N) as -> by (destruct (N.eqb_spec c0 plus); congruence || discriminate E0).
    assert (x0 = x) as -> by (destruct (N.eqb_spec x0 plus); [subst x; now apply plus_not_hex in Hx|assumption]).
    assert (y0 = y) as -> by (destruct (N.eqb_spec y0 plus); [subst y; now apply plus_not_hex in Hy|assumption]).
    exact (HL p0 x y q3 vx vy eq_refl Hx Hy).
Qed.

Lemma split_part : forall s m f, In f (fields_split m s) -> exists a b, s = a ++ f ++ b.
Proof.
  induction s as [|c s IH]; intros m f.
  - destruct m as [[|m]|]; cbn; intros [<-|[]]; now exists [], [].
  - assert (H0 : fields_split (Some 0) (c :: s) = [c :: s]) by reflexivity.
    assert (HH : m = Some 0 \/ fields_split m (c :: s) = if is_sep c then [] :: fields_split (option_map pred m) s
        else match fields_split m s with h :: r => (c :: h) :: r | [] => [[c]] end).
    { destruct m as [[|m]|]; [now left|right; reflexivity|right; reflexivity]. }
    destruct HH as [-> | ->]; [intros [<-|[]]; exists [], []; now rewrite app_nil_r|].
    destruct (is_sep c).
    + intros [<-|H]; [now exists [], (c :: s)|]. apply IH in H as (a & b & ->). now exists (c :: a), b.
    + destruct (fields_split m s) as [|h r] eqn:E; [now apply fields_split_nonnil in E|].
      intros [<-|H].
      * destruct (IH m h) as (a & b & Es); [rewrite E; now left|]. clear IH.
        assert (HP : exists b, s = h ++ b).
        { clear - E. revert m h r E. induction s as [|x s IH]; intros m h r E.
          - destruct m as [[|m]|]; cbn in E; injection E as <- _; now exists [].
          - destruct m as [[|m]|]; cbn [fields_split] in E; [injection E as <- _; exists []; now rewrite app_nil_r| |];
              (destruct (is_sep x); [injection E as <- _; now exists (x :: s)|]);
              match type of E with context [fields_split ?m s] => destruct (fields_split m s) as [|h' r'] eqn:E' end;
              injection E as <- _; try (now apply fields_split_nonnil in E'); apply IH in E' as [b ->]; now exists b. }
        destruct HP as [b' Eb]. exists [], b'. cbn. now rewrite <- Eb.
      * destruct (IH m f) as (a & b & ->); [rewrite E; now right|]. now exists (c :: a), b.
Qed.
Lemma field_part blank f n v : qsl_field blank f = Some (n, v) -> (exists b, f = n ++ b) /\ exists a, f = a ++ v.
Proof.
  unfold qsl_field. destruct f as [|c f]; [easy|]. destruct (split1_cases equal (c :: f)) as [(n' & v' & E & _ & ->)|[_ ->]].
  - destruct (nonempty v' || blank); [|easy]. intros [= -> ->]. rewrite E.
    split; [now eexists|]. exists (n ++ [equal]). now rewrite <- app_assoc.
  - destruct blank; [|easy]. intros [= <- <-]. split; [exists []; now rewrite app_nil_r|exists (c :: f); now rewrite app_nil_r].
Qed.
Definition mild (s : str) : Prop := ascii_only s = true /\ low_escapes s.
Lemma mild_part a b c : mild (a ++ b ++ c) -> mild b.
Proof. intros [HA HL]. split; [|exact (low_part _ _ _ HL)]. rewrite !ascii_only_app, !andb_true_iff in HA. apply HA. Qed.
Lemma qsl_like reg cs cs' blank : like_charset reg cs cs' -> forall l, Forall mild l -> qsl_loop reg cs blank l = qsl_loop reg cs' blank l.
Proof.
  intros HL. induction l as [|f l IH]; intros HF; [reflexivity|]. apply Forall_cons_iff in HF as [Hf HF]. cbn [qsl_loop]. rewrite <- (IH HF).
  destruct (qsl_field blank f) as [[n v]|] eqn:E; [|reflexivity]. apply field_part in E as [[b E1] [a E2]].
  assert (Hn : mild n) by (apply (mild_part [] n b); now rewrite <- E1).
  assert (Hv : mild v) by (apply (mild_part a v []); rewrite app_nil_r; now rewrite <- E2).
  destruct (plus_low n (proj1 Hn) (proj2 Hn)) as [An Ln]. destruct (plus_low v (proj1 Hv) (proj2 Hv)) as [Av Lv].
  now rewrite (unquote_like reg cs cs' _ HL An Ln), (unquote_like reg cs cs' _ HL Av Lv).
Qed.

(** ** QueryDict *)
Definition no_enc (q : qdict) : qdict := mkQD [] (q_mut q) (q_d q).
Definition eqres (x y : res qdict) : Prop :=
  match x, y with Ok q, Ok q' => no_enc q = no_enc q' | Err e, Err e' => e = e' | _, _ => False end.
Lemma append_enc reg k v cs cs' m d :
  let '(x, q) := q_appendlist reg (PU k) (PU v) (mkQD cs m d) in let '(x', q') := q_appendlist reg (PU k) (PU v) (mkQD cs' m d) in
  x = x' /\ q_enc q = cs /\ q_enc q' = cs' /\ no_enc q = no_enc q'.
Proof.
  unfold q_appendlist, q_assert, q_conv, q_extend, q_setlistdefault, q_assert, q_setlist, q_assert, q_conv. cbn [q_mut bytes_to_text key_of conv_list q_d q_enc].
  destruct m; [|now repeat split]. destruct (dmem k d); cbn [q_d q_set q_list]; destruct (dmem k _); now repeat split.
Qed.
Lemma fill_enc reg cs cs' m : forall l d, let '(x, q) := q_fill reg l (mkQD cs m d) in let '(x', q') := q_fill reg l (mkQD cs' m d) in
  x = x' /\ no_enc q = no_enc q'.
Proof.
  induction l as [|[k v] l IH]; intros d; [now split|]. cbn [q_fill]. pose proof (append_enc reg k v cs cs' m d) as H.
  destruct (q_appendlist reg (PU k) (PU v) (mkQD cs m d)) as [x q], (q_appendlist reg (PU k) (PU v) (mkQD cs' m d)) as [x' q'].
  destruct H as (<- & E1 & E2 & E). destruct x as [u|e]; [|now split]. destruct q as [e1 m1 d1], q' as [e2 m2 d2]. cbn in E1, E2. injection E as <- <-. subst e1 e2.
  clear IH. revert d1. generalize l. clear. intros l. revert m1. induction l as [|[k v] l IH]; intros m1 d1; [now split|]. cbn [q_fill].
  pose proof (append_enc reg k v cs cs' m1 d1) as H.
  destruct (q_appendlist reg (PU k) (PU v) (mkQD cs m1 d1)) as [x q], (q_appendlist reg (PU k) (PU v) (mkQD cs' m1 d1)) as [x' q'].
  destruct H as (<- & E1 & E2 & E). destruct x as [u|e]; [|now split]. destruct q as [e1 m2 d2], q' as [e2 m3 d3]. cbn in E1, E2. injection E as <- <-. subst e1 e2. apply IH.
Qed.
Definition qtext (qs : option pystr) : str := match qs with Some (PB b) => b | _ => [] end.
Lemma querydict_like reg cs cs' lim qs mut : like_charset reg cs cs' -> (forall u, qs <> Some (PU u)) -> mild (qtext qs) ->
  eqres (querydict reg (Some (mkQS cs lim)) qs mut) (querydict reg (Some (mkQS cs' lim)) qs mut).
Proof.
  intros HL Hu HM. unfold querydict. cbn [qs_charset qs_limit].
  set (p := match qs with Some p => if pnonempty p then p else PB [] | None => PB [] end).
  assert (Hp : p = PB (qtext qs)).
  { subst p. destruct qs as [[b|u]|]; [|exfalso; now apply (Hu u)|reflexivity]. now destruct b. }
  rewrite Hp. unfold query_text. rewrite <- (dec_like reg cs cs' _ HL (proj1 HM)).
  destruct HL as [->|HL].
  { destruct (let* t := _ in _) as [q|e]; reflexivity. }
  destruct HL as (c & c' & H1 & H2 & H3 & H4). unfold decode. rewrite H1, (cok_dec_ascii c H2 _ (proj1 HM)). cbn [bind].
  unfold limited_parse_qsl. destruct (qsl_pairs lim (qtext qs)) as [l|e] eqn:EL; [|reflexivity]. cbn [bind].
  assert (HF : Forall mild l).
  { apply Forall_forall. intros f Hf. assert (HI : exists m, In f (fields_split m (qtext qs))).
    { unfold qsl_pairs in EL. destruct lim as [z|]; [|injection EL as <-; eexists; exact Hf]. destruct (Z.eqb z 0); [injection EL as <-; eexists; exact Hf|].
      destruct (Z.ltb _ _); [easy|]. injection EL as <-. eexists. exact Hf. }
    destruct HI as [m HI]. apply split_part in HI as (a & b & E). apply (mild_part a f b). now rewrite <- E. }
  rewrite <- (qsl_like reg cs cs' true (or_intror (ex_intro _ c (ex_intro _ c' (conj H1 (conj H2 (conj H3 H4)))))) l HF).
  destruct (qsl_loop reg cs true l) as [ps|e]; [|reflexivity]. cbn [bind]. pose proof (fill_enc reg cs cs' true ps []) as H.
  destruct (q_fill reg ps (mkQD cs true [])) as [x q], (q_fill reg ps (mkQD cs' true [])) as [x' q']. destruct H as [<- E].
  destruct x as [u|e]; [|reflexivity]. cbn. unfold no_enc in *. cbn. injection E as _ E. now rewrite E.
Qed.

(** ** The multipart parser: a field name outside ASCII is refused whatever the charset is *)
Lemma text_like reg cs cs' p : like_charset reg cs cs' -> bytes_to_text reg cs p = bytes_to_text reg cs' p.
Proof.
  intros [->|(c & c' & H1 & H2 & H3 & H4)]; [reflexivity|]. destruct p as [s|u]; [|reflexivity]. cbn [bytes_to_text]. unfold encode_bytes_replace.
  rewrite H1, H3. destruct (ascii_only s) eqn:E; [|reflexivity].
  now rewrite (cok_erep c H2 _ _ (cok_enc_ascii c H2 s E)), (cok_erep c' H4 _ _ (cok_enc_ascii c' H4 s E)).
Qed.
Section Multi.
  Context {R : Type} (rd : nat -> R -> res str * R) (exh : R -> res unit * R) (reg : registry) (n2 : str -> option N) (mk : str -> res unit).
  Context (cs cs' : str) (fm dm dn : option Z) (D : str) (fuel : nat).
  Context (HL : like_charset reg cs cs').
  Let st := mkMS cs fm dm dn.
  Let st' := mkMS cs' fm dm dn.
  Lemma append_like name e d : post_append reg cs name e d = post_append reg cs' name e d.
  Proof.
    unfold post_append. rewrite <- (text_like reg cs cs' _ HL). destruct (bytes_to_text reg cs (PB name)) as [k|x]; [|reflexivity]. cbn [bind].
    now rewrite <- (text_like reg cs cs' k HL).
  Qed.
  Lemma field_like name t m p s : read_field rd reg st fuel name t m p s = read_field rd reg st' fuel name t m p s.
  Proof.
    unfold read_field, st, st'. cbn [ms_dnum ms_dmem ms_charset]. destruct (match dn with Some n => _ | None => false end); [reflexivity|].
    cbv zeta. destruct (ls_read _ _ _ s) as [[raw|e] s1]; [|reflexivity].
    match goal with |- match ?x with Ok _ => _ | Err _ => _ end = _ => destruct x as [data|e] end; [|reflexivity].
    destruct (match dm with Some n => _ | None => false end); [reflexivity|].
    destruct (match dget !"content-type" m with Some v => v | None => _ end) as [ct extra]. now rewrite append_like.
  Qed.
  Lemma loop_like : forall k p s, parts_loop rd reg n2 mk st D fuel k p s = parts_loop rd reg n2 mk st' D fuel k p s.
  Proof.
    induction k as [|k IH]; intros p s; [reflexivity|]. cbn [parts_loop].
    destruct (bi_init _ _ s D) as [[b|e] s2]; [|reflexivity].
    destruct (parse_boundary_stream rd reg fuel (ls_init b None)) as [[[ty m]|e] s3]; [|reflexivity].
    destruct (finish_file p) as [p2|e]; [|reflexivity].
    assert (E : one_part rd reg n2 mk st fuel ty m p2 s3 = one_part rd reg n2 mk st' fuel ty m p2 s3).
    { unfold one_part. destruct (dget CDISP m) as [[v disp]|]; [|reflexivity]. destruct (dget !"name" disp) as [raw|]; [|reflexivity].
      cbv zeta. destruct (to_native (pstrip raw)) as [name|e]; [|reflexivity]. destruct ty; [reflexivity|reflexivity|apply field_like]. }
    rewrite <- E. destruct (one_part rd reg n2 mk st fuel ty m p2 s3) as [[p3|e] s4]; [apply IH|reflexivity].
  Qed.
  Lemma mp_like csize len hs r : mp_parse rd exh reg n2 mk st D fuel csize len hs r = mp_parse rd exh reg n2 mk st' D fuel csize len hs r.
  Proof.
    unfold mp_parse, ms_query. unfold st, st'. cbn [ms_charset ms_dnum ms_fmem].
    assert (HQ : eqres (querydict reg (Some (mkQS cs dn)) None true) (querydict reg (Some (mkQS cs' dn)) None true)).
    { apply querydict_like; [exact HL|discriminate|]. split; [reflexivity|]. intros p x y t vx vy E. now destruct p. }
    destruct (querydict reg (Some (mkQS cs dn)) None true) as [q|e], (querydict reg (Some (mkQS cs' dn)) None true) as [q'|e']; try contradiction; [|now rewrite HQ].
    destruct (Z.eqb len 0); [reflexivity|]. cbv zeta. fold st st'. now rewrite loop_like.
  Qed.
End Multi.

(** ** Requests: everything but the names of the charsets *)
Definition post_no_enc (p : postv) : postv := match p with PQuery q => PQuery (no_enc q) | PForm f => PForm f end.
Definition no_charset (r : request) : request :=
  set_get (option_map no_enc (r_get r)) (set_post (option_map post_no_enc (r_post r)) (r_files r) r).
Definition same_but_charset (x y : res unit * world) : Prop :=
  fst x = fst y /\ with_charset [] (fst (snd x)) = with_charset [] (fst (snd y)) /\ no_charset (snd (snd x)) = no_charset (snd (snd y)).

Section Relabel.
  Context (cs' eg ep : str).
  Definition label (e : str) (q : qdict) : qdict := mkQD e (q_mut q) (q_d q).
  Definition alt (r : request) : request :=
    set_get (option_map (label eg) (r_get r))
      (set_post (option_map (fun p => match p with PQuery q => PQuery (label ep q) | PForm f => PForm f end) (r_post r)) (r_files r) r).
  Definition F (w : world) : world := (with_charset cs' (fst w), alt (snd w)).
  Lemma alt_same r : no_charset (alt r) = no_charset r.
  Proof. destruct r as [s hp bp g p f b hf hs m a]. unfold no_charset, alt. cbn. destruct g as [g|], p as [[q|f0]|]; reflexivity. Qed.
  Definition bf {A} (m : M A) : Prop := forall w, m (F w) = let '(x, w1) := m w in (x, F w1).
  Lemma bf_ret {A} (x : A) : bf (mret x). Proof. now intros w. Qed.
  Lemma bf_raise {A} e : bf (@mraise A e). Proof. now intros w. Qed.
  Lemma bf_upd f : (forall r, f (alt r) = alt (f r)) -> bf (mupd f).
  Proof. intros E w. unfold mupd, F. cbn [fst snd]. now rewrite E. Qed.
  Lemma bf_stream {A} (f : l0 -> res A * l0) : bf (mstream f).
  Proof. intros [st r]. unfold mstream, F. cbn [fst snd]. change (r_stream (alt r)) with (r_stream r). now destruct (f (r_stream r)). Qed.
  Lemma bf_bind {A B} (m : M A) (k : A -> M B) : bf m -> (forall x, bf (k x)) -> bf (mbind m k).
  Proof. intros Hm Hk w. unfold mbind. rewrite Hm. destruct (m w) as [[x|e] w1]; [|reflexivity]. apply Hk. Qed.
  Lemma bf_loop : forall f max size chunk acc, bf (body_loop f max size chunk acc).
  Proof.
    induction f as [|f IH]; intros; cbn [body_loop]; [apply bf_raise|]. destruct (_ && _)%bool; [|apply bf_ret].
    apply bf_bind; [apply bf_stream|]. intros. apply IH.
  Qed.
  Lemma bf_read : bf read_body.
  Proof.
    intros [st r]. unfold read_body, mbind at 1, msett at 1. unfold mbind at 4, msett at 1. cbn [fst F]. unfold mbind at 1, mreq at 1. unfold mbind at 3, mreq at 1.
    cbn [fst snd]. change (r_stream (alt r)) with (r_stream r). change (s_dmem (with_charset cs' st)) with (s_dmem st).
    set (k := mbind (m_read (Some BLOCK)) _). change (k (F (st, r)) = let '(x, w1) := k (st, r) in (x, F w1)).
    apply bf_bind; [apply bf_stream|]. intros c. apply bf_bind; [apply bf_loop|]. intros x. destruct (within_max _ _); [|apply bf_raise].
    apply bf_bind; [now apply bf_upd|]. intros. apply bf_ret.
  Qed.
  Lemma bf_body1 : bf body1.
  Proof.
    intros [st r]. unfold body1, mbind, mreq. cbn [snd fst F].
    change (r_bp (alt r)) with (r_bp r). change (r_attrs (alt r)) with (r_attrs r). change (r_body (alt r)) with (r_body r). change (r_hp (alt r)) with (r_hp r).
    destruct (_ && _)%bool; [reflexivity|]. destruct (r_body r); [reflexivity|]. destruct (r_hp r); [|reflexivity]. apply bf_read.
  Qed.
  Lemma bf_body reg w : r_hp (snd w) = true -> body reg (F w) = let '(x, w1) := body reg w in (x, F w1).
  Proof. intros H. rewrite !body_hp; [apply bf_body1|exact H|exact H]. Qed.
  Context (reg : registry) (n2 : str -> option N) (mk : str -> res unit).
  Lemma F_same x x' w w' : w' = F w -> x = x' -> same_but_charset (x, w) (x', w').
  Proof. intros -> <-. split; [reflexivity|]. split; [reflexivity|]. cbn. symmetry. apply alt_same. Qed.
  Definition tail (p : postv * dict (list ufile)) : M unit :=
    let! b := body reg in
    let! st := msett in
    let! t := mlift (decode_text reg (s_charset st) b) in
    mupd (fun r => set_post (Some (fst p)) (Some (snd p)) (set_flags (r_hp r) true (set_body (Some (PU t)) r))).
  Lemma tail_like p p' st r : r_hp r = true -> like_charset reg (s_charset st) cs' -> post_no_enc (fst p) = post_no_enc (fst p') -> snd p = snd p' ->
    (forall x w1, body reg (st, r) = (Ok x, w1) -> exists b, x = PB b /\ ascii_only b = true) ->
    same_but_charset (tail p (st, r)) (tail p' (F (st, r))).
  Proof.
    intros H1 HL Hp Hf Hb. unfold tail, mbind. rewrite bf_body by exact H1. pose proof (still_body reg (st, r) H1) as HS.
    destruct (body reg (st, r)) as [[x|e] [st1 r1]]; [|now apply F_same]. destruct (Hb _ _ eq_refl) as (b & -> & HA).
    cbn [fst snd] in HS. destruct HS as (-> & _). unfold msett, mlift. cbn [fst F decode_text]. cbn [with_charset s_charset].
    rewrite <- (dec_like reg _ _ b HL HA). destruct (decode reg (s_charset st) b) as [t|e]; [|now apply F_same].
    unfold mupd. cbn [fst snd]. split; [reflexivity|]. split; [reflexivity|]. cbn [snd].
    destruct r1 as [s hp bp g q f b1 hf hs m a]. unfold no_charset, alt. cbn. rewrite Hp, Hf. destruct g; reflexivity.
  Qed.
  Lemma upload_like st r : like_charset reg (s_charset st) cs' ->
    parse_file_upload reg n2 mk (F (st, r)) = let '(x, w1) := parse_file_upload reg n2 mk (st, r) in (x, F w1).
  Proof.
    intros HL. unfold parse_file_upload. unfold mbind at 1, mreq at 1, mbind at 1, msett at 1. unfold mbind at 3, mreq at 1. unfold mbind at 3, msett at 1. cbn [fst snd F].
    change (r_meta (alt r)) with (r_meta r). destruct (r_meta r) as [m|]; [|reflexivity]. destruct (m_headers m) as [h|]; [|reflexivity].
    unfold mbind at 1, mlift at 1. unfold mbind at 2, mlift at 1. destruct (mp_init reg _ _) as [[b len]|e]; [|reflexivity]. cbn [fst snd].
    unfold mbind, mstream, mret. cbn [fst snd]. change (r_stream (alt r)) with (r_stream r). unfold s_multi. cbn [with_charset s_charset s_fmem s_dmem s_dnum s_handlers].
    rewrite <- (mp_like l0_rd l0_exh reg n2 mk (s_charset st) cs' _ _ _ _ _ HL).
    destruct (mp_parse _ _ _ _ _ _ _ _ _ _ _ _) as [[pf|e] s1]; reflexivity.
  Qed.
End Relabel.

Lemma drain_ended : forall n (s s' : l0) u, ls_drain it_next n s = (Ok u, s') -> ended s'.
Proof.
  induction n as [|n IH]; intros s s' u H; [easy|]. cbn [ls_drain] in H. destruct (ls_next it_next s) as [[c| |e] s1] eqn:E; [exact (IH _ _ _ H)| |easy].
  injection H as _ <-. unfold ls_next in E. destruct (ls_left s); [|easy]. destruct (ls_prod s) as [p|]; [|easy].
  destruct p as [|[d|e] p]; cbn in E; try easy. now injection E as <-.
Qed.
Lemma read_ended st r x w1 : ended (r_stream r) -> read_body (st, r) = (Ok x, w1) -> x = PB [].
Proof.
  intros HE. unfold read_body, mbind, msett, mreq, m_read, mstream. cbn [fst snd]. rewrite ended_read; [|exact HE|reflexivity].
  cbn [Nat.add body_loop nonempty]. rewrite andb_false_r. unfold mret, mupd. cbn [fst snd]. destruct (within_max _ _); [|easy]. now intros [= <- _].
Qed.
Lemma body_known reg k st r b x w1 : r_hp r = true -> r_bp r = false -> r_body r = None -> l0at k (r_stream r) b -> 1 <= k <= 40 ->
  body reg (st, r) = (Ok x, w1) -> x = PB b /\ exists s', w1 = (st, set_body (Some (PB b)) (set_stream s' r)).
Proof.
  intros H1 H2 H3 HA Hk. rewrite body_reads; [|exact H1|now left|exact H3].
  destruct (s_dmem st) as [m|] eqn:Em; [destruct (Z.leb_spec (zlen b) m) as [L|L]|].
  - destruct (read_body_ok k st r b m HA Hk Em L) as (s' & -> & _). intros [= <- <-]. split; [reflexivity|]. now exists s'.
  - destruct (read_body_big k st r b HA Hk) as (s' & ->); [now rewrite Em|easy].
  - destruct (read_body_big k st r b HA Hk) as (s' & ->); [now rewrite Em|easy].
Qed.
(** what the theorem needs of the body: nothing for a multipart request that announces one *)
Definition body_mild (reg : registry) (c : option str) (h : headers) (b : str) : Prop :=
  (c <> Some CT_MULTI -> ascii_only b = true) /\ (c = Some CT_FORM -> low_escapes b) /\
  (c = Some CT_MULTI -> forall bd, mp_init reg (header !"Content-Type" h) (header !"Content-Length" h) = Ok (bd, 0%Z) -> ascii_only b = true).
Lemma mild_nil : mild []. Proof. split; [reflexivity|]. intros p x y t vx vy E. now destruct p. Qed.
Lemma finish_cases reg n2 mk w c : a_ctype (r_attrs (snd w)) = Some c -> finish reg n2 mk w =
  match
    (if match c with Some c => seqb c CT_MULTI | None => false end
     then match parse_file_upload reg n2 mk w with
          | (Err MultiPartParserError, w1) => (let! _ := empty_post reg in mraise MultiPartParserError) w1
          | (Err e, w1) => (Err e, w1)
          | (Ok pf, w1) => (Ok pf, (fst w1, set_hasfiles true (snd w1)))
          end
     else if match c with Some c => seqb c CT_FORM | None => false end
     then match body reg w with
          | (Err e, w1) => (Err e, w1)
          | (Ok b, w1) => match querydict reg (Some (s_query (fst w1))) (Some b) false with
                          | Err e => (Err e, w1)
                          | Ok q => (Ok (PQuery q, []), (fst w1, set_hasfiles true (snd w1)))
                          end
          end
     else match querydict reg (Some (s_query (fst w))) None false with
          | Err e => (Err e, w)
          | Ok q => (Ok (PQuery q, []), (fst w, set_hasfiles true (snd w)))
          end)
  with
  | (Ok pf, w1) => tail reg pf w1
  | (Err e, w1) => (Err e, w1)
  end.
Proof.
  intros H. unfold finish. change (mbind (parse_post reg n2 mk) (tail reg) w = match
    (if match c with Some c => seqb c CT_MULTI | None => false end
     then match parse_file_upload reg n2 mk w with
          | (Err MultiPartParserError, w1) => (let! _ := empty_post reg in mraise MultiPartParserError) w1
          | (Err e, w1) => (Err e, w1)
          | (Ok pf, w1) => (Ok pf, (fst w1, set_hasfiles true (snd w1)))
          end
     else if match c with Some c => seqb c CT_FORM | None => false end
     then match body reg w with
          | (Err e, w1) => (Err e, w1)
          | (Ok b, w1) => match querydict reg (Some (s_query (fst w1))) (Some b) false with
                          | Err e => (Err e, w1)
                          | Ok q => (Ok (PQuery q, []), (fst w1, set_hasfiles true (snd w1)))
                          end
          end
     else match querydict reg (Some (s_query (fst w))) None false with
          | Err e => (Err e, w)
          | Ok q => (Ok (PQuery q, []), (fst w, set_hasfiles true (snd w)))
          end)
  with
  | (Ok pf, w1) => tail reg pf w1
  | (Err e, w1) => (Err e, w1)
  end).
  unfold mbind at 1. unfold parse_post. unfold mbind at 1, mreq at 1. rewrite H.
  destruct (match c with Some c => seqb c CT_MULTI | None => false end); [reflexivity|].
  destruct (match c with Some c => seqb c CT_FORM | None => false end).
  - unfold mbind at 1. destruct (body reg w) as [[b|e] w1]; [|reflexivity]. unfold mbind, new_query, mbind, msett, mlift, mupd, mret.
    destruct (querydict reg (Some (s_query (fst w1))) (Some b) false); reflexivity.
  - destruct w as [st r]. unfold mbind, mret. rewrite empty_post_eq. cbn [fst snd]. destruct (querydict reg (Some (s_query st)) None false); reflexivity.
Qed.
Lemma finish_like reg n2 mk cs' eg ep k st r b c q h : r_hp r = true -> r_bp r = false -> r_body r = None ->
  a_ctype (r_attrs r) = Some c -> r_meta r = Some (mkMeta q (Some h)) -> l0at k (r_stream r) b -> 1 <= k <= 40 ->
  like_charset reg (s_charset st) cs' -> body_mild reg c h b ->
  same_but_charset (finish reg n2 mk (st, r)) (finish reg n2 mk (F cs' eg ep (st, r))).
Proof.
  intros H1 H2 H3 H4 H5 HA Hk HL (B1 & B2 & B3).
  assert (HQ : forall qs mut, (forall u, qs <> Some (PU u)) -> mild (qtext qs) ->
     eqres (querydict reg (Some (s_query st)) qs mut) (querydict reg (Some (s_query (with_charset cs' st))) qs mut)).
  { intros qs mut Hu Hm. unfold s_query. cbn [with_charset s_charset s_dnum]. now apply querydict_like. }
  rewrite (finish_cases reg n2 mk (st, r) c H4), (finish_cases reg n2 mk (F cs' eg ep (st, r)) c H4). cbn [fst].
  destruct (match c with Some c0 => seqb c0 CT_MULTI | None => false end) eqn:EM.
  - assert (c = Some CT_MULTI) as -> by (destruct c as [c|]; [apply seqb_eq in EM; now subst|easy]).
    rewrite (upload_like cs' eg ep reg n2 mk st r HL).
    destruct (parse_file_upload reg n2 mk (st, r)) as [[pf|e] w1] eqn:EU.
    + rewrite (upload_eq reg n2 mk st r q h H5) in EU. destruct (mp_init reg _ _) as [[bd len]|e] eqn:EI; [|easy].
      destruct (mp_parse _ _ _ _ _ _ _ _ _ _ _ _) as [[[p f]|e] s1] eqn:EP; [|easy]. injection EU as <- <-.
      change (fst (F cs' eg ep (st, set_stream s1 r)), set_hasfiles true (snd (F cs' eg ep (st, set_stream s1 r))))
        with (F cs' eg ep (st, set_hasfiles true (set_stream s1 r))).
      apply (tail_like cs' eg ep reg (PForm p, f) (PForm p, f)); try assumption; try reflexivity. intros x w1 Hx.
      unfold mp_parse in EP. destruct (querydict _ _ _ _); [|easy]. destruct (Z.eqb_spec len 0) as [->|].
      * injection EP as _ _ <-. apply (body_known reg k st _ b) in Hx as [-> _]; try assumption. exists b. split; [reflexivity|]. now apply (B3 eq_refl bd).
      * cbv zeta in EP. destruct (parts_loop _ _ _ _ _ _ _ _ _ _) as [[p0|e0] s0]; [|easy]. destruct (l0_exh _) as [[u|e0] s2] eqn:ED; [|easy].
        injection EP as _ _ <-. apply drain_ended in ED. rewrite body_reads in Hx; [|exact H1|now left|exact H3].
        apply read_ended in Hx; [|exact ED]. subst x. now exists [].
    + assert (HE : fst w1 = st). { pose proof (still_upload reg n2 mk (st, r) H1) as HS. rewrite EU in HS. apply HS. }
      destruct w1 as [st1 r1]. cbn [fst] in HE. subst st1.
      destruct e; try (now apply (F_same cs' eg ep)).
      unfold mbind, mraise. change (F cs' eg ep (st, r1)) with (with_charset cs' st, alt eg ep r1). rewrite !empty_post_eq. pose proof (HQ None false ltac:(discriminate) mild_nil) as Hq.
      destruct (querydict reg (Some (s_query st)) None false), (querydict reg (Some (s_query (with_charset cs' st))) None false); try contradiction; [now apply (F_same cs' eg ep)|].
      cbn in Hq. subst. now apply (F_same cs' eg ep).
  - assert (Hc : c <> Some CT_MULTI) by (intros ->; discriminate EM). specialize (B1 Hc). destruct (match c with Some c0 => seqb c0 CT_FORM | None => false end) eqn:EF.
    + assert (c = Some CT_FORM) as -> by (destruct c as [c|]; [apply seqb_eq in EF; now subst|easy]).
      rewrite (bf_body cs' eg ep reg (st, r) H1).
      destruct (body reg (st, r)) as [[x|e] w1] eqn:EB; [|now apply (F_same cs' eg ep)].
      apply (body_known reg k st r b) in EB as (-> & s' & ->); try assumption.
      cbn [fst F].
      pose proof (HQ (Some (PB b)) false ltac:(discriminate) (conj B1 (B2 eq_refl))) as Hq.
      destruct (querydict reg (Some (s_query st)) (Some (PB b)) false) as [q0|e], (querydict reg (Some (s_query (with_charset cs' st))) (Some (PB b)) false) as [q1|e']; try contradiction.
      2:{ cbn in Hq. subst. now apply (F_same cs' eg ep). }
      cbn [fst snd].
      apply (tail_like cs' eg ep reg (PQuery q0, []) (PQuery q1, []) st (set_hasfiles true (set_body (Some (PB b)) (set_stream s' r)))); try assumption; try reflexivity.
      { cbn in Hq |- *. now rewrite Hq. }
      intros x w1 Hx. rewrite (body_cached reg _ st (PB b)) in Hx; [|assumption|left; assumption|reflexivity]. injection Hx as <- _. now exists b.
    + cbn [F fst snd]. pose proof (HQ None false ltac:(discriminate) mild_nil) as Hq.
      destruct (querydict reg (Some (s_query st)) None false) as [q0|e], (querydict reg (Some (s_query (with_charset cs' st))) None false) as [q1|e']; try contradiction.
      2:{ cbn in Hq. subst. now apply (F_same cs' eg ep). }
      apply (tail_like cs' eg ep reg (PQuery q0, []) (PQuery q1, []) st (set_hasfiles true r)); try assumption; try reflexivity.
      { cbn in Hq |- *. now rewrite Hq. }
      intros x w1 Hx. apply (body_known reg k st _ b) in Hx as [-> _]; try assumption. now exists b.
Qed.

Lemma both_wire reg s w hd : delivers s w -> max_ok hd ->
  exists s1 d, l0at 3 s1 (w_body w) /\ (forall n, dget n d = match values_named n (w_fields w) with [] => None | vs => Some vs end) /\
    forall st q, s_hdr st = hd -> parse_request_header reg (st, fresh q s) =
      let w' := (st, set_flags true false (set_stream s1 (fresh q s))) in
      match parse_request_line (w_line w) with
      | Err e => (Err e, w')
      | Ok l => populate reg l d w'
      end.
Proof.
  intros (H1 & H2 & Hw) Hm. destruct (wire_block w Hw) as (h & HF & Hh). destruct (wire_headers w Hw) as (d & Hd & Hwf & Hg).
  pose proof (l0at_init 1 s H1) as HA. rewrite H2 in HA.
  destruct (frame_found _ 1 _ _ h (w_body w) Hm ltac:(lia) HA HF) as (s1 & HFr & HA1).
  exists s1, d. split; [exact HA1|]. split; [exact Hg|]. intros st q <-. rewrite header_eq by reflexivity. cbn [fresh r_stream]. rewrite HFr. cbn zeta. now rewrite Hh, Hd.
Qed.
Lemma no_enc_label q q' : no_enc q = no_enc q' -> q' = label (q_enc q') q.
Proof. destruct q, q'. unfold no_enc, label. cbn. now intros [= <- <-]. Qed.

Theorem charset_general reg n2 mk st cs' s r r' w m url v u :
  request_init reg st s = Ok r -> request_init reg (with_charset cs' st) s = Ok r' -> delivers s w -> max_ok (s_hdr st) ->
  like_charset reg (s_charset st) cs' -> request_line w m url v -> target url u -> mild (up_query u) ->
  (forall st1 r1 c h q, parse_request_header reg (st, r) = (Ok tt, (st1, r1)) -> a_ctype (r_attrs r1) = Some c -> r_meta r1 = Some (mkMeta q (Some h)) ->
     body_mild reg c h (w_body w)) ->
  same_but_charset (parse reg n2 mk (st, r)) (parse reg n2 mk (with_charset cs' st, r')).
Proof.
  intros Hi Hi' Hd Hm HL HR HT HM HB. rewrite init_eq in Hi, Hi'.
  pose proof (querydict_like reg (s_charset st) cs' (s_dnum st) None true HL ltac:(discriminate) mild_nil) as HQ0.
  unfold s_query in Hi, Hi'. cbn [with_charset s_charset s_dnum] in Hi'.
  destruct (querydict reg (Some (mkQS (s_charset st) (s_dnum st))) None true) as [q0|]; [|discriminate]. injection Hi as <-.
  destruct (querydict reg (Some (mkQS cs' (s_dnum st))) None true) as [q1|]; [|discriminate]. injection Hi' as <-. cbn [eqres] in HQ0.
  destruct (both_wire reg s w (s_hdr st) Hd Hm) as (s1 & d & HS1 & Hg & HW).
  pose proof (HW st q0 eq_refl) as HP. pose proof (HW (with_charset cs' st) q1 eq_refl) as HP'. clear HW.
  unfold parse, mbind. rewrite HP in HB |- *. rewrite HP'. clear HP HP'. cbn zeta in *.
  destruct (line_ok _ _ _ _ _ HR HT) as (l & El). destruct (line_parts _ _ _ _ _ _ HR HT El) as (_ & _ & _ & _ & _ & EQ).
  rewrite El in HB |- *. rewrite populate_eq in HB |- *. rewrite populate_eq. cbn [r_meta set_flags set_stream fresh] in *.
  assert (E0 : no_charset (set_flags true false (set_stream s1 (fresh q0 s))) = no_charset (set_flags true false (set_stream s1 (fresh q1 s)))).
  { unfold no_charset. cbn. now rewrite HQ0. }
  destruct (pick_host l d) as [[host h]|e]; [|split; [reflexivity|split; [reflexivity|exact E0]]].
  destruct (ctype_of reg h) as [[c ch]|e]; [|split; [reflexivity|split; [reflexivity|unfold no_charset; cbn; now rewrite HQ0]]].
  set (st2 := charset_after ch st) in *. set (cs2 := match ch with Some x => pchars x | None => cs' end).
  assert (Est2 : charset_after ch (with_charset cs' st) = with_charset cs2 st2) by (subst st2 cs2; now destruct ch).
  assert (HL2 : like_charset reg (s_charset st2) cs2) by (subst st2 cs2; destruct ch; [now left|exact HL]).
  rewrite Est2. rewrite EQ in HB |- *.
  assert (HQ : eqres (query_of reg st2 (up_query u)) (query_of reg (with_charset cs2 st2) (up_query u))).
  { unfold query_of, s_query. cbn [with_charset s_charset s_dnum]. destruct (nonempty (up_query u)); apply querydict_like; try assumption; try discriminate. apply mild_nil. }
  destruct (query_of reg st2 (up_query u)) as [g|e], (query_of reg (with_charset cs2 st2) (up_query u)) as [g'|e']; try contradiction.
  2:{ cbn in HQ. subst e'. split; [reflexivity|]. split; [reflexivity|]. unfold no_charset. destruct ch; cbn; now rewrite HQ0. }
  cbn [eqres] in HQ.
  match goal with |- same_but_charset (parse_request_body _ _ _ (st2, ?a)) (parse_request_body _ _ _ (_, ?b)) => set (r1 := a) in *; set (r1' := b) end.
  specialize (HB st2 r1 c h (Some (up_query u)) eq_refl).
  assert (A1 : a_ctype (r_attrs r1) = Some c) by (subst r1; now destruct ch).
  assert (A2 : r_meta r1 = Some (mkMeta (Some (up_query u)) (Some h))) by (subst r1; now destruct ch).
  assert (A3 : r_hp r1 = true) by (subst r1; now destruct ch). assert (A4 : r_bp r1 = false) by (subst r1; now destruct ch).
  assert (A5 : r_body r1 = None) by (subst r1; now destruct ch). assert (A6 : r_stream r1 = s1) by (subst r1; now destruct ch).
  specialize (HB A1 A2).
  assert (AR : r1' = alt (q_enc g') (q_enc q1) r1).
  { subst r1 r1'. destruct ch; unfold alt; cbn; rewrite <- (no_enc_label _ _ HQ), <- (no_enc_label _ _ HQ0); reflexivity. }
  rewrite AR. change (with_charset cs2 st2, alt (q_enc g') (q_enc q1) r1) with (F cs2 (q_enc g') (q_enc q1) (st2, r1)).
  clearbody r1. rewrite <- A6 in HS1. clear AR r1'. set (eg := q_enc g'). set (ep := q_enc q1).
  destruct (w_body w) as [|x t] eqn:EB.
  - change (F cs2 eg ep (st2, r1)) with (with_charset cs2 st2, alt eg ep r1). rewrite !parse_body_eq by assumption.
    change (r_stream (alt eg ep r1)) with (r_stream r1).
    destruct (l0_read_spec 3 _ _ 1 HS1 ltac:(lia)) as (s2 & HRd & _). change (Z.of_nat 1) with 1%Z in HRd. cbn [firstn] in HRd. rewrite HRd.
    pose proof (querydict_like reg (s_charset st2) cs2 (s_dnum st2) None false HL2 ltac:(discriminate) mild_nil) as HQ2.
    unfold s_query. cbn [with_charset s_charset s_dnum].
    destruct (querydict reg (Some (mkQS (s_charset st2) (s_dnum st2))) None false), (querydict reg (Some (mkQS cs2 (s_dnum st2))) None false); try contradiction.
    + apply (F_same cs2 eg ep); reflexivity.
    + cbn in HQ2. subst. apply (F_same cs2 eg ep); reflexivity.
  - change (F cs2 eg ep (st2, r1)) with (with_charset cs2 st2, alt eg ep r1). rewrite !parse_body_eq by assumption.
    change (r_stream (alt eg ep r1)) with (r_stream r1).
    destruct (peek_spec n2 mk 3 _ _ HS1 ltac:(lia) ltac:(discriminate)) as (y & s2 & s3 & HRd & HU & HA3). rewrite HRd, HU.
    change (with_charset cs2 st2, set_stream s3 (at_body (with_charset cs2 st2) (alt eg ep r1))) with (F cs2 eg ep (st2, set_stream s3 (at_body st2 r1))).
    apply (finish_like reg n2 mk cs2 eg ep 5 st2 _ (x :: t) c (Some (up_query u)) h); try assumption; lia.
Qed.

Lemma target_ascii url u : target url u -> ascii_only (up_query u) = true.
Proof.
  intros HT. apply ascii_text_iff. intros x Hx. destruct HT as [E HA _|path q f -> E HA _ _ _]; apply HA; rewrite E.
  - unfold compose. rewrite !in_app_iff. do 6 right. left. destruct (up_query u); [easy|]. cbn. now right.
  - rewrite !in_app_iff. right. left. cbn in Hx. destruct q; [easy|]. cbn. now right.
Qed.

(** ** C144 *)
(** A request that is written in ASCII, and whose escapes are those of ASCII characters, is parsed the same whatever
    DEFAULT_CHARSET is: the outcome, the exception, the attributes, GET, POST, FILES, META, the body, the stream and the rest
    of the settings agree. *)
Theorem C144_ascii :
  forall reg n2 mk st cs' s r r' w m url v u,
    request_init reg st s = Ok r -> request_init reg (with_charset cs' st) s = Ok r' -> delivers s w -> max_ok (s_hdr st) ->
    like_charset reg (s_charset st) cs' -> request_line w m url v -> target url u -> low_escapes (up_query u) ->
    ascii_text (w_body w) -> low_escapes (w_body w) ->
    same_but_charset (parse reg n2 mk (st, r)) (parse reg n2 mk (with_charset cs' st, r')).
Proof.
  intros reg n2 mk st cs' s r r' w m url v u Hi Hi' Hd Hm HL HR HT HE HA HB.
  apply (charset_general reg n2 mk st cs' s r r' w m url v u); try assumption; [split; [now apply (target_ascii url)|exact HE]|].
  intros st1 r1 c h q _ _ _. apply ascii_text_iff in HA. now repeat split.
Qed.
Print Assumptions C144_ascii.

(** A multipart request that announces a body is parsed the same with any bytes in that body. *)
Theorem C144_multipart :
  forall reg n2 mk st cs' s r r' w m url v u w1 n,
    request_init reg st s = Ok r -> request_init reg (with_charset cs' st) s = Ok r' -> delivers s w -> max_ok (s_hdr st) ->
    like_charset reg (s_charset st) cs' -> request_line w m url v -> target url u -> low_escapes (up_query u) ->
    parse_request_header reg (st, r) = (Ok tt, w1) -> a_ctype (r_attrs (snd w1)) = Some (Some !"multipart/form-data") ->
    RequestSpec.last_value !"Content-Length" w n -> positive_number n ->
    same_but_charset (parse reg n2 mk (st, r)) (parse reg n2 mk (with_charset cs' st, r')).
Proof.
  intros reg n2 mk st cs' s r r' w m url v u [st1 r1] n Hi Hi' Hd Hm HL HR HT HE HP HC HV HN.
  apply (charset_general reg n2 mk st cs' s r r' w m url v u); try assumption; [split; [now apply (target_ascii url)|exact HE]|].
  intros st2 r2 c h q HP2 HC2 HM. rewrite HP in HP2. injection HP2 as <- <-. cbn [snd] in HC. rewrite HC in HC2. injection HC2 as <-.
  split; [intros Hc; now elim Hc|]. split; [discriminate|]. intros _ bd HI. exfalso.
  destruct (header_known _ _ _ _ _ _ _ Hi Hd Hm HP) as (l & host & h' & c & ch & g & El & Ea & Eme & Eh & _).
  assert (Hh : header !"Content-Length" h = Some n).
  { rewrite Eme in HM. injection HM as _ <-. apply (header_last _ h' w (Eh !"Content-Length" ltac:(discriminate))). exact HV. }
  rewrite Hh in HI. destruct (positive_value n HN) as (z & Ez & Pz).
  unfold mp_init in HI. destruct (negb _); [easy|]. destruct (negb _); [easy|].
  destruct (parse_header reg _) as [p|e]; [|easy]. cbn [bind] in HI.
  match type of HI with (let* b := ?x in _) = _ => destruct x as [b|e]; [|easy] end. cbn [bind] in HI. rewrite Ez in HI.
  replace (Z.ltb z 0) with false in HI by lia. injection HI as _ ->. lia.
Qed.
Print Assumptions C144_multipart.

(** a form in ASCII, and a multipart body with the byte 233 in it *)
Definition line144 : str := !"POST /p?a=%41 HTTP/1.1".
Definition fs144 (ct : str) : list (str * str) := [(!"Host", !"b"); (!"Content-Type", ct); (!"Content-Length", !"9")].
Definition wire144 (ct body : str) : wire := mkWire line144 (map field (fs144 ct)) (fs144 ct) body.
Definition src144 (ct body : str) : src := req (line144 :: map field (fs144 ct)) body.
Definition CTF : str := !"application/x-www-form-urlencoded".
Definition CTM : str := !"multipart/form-data; boundary=X".
Definition high144 : str := !"--X" ++ crlf ++ !"Content-Disposition: form-data; name=a" ++ crlf ++ crlf ++ [233%N] ++ crlf ++ !"--X--" ++ crlf.
Definition post144 (st : sett) (ct body : str) :=
  let '(x, (st1, r)) := run (parse ex_reg no_cp ok_temp) st (src144 ct body) in
  (x, option_map (fun p => match p with PQuery q => (q_list !"k" q, []) | PForm d => ([], map fst d) end) (r_post r), s_charset st1).
Lemma like_ex : like_charset ex_reg !"ISO-8859-1" !"utf-8".
Proof. right. exists latin1, (utf8 (fun s => s)). split; [reflexivity|]. split; [apply latin1_ok|]. split; [reflexivity|apply utf8_ok]. Qed.
Example C144_case :
  like_charset ex_reg (s_charset ex_set) !"utf-8" /\
  delivers (src144 CTF !"k=%7E+v") (wire144 CTF !"k=%7E+v") /\ ascii_text !"k=%7E+v" /\ low_escapes !"k=%7E+v" /\
  delivers (src144 CTM high144) (wire144 CTM high144) /\ positive_number !"9" /\
  post144 ex_set CTF !"k=%7E+v" = (Ok tt, Some ([PU !"~ v"], []), !"ISO-8859-1") /\
  post144 (with_charset !"utf-8" ex_set) CTF !"k=%7E+v" = (Ok tt, Some ([PU !"~ v"], []), !"utf-8") /\
  post144 ex_set CTM high144 = (Ok tt, Some ([], [!"a"]), !"ISO-8859-1") /\
  post144 (with_charset !"utf-8" ex_set) CTM high144 = (Ok tt, Some ([], [!"a"]), !"utf-8").
Proof.
  split; [exact like_ex|]. split; [apply delivers_msg; reflexivity || discriminate|]. split; [now apply ascii_text_iff|]. split.
  { intros p x y t vx vy E Hx Hy. destruct p as [|c1 p]; [discriminate E|]. injection E as _ E. destruct p as [|c2 p]; [discriminate E|]. injection E as _ E.
    destruct p as [|c3 p].
    - injection E as <- _ _. do 8 (destruct vx as [|vx]; [lia|]). exfalso. do 8 (destruct vx as [|vx]; [now destruct Hx as [Hx|Hx]|]). destruct Hx as [Hx|Hx]; destruct vx; discriminate Hx.
    - injection E as _ E. do 4 (destruct p as [|? p]; [discriminate E|injection E as _ E]). destruct p; discriminate E. }
  split; [apply delivers_msg; reflexivity || discriminate|].
  split; [split; [now apply decimal_iff|exists 57%N; split; [now left|discriminate]]|].
  repeat split; vm_compute; reflexivity.
Qed.
(** beyond ASCII the charset decides *)
Example C144_high_case :
  like_charset ex_reg (s_charset ex_set) !"utf-8" /\ delivers (src144 CTF !"k=%C3%A9") (wire144 CTF !"k=%C3%A9") /\ ascii_text !"k=%C3%A9" /\
  post144 ex_set CTF !"k=%C3%A9" = (Ok tt, Some ([PU [195%N; 169%N]], []), !"ISO-8859-1") /\
  post144 (with_charset !"utf-8" ex_set) CTF !"k=%C3%A9" = (Ok tt, Some ([PU [233%N]], []), !"utf-8").
Proof.
  split; [exact like_ex|]. split; [apply delivers_msg; reflexivity || discriminate|]. split; [now apply ascii_text_iff|].
  split; vm_compute; reflexivity.
Qed.
