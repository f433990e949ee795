(** * C12: which parts a URL has, exactly *)
From Verif Require Import Py Spec HeadSpec PyFacts HeadModel HeadFacts UrlFacts UtilModel UtilFacts PropsHead.

(** [u] is what the URL reads as: the longest scheme, the authority, and the rest cut at the first '#',
    then at the first '?', then at the first ';' of the last segment.  Square brackets in an authority
    come in both kinds or in none. *)
Definition reading (url : str) (u : parse_result) : Prop :=
  exists sc rest tail before path,
    (has_scheme url sc rest \/ (forall sc rest, ~ has_scheme url sc rest) /\ sc = [] /\ rest = url) /\ up_scheme u = lower sc /\
    (authority_then rest (up_netloc u) tail \/ startswith rest !"//" = false /\ up_netloc u = [] /\ tail = rest) /\
    (In 91%N (up_netloc u) <-> In 93%N (up_netloc u)) /\
    cut_at 35%N tail before (up_fragment u) /\ cut_at 63%N before path (up_query u) /\
    params_at (up_scheme u) path (up_path u) (up_params u).

Lemma cut_iff c s a b : cut c s = (a, b) <-> cut_at c s a b.
Proof.
  split.
  - unfold cut, split1. destruct (findc c s) as [i|] eqn:E; intros [= <- <-].
    + apply findc_Some in E as (H1 & H2 & H3). left. now split.
    + apply findc_None in E. now right.
  - intros [[H ->]|(H & -> & ->)]; [now apply cut_app|now apply cut_none].
Qed.
Lemma scheme_iff url x : (exists sc rest, x = (lower sc, rest) /\ (has_scheme url sc rest \/ (forall sc rest, ~ has_scheme url sc rest) /\ sc = [] /\ rest = url)) <-> split_scheme url = x.
Proof.
  split.
  - intros (sc & rest & -> & [H|(H & -> & ->)]); [now apply split_scheme_has|now apply split_scheme_none].
  - intros <-. destruct (scheme_dec url) as [(sc & rest & H)|H].
    + exists sc, rest. split; [now apply split_scheme_has|now left].
    + exists [], url. split; [now apply split_scheme_none|]. now right.
Qed.
Lemma netloc_iff rest n t : split_netloc rest = (n, t) <-> (authority_then rest n t \/ startswith rest !"//" = false /\ n = [] /\ t = rest).
Proof.
  split.
  - intros H. destruct (startswith rest !"//") eqn:E.
    + left. unfold split_netloc in H. rewrite E in H. apply span_netloc_spec in H as (E1 & E2 & E3).
      unfold startswith in E. apply prefixb_iff in E as [u ->]. change (skipn 2 (!"//" ++ u)) with u in E1. subst u.
      split; [reflexivity|]. split; [intros c Hc; now apply netloc_end_false, E2|].
      destruct E3 as [->|(c & t' & -> & Hc)]; [now left|right]. exists c, t'. split; [easy|now apply netloc_end_iff].
    + right. rewrite split_netloc_none in H by exact E. injection H as <- <-. now repeat split.
  - intros [(-> & Hn & Ht)|(E & -> & ->)]; [|now apply split_netloc_none].
    unfold split_netloc, startswith. rewrite prefixb_app. change (skipn 2 (!"//" ++ n ++ t)) with (n ++ t). apply span_netloc_app.
    + intros c Hc. now apply netloc_end_false, Hn.
    + destruct Ht as [->|(c & t' & -> & Hc)]; [now left|right]. exists c, t'. split; [easy|now apply netloc_end_iff].
Qed.
Lemma brackets_iff n : balanced n = true <-> (In 91%N n <-> In 93%N n).
Proof.
  unfold balanced. rewrite eqb_true_iff. change lbr with 91%N. change rbr with 93%N. rewrite <- !mem_In.
  destruct (mem 91%N n), (mem 93%N n); split; try tauto; try easy; intros [H1 H2]; try (now rewrite H1); now rewrite H2.
Qed.

(** the last segment *)
Lemma last_segment p : exists dir seg, p = dir ++ seg /\ (dir = [] \/ exists d, dir = d ++ [47%N]) /\ ~ In 47%N seg.
Proof.
  induction p as [|c p (dir & seg & -> & Hd & Hs)]; [exists [], []; now repeat split; auto|].
  destruct Hd as [->|(d & ->)].
  - cbn [app]. destruct (N.eq_dec c 47) as [->|Hc].
    + exists [47%N], seg. split; [reflexivity|]. split; [right; now exists []|exact Hs].
    + exists [], (c :: seg). split; [reflexivity|]. split; [now left|]. intros [E|E]; [now apply Hc|now apply Hs].
  - exists (c :: d ++ [47%N]), seg. split; [reflexivity|]. split; [right; now exists (c :: d)|exact Hs].
Qed.
Lemma splitparams_segment dir seg a b : (dir = [] \/ exists d, dir = d ++ [47%N]) -> ~ In 47%N seg -> cut_at 59%N seg a b ->
  (if mem semi (dir ++ seg) then splitparams (dir ++ seg) else (dir ++ seg, [])) = (dir ++ a, b).
Proof.
  intros Hd Hs Hc. destruct (mem semi (dir ++ seg)) eqn:Em.
  2:{ apply mem_nIn in Em. destruct Hc as [[_ ->]|(_ & -> & ->)]; [|reflexivity]. destruct Em. apply in_or_app. right. apply in_or_app. right. now left. }
  destruct Hd as [->|(d & ->)].
  - cbn [app]. unfold splitparams. apply rfindc_None in Hs. change slash with 47%N. rewrite Hs. apply cut_iff in Hc. unfold cut, split1 in Hc.
    change semi with 59%N. destruct (findc 59%N seg); exact Hc.
  - rewrite <- !app_assoc. cbn [app]. destruct Hc as [[Ha ->]|(Ha & -> & ->)].
    + apply splitparams_compose; try assumption; intros H; apply Hs; apply in_or_app; [now left|right; now right].
    + unfold splitparams. rewrite rfindc_app by exact Hs. rewrite skipn_app_exact.
      assert (Hf : findc semi (slash :: seg) = None) by (apply findc_None; intros [H|H]; easy).
      change slash with 47%N in Hf. now rewrite Hf.
Qed.
Lemma params_at_iff sc p a b :
  (if existsb (seqb sc) uses_params && mem semi p then splitparams p else (p, [])) = (a, b) <-> params_at sc p a b.
Proof.
  unfold params_at. destruct (existsb (seqb sc) uses_params) eqn:E; cbn [andb].
  - apply params_iff in E. destruct (last_segment p) as (dir & seg & -> & Hd & Hs). split.
    + intros H. left. split; [exact E|]. destruct (cut 59%N seg) as [x y] eqn:Ec. apply cut_iff in Ec.
      pose proof (eq_trans (eq_sym (splitparams_segment dir seg x y Hd Hs Ec)) H) as K. injection K as <- <-. now exists dir, seg, x.
    + intros [(_ & dir' & seg' & x & Ep & Hd' & Hs' & Hc & ->)|[N _]]; [|easy]. rewrite Ep. now apply splitparams_segment.
  - assert (~ In sc param_schemes) by (rewrite <- params_iff; congruence). split; [intros [= <- <-]; now right|].
    intros [[N _]|(_ & -> & ->)]; easy.
Qed.

Theorem C12_url_reading :
  forall url u, urlparse url = Ok u <-> ascii_text url /\ reading url u.
Proof.
  intros url u. unfold urlparse. rewrite ascii_text_iff. destruct (ascii_only url); [|split; [easy|now intros [H _]]].
  assert (HI : urlparse_text url = Ok u <-> reading url u); [|now split; [intros H; split; [reflexivity|now apply HI]|intros [_ H]; now apply HI]].
  unfold urlparse_text, urlsplit, reading. split.
  - destruct (split_scheme url) as [sc0 rest] eqn:E1. apply scheme_iff in E1 as (sc & rest0 & [= -> ->] & E1).
    destruct (split_netloc rest0) as [n tail] eqn:E2. apply netloc_iff in E2. rewrite balanced_iff. destruct (balanced n) eqn:Eb; cbn [negb bind]; [|easy].
    apply brackets_iff in Eb. destruct (cut hash tail) as [before f] eqn:E3. destruct (cut qmark before) as [path q] eqn:E4. apply cut_iff in E3, E4.
    cbn [bind su_scheme su_netloc su_path su_query su_fragment].
    match goal with |- context [let (_, _) := ?x in _] => destruct x as [p ps] eqn:E5 end. apply params_at_iff in E5. intros [= <-].
    exists sc, rest0, tail, before, path. cbn [up_scheme up_netloc up_path up_params up_query up_fragment].
    exact (conj E1 (conj eq_refl (conj E2 (conj Eb (conj E3 (conj E4 E5)))))).
  - intros (sc & rest & tail & before & path & E1 & E0 & E2 & Eb & E3 & E4 & E5). destruct u as [s n p ps q f].
    cbn [up_scheme up_netloc up_path up_params up_query up_fragment] in *. subst s.
    assert (E1' : split_scheme url = (lower sc, rest)) by (apply scheme_iff; now exists sc, rest).
    rewrite E1'. apply netloc_iff in E2. rewrite E2, balanced_iff. apply brackets_iff in Eb. rewrite Eb. cbn [negb].
    apply cut_iff in E3, E4. change hash with 35%N. change qmark with 63%N. rewrite E3, E4.
    cbn [bind su_scheme su_netloc su_path su_query su_fragment]. apply params_at_iff in E5. now rewrite E5.
Qed.
Print Assumptions C12_url_reading.
(** and what is not read: with text outside ASCII a UnicodeDecodeError, else a ValueError *)
Theorem C12_url_not_read :
  forall url e, urlparse url = Err e <->
    ~ ascii_text url /\ e = UnicodeDecodeError \/
    ascii_text url /\ (forall u, ~ reading url u) /\ e = ValueError.
Proof.
  intros url e. destruct (urlparse url) as [u|e'] eqn:E.
  - split; [easy|]. apply C12_url_reading in E as [A R]. intros [[N _]|(_ & N & _)]; [easy|]. now destruct (N u).
  - assert (HN : ascii_text url -> forall u, ~ reading url u) by (intros A u R; assert (K : urlparse url = Ok u) by (now apply C12_url_reading); congruence).
    revert E. unfold urlparse. destruct (ascii_only url) eqn:EA.
    + apply ascii_text_iff in EA. unfold urlparse_text, urlsplit. destruct (split_scheme url), (split_netloc s0).
      destruct (_ || _); [|destruct (cut hash s2), (cut qmark s3); cbn [bind]; match goal with |- context [let (_, _) := ?x in _] => destruct x end; easy].
      cbn [bind]. intros [= <-]. split; [intros [= <-]; right; split; [exact EA|split; [now apply HN|reflexivity]]|].
      intros [[N _]|(_ & _ & ->)]; easy.
    + assert (NA : ~ ascii_text url) by (intros A; apply ascii_text_iff in A; congruence). intros [= <-].
      split; [intros [= <-]; now left|]. intros [[_ ->]|[A _]]; easy.
Qed.
Print Assumptions C12_url_not_read.
Example C12_reading_case : reading !"HTTP://u@h:80/a;b/c;d?x=?y#z#" (mkParse !"http" !"u@h:80" !"/a;b/c" !"d" !"x=?y" !"z#") /\
  reading !"x.y:a;b" (mkParse !"x.y" [] !"a;b" [] [] []) /\ reading !"1_2:a/b;c;d" (mkParse [] [] !"1_2:a/b" !"c;d" [] []) /\
  forall u, ~ reading !"http://[::1/" u.
Proof.
  split; [|split; [|split]]; try (apply C12_url_reading; vm_compute; reflexivity).
  assert (E : urlparse !"http://[::1/" = Err ValueError) by (vm_compute; reflexivity). apply C12_url_not_read in E as [[_ E]|(_ & E & _)]; [discriminate E|exact E].
Qed.
