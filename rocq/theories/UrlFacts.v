(** * Proofs about URL splitting, the request line and host validation *)
From Coq Require Import ZifyBool ZifyN.
From Verif Require Import Py Spec HeadSpec PyFacts PyDict StreamModel HeadModel.

(** [part d c p]: the text [p] carries the component [c] behind the delimiter [d];
    a missing part and an empty component look the same afterwards *)
Definition part (d c p : str) : Prop := p = d ++ c \/ p = [] /\ c = [].

Lemma cut_spec c s a b : cut c s = (a, b) ->
  exists p, part [c] b p /\ s = a ++ p /\ ~ In c a.
Proof.
  unfold cut, split1. destruct (findc c s) as [i|] eqn:E; intros [= <- <-].
  - apply findc_Some in E as (H1 & H2 & H3). exists (c :: skipn (S i) s). split; [now left|].
    split; [exact H1|exact H2].
  - apply findc_None in E. exists []. split; [now right|]. now rewrite app_nil_r.
Qed.
Lemma cut_app c a b : ~ In c a -> cut c (a ++ c :: b) = (a, b).
Proof.
  intros H. unfold cut, split1. rewrite findc_app by easy. f_equal.
  - apply firstn_app_exact.
  - change (a ++ c :: b) with (a ++ [c] ++ b). rewrite app_assoc.
    replace (S (length a)) with (length (a ++ [c])) by (rewrite app_length; cbn; lia).
    apply skipn_app_exact.
Qed.
Lemma cut_none c a : ~ In c a -> cut c a = (a, []).
Proof. intros H. unfold cut, split1. apply findc_None in H. now rewrite H. Qed.

Lemma scheme_letter_iff c : is_scheme_char c = true <-> scheme_letter c.
Proof. unfold is_scheme_char, is_alnum, is_alpha, is_upper, is_lower, is_digit, scheme_letter. lia. Qed.
Lemma scheme_text_iff s : forallb is_scheme_char s = true <-> scheme_text s.
Proof. rewrite forallb_forall. split; intros H c Hc; now apply scheme_letter_iff, H. Qed.
Lemma netloc_end_iff c : is_netloc_end c = true <-> ends_authority c.
Proof. unfold is_netloc_end, ends_authority. rewrite !orb_true_iff, !N.eqb_eq. unfold slash, qmark, hash. tauto. Qed.
Lemma netloc_end_false c : is_netloc_end c = false <-> ~ ends_authority c.
Proof. rewrite <- netloc_end_iff. now destruct (is_netloc_end c). Qed.
Lemma params_iff sc : existsb (seqb sc) uses_params = true <-> In sc param_schemes.
Proof.
  rewrite existsb_exists. split.
  - intros (x & Hx & E). apply seqb_eq in E. subst x. cbn in *. tauto.
  - intros H. exists sc. split; [|now apply seqb_eq]. cbn in *. tauto.
Qed.

Lemma split_scheme_spec url sc u : split_scheme url = (sc, u) ->
  exists s0, lower s0 = sc /\ forallb is_scheme_char s0 = true /\
    (s0 <> [] /\ url = s0 ++ colon :: u \/ s0 = [] /\ url = u).
Proof.
  unfold split_scheme. destruct (findc colon url) as [[|i]|] eqn:E.
  - intros [= <- <-]. exists []. split; [easy|]. split; [easy|]. now right.
  - destruct (forallb is_scheme_char (firstn (S i) url)) eqn:Hf; intros [= <- <-].
    + apply findc_Some in E as (H1 & H2 & H3). exists (firstn (S i) url). repeat split; [easy|].
      left. split; [|exact H1]. destruct url; [cbn in H3; lia|]. easy.
    + exists []. split; [easy|]. split; [easy|]. now right.
  - intros [= <- <-]. exists []. split; [easy|]. split; [easy|]. now right.
Qed.

Lemma span_netloc_spec s a b : span_netloc s = (a, b) ->
  s = a ++ b /\ (forall c, In c a -> is_netloc_end c = false) /\
  (b = [] \/ exists c t, b = c :: t /\ is_netloc_end c = true).
Proof.
  revert a b; induction s as [|x s IH]; intros a b; cbn.
  - intros [= <- <-]. repeat split; [easy|now left].
  - destruct (is_netloc_end x) eqn:E.
    + intros [= <- <-]. repeat split; [easy|right]. now exists x, s.
    + destruct (span_netloc s) as [a' b'] eqn:Es. intros [= <- <-].
      destruct (IH a' b' eq_refl) as (-> & H2 & H3). repeat split; [|easy].
      intros c [<-|Hc]; [easy|now apply H2].
Qed.
Lemma span_netloc_app a b : (forall c, In c a -> is_netloc_end c = false) ->
  (b = [] \/ exists c t, b = c :: t /\ is_netloc_end c = true) ->
  span_netloc (a ++ b) = (a, b).
Proof.
  intros Ha Hb. induction a as [|x a IH]; cbn.
  - destruct Hb as [->|(c & t & -> & Hc)]; cbn; [easy|]. now rewrite Hc.
  - rewrite Ha by now left. rewrite IH; [easy|]. intros c Hc. apply Ha. now right.
Qed.

Lemma split_netloc_spec url n u : split_netloc url = (n, u) ->
  exists p, url = p ++ u /\ (p = !"//" ++ n \/ p = [] /\ n = []) /\
    (forall c, In c n -> is_netloc_end c = false) /\
    (p <> [] -> u = [] \/ exists c t, u = c :: t /\ is_netloc_end c = true).
Proof.
  unfold split_netloc, startswith. destruct (prefixb !"//" url) eqn:E.
  - apply prefixb_iff in E as [t ->]. cbn [lit map list_ascii_of_string app skipn].
    intros H. apply span_netloc_spec in H as (-> & H2 & H3). exists (!"//" ++ n).
    split; [easy|]. split; [now left|]. split; [exact H2|]. intros _. exact H3.
  - intros [= <- <-]. exists []. split; [easy|]. split; [now right|]. split; easy.
Qed.

Lemma splitparams_spec url a b : mem semi url = true -> splitparams url = (a, b) ->
  exists p, part [semi] b p /\ url = a ++ p.
Proof.
  intros Hm. unfold splitparams. destruct (rfindc slash url) as [j|] eqn:Ej.
  - destruct (findc semi (skipn j url)) as [i|] eqn:Ei; intros [= <- <-].
    + exists (semi :: skipn (S (j + i)) url). split; [now left|].
      apply findc_Some in Ei as (H1 & H2 & H3).
      rewrite <- (firstn_skipn j url) at 1. rewrite H1.
      rewrite skipn_skipn' . replace (j + S i) with (S (j + i)) by lia.
      rewrite app_assoc. f_equal.
      rewrite <- (firstn_skipn j url) at 3. rewrite firstn_app.
      apply rfindc_Some in Ej as (_ & _ & Hj).
      rewrite firstn_length. replace (Nat.min j (length url)) with j by lia.
      replace (j + i - j) with i by lia. f_equal.
      rewrite firstn_firstn. now replace (Nat.min (j + i) j) with j by lia.
    + exists []. split; [now right|]. now rewrite app_nil_r.
  - destruct (findc semi url) as [i|] eqn:Ei; intros [= <- <-].
    + apply findc_Some in Ei as (H1 & H2 & H3). exists (semi :: skipn (S i) url). split; [now left|easy].
    + exists []. split; [now right|]. now rewrite app_nil_r.
Qed.

Definition balanced (n : str) : bool := Bool.eqb (mem lbr n) (mem rbr n).
Lemma balanced_iff n :
  (mem lbr n && negb (mem rbr n)) || (mem rbr n && negb (mem lbr n)) = negb (balanced n).
Proof. unfold balanced. now destruct (mem lbr n), (mem rbr n). Qed.

(** ** Nothing is lost: the six components, in order and with their delimiters,
    spell the URL again (letter case of the scheme apart). *)
Theorem urlparse_lossless url u : urlparse_text url = Ok u ->
  exists s0 S N P Q F,
    url = S ++ N ++ up_path u ++ P ++ Q ++ F /\
    lower s0 = up_scheme u /\ (s0 <> [] /\ S = s0 ++ [colon] \/ s0 = [] /\ S = []) /\
    part !"//" (up_netloc u) N /\ part [semi] (up_params u) P /\
    part [qmark] (up_query u) Q /\ part [hash] (up_fragment u) F /\
    forallb is_scheme_char s0 = true /\
    (forall c, In c (up_netloc u) -> is_netloc_end c = false) /\
    (forall c, In c (up_path u ++ P) -> c <> qmark /\ c <> hash) /\
    ~ In hash (up_query u) /\
    (N <> [] -> up_path u ++ P ++ Q ++ F = [] \/
                exists c t, up_path u ++ P ++ Q ++ F = c :: t /\ is_netloc_end c = true).
Proof.
  unfold urlparse_text, urlsplit. destruct (split_scheme url) as [sc u1] eqn:E1.
  destruct (split_netloc u1) as [n u2] eqn:E2. rewrite balanced_iff.
  destruct (balanced n) eqn:Eb; cbn [negb bind]; [|easy].
  destruct (cut hash u2) as [u3 f] eqn:E3. destruct (cut qmark u3) as [path q] eqn:E4.
  cbn [bind su_scheme su_netloc su_path su_query su_fragment].
  apply split_scheme_spec in E1 as (s0 & Hs0 & Hsc & Hurl).
  apply split_netloc_spec in E2 as (N & HN1 & HN2 & HN3 & HN4).
  apply cut_spec in E3 as (F & HF1 & HF2 & HF3).
  apply cut_spec in E4 as (Q & HQ1 & HQ2 & HQ3).
  assert (HP : exists P, part [semi] (snd (if existsb (seqb sc) uses_params && mem semi path
                  then splitparams path else (path, []))) P /\
               path = fst (if existsb (seqb sc) uses_params && mem semi path
                  then splitparams path else (path, [])) ++ P).
  { destruct (existsb (seqb sc) uses_params && mem semi path) eqn:Ec.
    - apply andb_true_iff in Ec as [_ Hm]. destruct (splitparams path) as [a b] eqn:Es.
      cbn. eapply splitparams_spec; eassumption.
    - exists []. cbn. split; [now right|]. now rewrite app_nil_r. }
  destruct HP as (P & HP1 & HP2).
  destruct (if existsb (seqb sc) uses_params && mem semi path then splitparams path else (path, [])) as [path' params].
  cbn in HP1, HP2. intros [= <-]. cbn.
  exists s0, (match s0 with [] => [] | _ => s0 ++ [colon] end), N, P, Q, F.
  assert (Hu2 : u2 = path' ++ P ++ Q ++ F).
  { rewrite HF2, HQ2, HP2. now rewrite <- !app_assoc. }
  repeat split; try easy.
  - rewrite <- Hu2, <- HN1. destruct Hurl as [[Hn ->]|[-> ->]]; [|easy].
    destruct s0; [easy|]. now rewrite <- app_assoc.
  - destruct Hurl as [[Hn _]|[-> _]]; [left; now destruct s0|now right].
  - intros ->. rewrite <- HP2 in H. apply HQ3. exact H.
  - intros ->. rewrite <- HP2 in H. apply HF3. rewrite HQ2. apply in_or_app. now left.
  - intros H. apply HF3. rewrite HQ2. apply in_or_app. right.
    destruct HQ1 as [->|[_ ->]]; [|easy]. apply in_or_app. now right.
  - intros H. rewrite <- Hu2. now apply HN4.
Qed.

(** ** ... and composed URLs come apart again. *)
Record good_parts (u : parse_result) : Prop := {
  gp_scheme : up_scheme u <> [] /\ scheme_text (up_scheme u)
              /\ lower (up_scheme u) = up_scheme u;
  gp_netloc : forall c, In c (up_netloc u) -> ~ ends_authority c;
  gp_balanced : balanced (up_netloc u) = true;
  gp_path : up_path u = [] \/ exists t, up_path u = slash :: t;
  gp_path_chars : forall c, In c (up_path u) -> c <> qmark /\ c <> hash;
  gp_params_chars : forall c, In c (up_params u) -> c <> qmark /\ c <> hash /\ c <> slash;
  gp_last_segment : In (up_scheme u) param_schemes ->
      (exists a b, up_path u = a ++ slash :: b /\ ~ In slash b /\ ~ In semi b) \/
      up_path u = [] /\ up_params u = [];
  gp_params : In (up_scheme u) param_schemes \/ up_params u = [];
  gp_query : ~ In hash (up_query u) }.

Definition with_delim (d c : str) : str := match c with [] => [] | _ => d ++ c end.
Definition compose (u : parse_result) : str :=
  up_scheme u ++ [colon] ++ !"//" ++ up_netloc u ++ up_path u ++ with_delim [semi] (up_params u)
  ++ with_delim [qmark] (up_query u) ++ with_delim [hash] (up_fragment u).

Lemma scheme_char_not c : is_scheme_char c = true -> c <> colon.
Proof. intros H ->. now cbn in H. Qed.

Lemma with_delim_In d c x : In x (with_delim d c) -> In x d \/ In x c.
Proof. unfold with_delim. destruct c; [easy|]. apply in_app_or. Qed.

Lemma cut_delim c a b : ~ In c a -> cut c (a ++ with_delim [c] b) = (a, b).
Proof.
  intros H. unfold with_delim. destruct b as [|x b].
  - rewrite app_nil_r. now apply cut_none.
  - now apply (cut_app c a (x :: b)).
Qed.

Lemma cut_hash_q a q f : ~ In hash a -> ~ In hash q ->
  cut hash (a ++ with_delim [qmark] q ++ with_delim [hash] f) = (a ++ with_delim [qmark] q, f).
Proof.
  intros Ha Hq. rewrite app_assoc. apply cut_delim. intros Hin. apply in_app_or in Hin as [|Hin]; [easy|].
  apply with_delim_In in Hin as [[]|]; easy.
Qed.

Lemma splitparams_compose a b p : ~ In slash b -> ~ In semi b -> ~ In slash p ->
  splitparams (a ++ slash :: b ++ semi :: p) = (a ++ slash :: b, p).
Proof.
  intros H1 H2 H3. unfold splitparams.
  assert (Hn : ~ In slash (b ++ semi :: p)).
  { intros Hin. apply in_app_or in Hin as [|[|]]; easy. }
  rewrite rfindc_app by exact Hn. rewrite skipn_app_exact.
  assert (Hf : findc semi (slash :: b ++ semi :: p) = Some (S (length b))).
  { cbn. now rewrite findc_app. }
  rewrite Hf.
  assert (Heq : a ++ slash :: b ++ semi :: p = (a ++ slash :: b) ++ semi :: p)
    by now rewrite <- app_assoc.
  assert (Hlen : length a + S (length b) = length (a ++ slash :: b)) by (rewrite app_length; cbn; lia).
  rewrite Hlen, Heq. f_equal; [apply firstn_app_exact|].
  change (semi :: p) with ([semi] ++ p). rewrite app_assoc.
  replace (S (length (a ++ slash :: b))) with (length ((a ++ slash :: b) ++ [semi]))
    by (rewrite (app_length _ [semi]); cbn; lia).
  apply skipn_app_exact.
Qed.

Theorem urlparse_compose u : good_parts u -> urlparse_text (compose u) = Ok u.
Proof.
  intros [(Hs1 & Hs2 & Hs3) Hn Hb Hp Hpc Hpp Hl Hpa Hq]. destruct u as [sc n path params q f].
  cbn [up_scheme up_netloc up_path up_params up_query up_fragment] in *.
  apply scheme_text_iff in Hs2. rewrite <- params_iff in Hl, Hpa. assert (Hn' : forall c, In c n -> is_netloc_end c = false) by (intros c Hc; now apply netloc_end_false, Hn).
  clear Hn. rename Hn' into Hn.
  unfold urlparse_text, urlsplit, compose.
  cbn [up_scheme up_netloc up_path up_params up_query up_fragment].
  set (tail := path ++ with_delim [semi] params ++ with_delim [qmark] q ++ with_delim [hash] f).
  assert (E1 : split_scheme (sc ++ [colon] ++ !"//" ++ n ++ tail) = (sc, !"//" ++ n ++ tail)).
  { unfold split_scheme. cbn [app].
    rewrite findc_app.
    2:{ intros Hin. rewrite forallb_forall in Hs2. specialize (Hs2 _ Hin). now apply scheme_char_not in Hs2. }
    destruct sc as [|c sc]; [easy|].
    change (S (length sc)) with (length (c :: sc)). cbn [length].
    change (S (length sc)) with (length (c :: sc)).
    rewrite firstn_app_exact, Hs2, Hs3. f_equal.
    change ((c :: sc) ++ colon :: !"//" ++ n ++ tail) with ((c :: sc) ++ [colon] ++ (!"//" ++ n ++ tail)).
    rewrite app_assoc. replace (S (length (c :: sc))) with (length ((c :: sc) ++ [colon]))
      by (rewrite app_length; cbn; lia).
    apply skipn_app_exact. }
  rewrite E1.
  assert (E2 : split_netloc (!"//" ++ n ++ tail) = (n, tail)).
  { unfold split_netloc, startswith. rewrite prefixb_app.
    change (skipn 2 (!"//" ++ n ++ tail)) with (n ++ tail). apply span_netloc_app; [exact Hn|].
    unfold tail. destruct Hp as [->|[t ->]]; [|right; now exists slash, (t ++ with_delim [semi] params ++ with_delim [qmark] q ++ with_delim [hash] f)].
    assert (params = []) as ->.
    { destruct Hpa as [Hpa| ->]; [|easy]. destruct (Hl Hpa) as [(a & b & Hab & _)|[_ ->]]; [|easy].
      now destruct a. }
    cbn [with_delim app]. destruct q; cbn [with_delim app].
    - destruct f; cbn [with_delim app]; [now left|right; now eexists _, _].
    - right; now eexists _, _. }
  rewrite E2. rewrite balanced_iff, Hb. cbn [negb].
  assert (Hnh : forall c, In c (path ++ with_delim [semi] params) -> c <> qmark /\ c <> hash).
  { intros c Hin. apply in_app_or in Hin as [Hin|Hin]; [now apply Hpc|].
    apply with_delim_In in Hin as [[<-|[]]|Hin]; [easy|]. split; now apply Hpp. }
  unfold tail. rewrite (app_assoc path).
  rewrite cut_hash_q; [|intros Hin; now apply Hnh in Hin|easy].
  rewrite cut_delim by (intros Hin; now apply Hnh in Hin).
  cbn [bind su_scheme su_netloc su_path su_query su_fragment].
  destruct (existsb (seqb sc) uses_params) eqn:Eu.
  - cbn [andb]. destruct (Hl eq_refl) as [(a & b & -> & Hb1 & Hb2)|[-> ->]].
    + destruct params as [|x params].
      * cbn [with_delim]. rewrite app_nil_r.
        destruct (mem semi (a ++ slash :: b)) eqn:Em; [|easy].
        unfold splitparams. rewrite rfindc_app by easy. rewrite skipn_app_exact.
        assert (Hf : findc semi (slash :: b) = None).
        { apply findc_None. intros [H|H]; easy. }
        now rewrite Hf.
      * assert (Em : mem semi ((a ++ slash :: b) ++ with_delim [semi] (x :: params)) = true).
        { apply mem_In. apply in_or_app. right. now left. }
        rewrite Em. cbn [with_delim]. rewrite <- app_assoc.
        change ((slash :: b) ++ [semi] ++ x :: params) with (slash :: b ++ semi :: x :: params).
        rewrite splitparams_compose; [easy|easy|easy|].
        intros Hin. apply Hpp in Hin. easy.
    + easy.
  - destruct Hpa as [| -> ]; [easy|]. cbn [with_delim andb]. now rewrite app_nil_r.
Qed.

(** origin form: a path that starts with a single '/', optional query and fragment *)
Theorem urlparse_origin path q f :
  (exists t, path = slash :: t /\ startswith t !"/" = false) ->
  (forall c, In c path -> c <> qmark /\ c <> hash /\ c <> semi) -> ~ In hash q ->
  urlparse_text (path ++ with_delim [qmark] q ++ with_delim [hash] f)
  = Ok (mkParse [] [] path [] q f).
Proof.
  intros (t & -> & Ht) Hc Hq. unfold urlparse_text, urlsplit.
  set (tail := with_delim [qmark] q ++ with_delim [hash] f).
  assert (E1 : split_scheme ((slash :: t) ++ tail) = ([], (slash :: t) ++ tail)).
  { unfold split_scheme. cbn [app findc]. change (N.eqb slash colon) with false. cbv iota.
    destruct (findc colon (t ++ tail)); [|easy]. cbn [option_map firstn forallb].
    now change (is_scheme_char slash) with false. }
  rewrite E1.
  assert (E2 : split_netloc ((slash :: t) ++ tail) = ([], (slash :: t) ++ tail)).
  { unfold split_netloc, startswith. change !"//" with [slash; slash]. cbn [app prefixb].
    rewrite N.eqb_refl. cbn [andb].
    assert (Hp : forall s, prefixb [slash] s = match s with [] => false | c :: _ => N.eqb slash c end).
    { intros [|c s]; cbn [prefixb]; [easy|]. now rewrite andb_true_r. }
    destruct t as [|c t].
    - cbn [app]. unfold tail. destruct q as [|]; [destruct f as [|]|]; reflexivity.
    - unfold startswith in Ht. change !"/" with [slash] in Ht. rewrite Hp in Ht. cbn [app].
      now rewrite Ht. }
  rewrite E2. cbn [mem existsb andb negb orb]. unfold tail.
  rewrite cut_hash_q; [|intros Hin; now apply Hc in Hin|easy].
  rewrite cut_delim by (intros Hin; now apply Hc in Hin).
  cbn [bind su_scheme su_netloc su_path su_query su_fragment].
  assert (Em : mem semi (slash :: t) = false) by (apply mem_nIn; intros Hin; now apply Hc in Hin).
  rewrite Em, andb_false_r. easy.
Qed.

(** ** The request line *)
Theorem request_line_ok m u v p : ~ In space m -> ~ In space u -> ~ In space v -> urlparse u = Ok p ->
  parse_request_line (m ++ [space] ++ u ++ [space] ++ v)
  = Ok (mkLine m (up_scheme p) (up_netloc p) (up_path p) (up_params p) (up_query p) (up_fragment p) v).
Proof.
  intros Hm Hu Hv HP. unfold parse_request_line. cbn [app].
  rewrite splitc_cons by easy. rewrite splitc_cons by easy. rewrite splitc_notin by easy.
  now rewrite HP.
Qed.
Theorem request_line_tokens l r : parse_request_line l = Ok r ->
  exists u p, l = rl_method r ++ [space] ++ u ++ [space] ++ rl_proto r /\
    ~ In space (rl_method r) /\ ~ In space u /\ ~ In space (rl_proto r) /\ urlparse u = Ok p /\
    rl_scheme r = up_scheme p /\ rl_domain r = up_netloc p /\ rl_path r = up_path p /\
    rl_params r = up_params p /\ rl_query r = up_query p /\ rl_fragment r = up_fragment p.
Proof.
  unfold parse_request_line. pose proof (splitc_join space l) as HJ. pose proof (splitc_pieces space l) as HF.
  destruct (splitc space l) as [|m [|u [|v [|]]]]; try easy.
  destruct (urlparse u) as [p|e] eqn:Eu; [|easy]. cbn [bind]. intros [= <-]. cbn.
  inversion_clear HF as [|? ? H1 HF1]. inversion_clear HF1 as [|? ? H2 HF2]. inversion_clear HF2 as [|? ? H3 _].
  exists u, p. rewrite <- HJ. easy.
Qed.
Theorem request_line_bad_count l : countc space l <> 2 ->
  parse_request_line l = Err (InvalidHttpRequest BadRequestLine).
Proof.
  intros H. unfold parse_request_line. pose proof (splitc_length space l) as HL.
  destruct (splitc space l) as [|m [|u [|v [|]]]]; cbn in HL; try easy. lia.
Qed.

(** ** Hosts *)
(** the shapes [host_validation_re] describes (without the newline quirk of [$]) *)
Inductive host_shape : str -> str -> str -> Prop :=
| hs_name a p : a <> [] -> forallb is_host_char a = true -> port_shape p ->
    host_shape (a ++ p) a p
| hs_v6 h b p : forallb is_hex_low h = true -> b <> [] -> forallb is_v6_char b = true -> port_shape p ->
    host_shape (([lbr] ++ h ++ [colon] ++ b ++ [rbr]) ++ p) ([lbr] ++ h ++ [colon] ++ b ++ [rbr]) p
with port_shape : str -> Prop :=
| ps_none : port_shape []
| ps_some d : d <> [] -> forallb is_digit d = true -> port_shape (colon :: d).

Lemma span_spec f s a b : span f s = (a, b) ->
  s = a ++ b /\ forallb f a = true /\ match b with [] => True | c :: _ => f c = false end.
Proof.
  revert a b; induction s as [|x s IH]; intros a b; cbn.
  - now intros [= <- <-].
  - destruct (f x) eqn:E.
    + destruct (span f s) as [a' b'] eqn:Es. intros [= <- <-].
      destruct (IH _ _ eq_refl) as (-> & H2 & H3). cbn. now rewrite E, H2.
    + intros [= <- <-]. now repeat split.
Qed.
Lemma span_app f a b : forallb f a = true -> match b with [] => True | c :: _ => f c = false end ->
  span f (a ++ b) = (a, b).
Proof.
  intros Ha Hb. induction a as [|x a IH]; cbn.
  - destruct b as [|c b]; [easy|]. cbn. now rewrite Hb.
  - cbn in Ha. apply andb_true_iff in Ha as [-> Ha]. now rewrite IH.
Qed.
Lemma port_ok_iff p : port_ok p = true <-> port_shape p.
Proof.
  destruct p as [|c t]; cbn; [split; [constructor|easy]|]. split.
  - intros H. apply andb_true_iff in H as [H H2]. apply andb_true_iff in H as [H0 H1].
    apply N.eqb_eq in H0. subst. constructor; [now destruct t|easy].
  - intros H. inversion_clear H as [|? H1 H2]. rewrite H2. destruct t; easy.
Qed.

Lemma host_match_exact_iff s : host_match_exact s = true <-> exists h p, host_shape s h p.
Proof.
  split.
  - destruct s as [|c t]; [easy|]. unfold host_match_exact.
    destruct (N.eqb_spec c lbr) as [->|Hne].
    + destruct (span is_hex_low t) as [h r] eqn:E1. destruct r as [|c1 r1]; [easy|].
      destruct (N.eqb_spec c1 colon) as [->|]; [|easy].
      destruct (span is_v6_char r1) as [b r2] eqn:E2. intros H. apply andb_true_iff in H as [Hb H].
      destruct r2 as [|c2 r3]; [easy|]. apply andb_true_iff in H as [H1 H2]. apply N.eqb_eq in H1. subst c2.
      apply port_ok_iff in H2.
      apply span_spec in E1 as (-> & E1 & _). apply span_spec in E2 as (-> & E2 & _).
      exists ([lbr] ++ h ++ [colon] ++ b ++ [rbr]), r3.
      replace (lbr :: h ++ colon :: b ++ rbr :: r3) with (([lbr] ++ h ++ [colon] ++ b ++ [rbr]) ++ r3)
        by (cbn; rewrite <- !app_assoc; cbn; now rewrite <- !app_assoc).
      apply hs_v6; try easy. intros ->. now cbn in Hb.
    + destruct (span is_host_char (c :: t)) as [a r] eqn:E. intros H. apply andb_true_iff in H as [H1 H2].
      apply port_ok_iff in H2. apply span_spec in E as (-> & E & _).
      exists a, r. apply hs_name; try easy. intros ->. now cbn in H1.
  - intros (h & p & H). inversion H as [a q Ha Hc Hp|x b q Hx Hb Hb2 Hp]; subst.
    + destruct h as [|c h]; [easy|]. unfold host_match_exact. cbn [app].
      assert (Hne : N.eqb c lbr = false).
      { apply N.eqb_neq. intros ->. now cbn in Hc. }
      rewrite Hne. change (c :: h ++ p) with ((c :: h) ++ p).
      rewrite span_app; [|easy|].
      * apply port_ok_iff in Hp. now rewrite Hp.
      * inversion Hp; [easy|]. easy.
    + rewrite <- !app_assoc. unfold host_match_exact. cbn [app].
      change (N.eqb lbr lbr) with true. cbv iota.
      rewrite span_app; [|easy|easy]. rewrite N.eqb_refl.
      rewrite span_app; [|easy|easy]. rewrite N.eqb_refl.
      apply port_ok_iff in Hp. rewrite Hp. destruct b; easy.
Qed.

Lemma host_match_no_newline s : ~ In LF s -> host_match s = host_match_exact s.
Proof.
  intros H. unfold host_match. destruct (rev s) as [|c r] eqn:E; [now rewrite orb_false_r|].
  destruct (N.eqb_spec c LF) as [->|]; [|now rewrite orb_false_r].
  exfalso. apply H. apply in_rev. rewrite E. now left.
Qed.

Definition drop_dot (d : str) : str := if endswith d !"." then removelast d else d.

Lemma host_char_not_colon a : forallb is_host_char a = true -> ~ In colon a.
Proof. intros H Hin. rewrite forallb_forall in H. specialize (H _ Hin). now cbn in H. Qed.
Lemma digits_not_colon a : forallb is_digit a = true -> ~ In colon a.
Proof. intros H Hin. rewrite forallb_forall in H. specialize (H _ Hin). now cbn in H. Qed.

Lemma last_app_cons {A} (l : list A) x d : last (l ++ [x]) d = x.
Proof. apply last_last. Qed.

Lemma skipn_S_app {A} (a b : list A) c : skipn (S (length a)) (a ++ c :: b) = b.
Proof. induction a; [easy|exact IHa]. Qed.

Lemma lower_LF s : In LF (lower s) <-> In LF s.
Proof.
  unfold lower. rewrite in_map_iff. split.
  - intros (c & Hc & Hin). unfold lowerc in Hc. unfold LF in *.
    destruct (N.leb_spec 65 c), (N.leb_spec c 90); cbn in Hc; subst; try easy. lia.
  - intros H. exists LF. now split.
Qed.

(** what [split_domain_port] returns for a well-formed host *)
Theorem split_domain_port_ok host h p : ~ In LF host -> host_shape (lower host) h p ->
  split_domain_port host = (if N.eqb (hd 0%N h) lbr then h else drop_dot h, tl p).
Proof.
  intros HLF HS.
  assert (HLF' : ~ In LF (lower host)) by now rewrite lower_LF.
  unfold split_domain_port. rewrite host_match_no_newline by easy.
  assert (Hm : host_match_exact (lower host) = true) by (apply host_match_exact_iff; now exists h, p).
  rewrite Hm. cbn [negb]. clear Hm HLF HLF'. remember (lower host) as s eqn:Hs. clear Hs host.
  inversion HS as [a q Ha Hc Hp|x b q Hx Hb Hb2 Hp]; subst.
  - (* a name *)
    assert (Hhd : N.eqb (hd 0%N h) lbr = false).
    { destruct h as [|c h]; [easy|]. cbn. apply N.eqb_neq. intros ->. now cbn in Hc. }
    rewrite Hhd.
    assert (Hlast : N.eqb (last (h ++ p) 0%N) rbr = false).
    { apply N.eqb_neq. intros Hl.
      assert (Hin : In (last (h ++ p) 0%N) (h ++ p)).
      { destruct (last_nonnil (h ++ p) 0%N) as [l' Hl'].
        - now destruct h.
        - rewrite Hl' at 2. apply in_or_app. right. now left. }
      rewrite Hl in Hin. apply in_app_or in Hin as [Hin|Hin].
      - rewrite forallb_forall in Hc. specialize (Hc _ Hin). now cbn in Hc.
      - inversion Hp as [|d Hd1 Hd2]; subst; [easy|]. destruct Hin as [Hin|Hin]; [easy|].
        rewrite forallb_forall in Hd2. specialize (Hd2 _ Hin). now cbn in Hd2. }
    rewrite Hlast. inversion Hp as [|d Hd1 Hd2]; subst.
    + rewrite app_nil_r. unfold rsplit1.
      assert (Hr : rfindc colon h = None) by (apply rfindc_None; now apply host_char_not_colon).
      now rewrite Hr.
    + unfold rsplit1. rewrite rfindc_app by now apply digits_not_colon.
      rewrite firstn_app_exact.
      rewrite skipn_S_app.
      easy.
  - (* an IPv6 literal *)
    cbn [app hd]. rewrite N.eqb_refl.
    set (h := lbr :: x ++ colon :: b ++ [rbr]).
    assert (Hh : h = (lbr :: x ++ colon :: b) ++ [rbr]).
    { unfold h. cbn. now rewrite <- app_assoc. }
    inversion Hp as [|d Hd1 Hd2]; subst p.
    + change (lbr :: (x ++ colon :: b ++ [rbr]) ++ []) with (h ++ []). rewrite app_nil_r.
      assert (Hl : last h 0%N = rbr) by (rewrite Hh; apply last_last).
      rewrite Hl, N.eqb_refl. easy.
    + assert (Hlast : N.eqb (last (h ++ colon :: d) 0%N) rbr = false).
      { destruct (last_nonnil d 0%N Hd1) as [d' Hd']. rewrite Hd'.
        change (h ++ colon :: d' ++ [last d 0%N]) with (h ++ (colon :: d') ++ [last d 0%N]).
        rewrite app_assoc, last_last. apply N.eqb_neq. intros Hl.
        rewrite forallb_forall in Hd2.
        assert (Hin : In (last d 0%N) d) by (rewrite Hd' at 2; apply in_or_app; right; now left).
        specialize (Hd2 _ Hin). rewrite Hl in Hd2. now cbn in Hd2. }
      change (lbr :: (x ++ colon :: b ++ [rbr]) ++ colon :: d) with (h ++ colon :: d).
      rewrite Hlast. unfold rsplit1. rewrite rfindc_app by now apply digits_not_colon.
      rewrite firstn_app_exact.
      rewrite skipn_S_app.
      cbn [tl]. f_equal.
      assert (He : endswith h !"." = false).
      { unfold endswith. rewrite Hh, rev_app_distr. reflexivity. }
      now rewrite He.
Qed.

Theorem split_domain_port_bad host : ~ In LF (lower host) ->
  ~ (exists h p, host_shape (lower host) h p) -> split_domain_port host = ([], []).
Proof.
  intros HLF HN. unfold split_domain_port. rewrite host_match_no_newline by easy.
  destruct (host_match_exact (lower host)) eqn:E; [|easy].
  exfalso. apply HN. now apply host_match_exact_iff.
Qed.
