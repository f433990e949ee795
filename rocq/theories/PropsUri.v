(** * Theorems C85-C88: uri_to_iri, raw paths and URIs, get_port, repr *)
From Coq Require Import ZifyBool ZifyN ZifyNat.
From Verif Require Import Py Spec HeadSpec PyFacts PyDict StreamModel CodecModel CodecFacts PercentModel PercentFacts QueryModel
  HeadModel HeadFacts HeaderModel PropsHead PropsUtil PropsPart RequestModel RequestSpec HeaderRun BodyRun PropsRequest UriModel.

(** ** UTF-8 text *)
Definition utf8_text (s : str) : Prop := exists u, utf8_enc u = Some s.
Definition utf8_registry (reg : registry) : Prop := exists rep, reg !"utf-8" = Some (utf8 rep).

Lemma utf8_enc_app u v : forall s t, utf8_enc u = Some s -> utf8_enc v = Some t -> utf8_enc (u ++ v) = Some (s ++ t).
Proof.
  induction u as [|c u IH]; intros s t; cbn; [now intros [= <-]|].
  destruct (utf8_char c) as [a|]; [|easy]. destruct (utf8_enc u) as [b|]; [|easy]. intros [= <-] Ht.
  rewrite (IH b t eq_refl Ht). now rewrite app_assoc.
Qed.
Lemma text_app s t : utf8_text s -> utf8_text t -> utf8_text (s ++ t).
Proof. intros [u Hu] [v Hv]. exists (u ++ v). now apply utf8_enc_app. Qed.
Lemma text_bytes s : utf8_text s -> is_bytes s.
Proof. intros [u Hu] c Hc. apply utf8_enc_bytes in Hu. unfold bytes_only in Hu. rewrite forallb_forall in Hu. now apply N.ltb_lt, Hu. Qed.
Lemma text_ascii s : ascii_only s = true -> utf8_text s.
Proof. intros H. exists s. exact (cok_enc_ascii _ (utf8_ok (fun x => x)) s H). Qed.

Lemma ascii_run_all s : ascii_only s = true -> ascii_run s = (s, []).
Proof.
  induction s as [|c s IH]; [easy|]. cbn. intros H. apply andb_true_iff in H as [H1 H2]. now rewrite H1, IH.
Qed.
Lemma unquote_none s : mem percent s = false -> unquote_to_bytes s = s.
Proof.
  induction s as [|c s IH]; [easy|]. cbn [mem existsb]. intros H. apply orb_false_iff in H as [H1 H2].
  rewrite unquote_plain; [now rewrite IH|]. intros ->. now rewrite N.eqb_refl in H1.
Qed.

(** what uri_to_iri does with ASCII text: percent-decode, then decode and encode as UTF-8 *)
Lemma uri_ascii reg rep t : reg !"utf-8" = Some (utf8 rep) -> ascii_only t = true -> t <> [] ->
  uri_to_iri reg (PU t) =
    let b := unquote_to_bytes t in
    match utf8_enc (match utf8_dec b with Some u => u | None => rep b end) with
    | Some x => Ok (PB x)
    | None => Err UnicodeEncodeError
    end.
Proof.
  intros HR HA HN. unfold uri_to_iri. destruct t as [|c t]; [easy|]. remember (c :: t) as s eqn:Es.
  replace (pnonempty (PU s)) with true by now subst s. cbn [negb].
  assert (HD : forall b, ascii_only b = true -> utf8_dec b = Some b /\ utf8_enc b = Some b).
  { intros b Hb. split; [exact (cok_dec_ascii _ (utf8_ok rep) b Hb)|exact (cok_enc_ascii _ (utf8_ok rep) b Hb)]. }
  unfold unquote, encode. change UTF8_NAME with !"utf-8". rewrite HR. destruct (mem percent s) eqn:E.
  - cbn [bind utf8 c_rep c_enc]. replace (unquote_runs (S (length s)) _ s)
      with (match utf8_dec (unquote_to_bytes s) with Some u => u | None => rep (unquote_to_bytes s) end).
    + cbn zeta. now destruct (utf8_enc _).
    + rewrite Es. cbn [unquote_runs length]. rewrite <- Es.
      assert (Hc : is_ascii c = true) by (rewrite Es in HA; cbn in HA; now apply andb_true_iff in HA).
      rewrite Hc, ascii_run_all by exact HA. cbn [unquote_runs]. now rewrite app_nil_r.
  - cbn [bind utf8 c_enc]. rewrite unquote_none by exact E. destruct (HD s HA) as [-> ->]. reflexivity.
Qed.
Lemma uri_text reg t : utf8_registry reg -> ascii_only t = true -> t <> [] -> utf8_text (unquote_to_bytes t) ->
  uri_to_iri reg (PU t) = Ok (PB (unquote_to_bytes t)).
Proof.
  intros [rep HR] HA HN [u Hu]. rewrite (uri_ascii reg rep) by assumption. cbn zeta.
  rewrite (utf8_roundtrip u _ Hu). now rewrite Hu.
Qed.

Lemma iri_ascii s : is_bytes s -> ascii_only (iri_to_uri s) = true.
Proof.
  intros H. apply forallb_forall. intros c Hc. apply N.ltb_lt.
  apply (quote_ascii iri_safe s (is_bytes_only s H)) in Hc; [easy|].
  intros x Hx. repeat (destruct Hx as [<-|Hx]; [easy|]). easy.
Qed.
Lemma quote_nil safe s : quote safe s = [] -> s = [].
Proof. destruct s as [|c s]; [easy|]. rewrite quote_cons. unfold quote_byte. now destruct (always_safe c || mem c safe). Qed.

(** ** C85.  uri_to_iri undoes iri_to_uri *)
Theorem C85_inverts_iri_to_uri_partial :
  forall reg s, utf8_registry reg -> utf8_text s -> ~ In percent s ->
    exists x, uri_to_iri reg (PU (iri_to_uri s)) = Ok x /\ pchars x = s.
Proof.
  intros reg s HR HT HP. pose proof (text_bytes s HT) as HB. pose proof (C60_iri_to_uri_invertible s HB HP) as HU.
  destruct s as [|c s]; [now exists (PU [])|]. exists (PB (c :: s)). split; [|reflexivity].
  rewrite uri_text; [now rewrite HU|exact HR|now apply iri_ascii|intros H; now apply quote_nil in H|now rewrite HU].
Qed.
Print Assumptions C85_inverts_iri_to_uri_partial.

(** with a '%' in the text the inverse does not hold *)
Theorem C85_percent_refuted :
  forall reg, utf8_registry reg -> exists s x, utf8_text s /\ uri_to_iri reg (PU (iri_to_uri s)) = Ok x /\ pchars x <> s.
Proof.
  intros reg HR. exists !"100%41", (PB !"100A"). split; [now apply text_ascii|]. split; [|discriminate].
  rewrite (uri_text reg) by (exact HR || discriminate || reflexivity || (apply text_ascii; reflexivity)). reflexivity.
Qed.
Print Assumptions C85_percent_refuted.

(** bytes that are not UTF-8 never come back, whatever 'replace' puts in their place *)
Theorem C85_other_bytes_lost :
  forall reg s, utf8_registry reg -> is_bytes s -> ~ In percent s -> utf8_dec s = None ->
    forall x, uri_to_iri reg (PU (iri_to_uri s)) = Ok x -> pchars x <> s.
Proof.
  intros reg s [rep HR] HB HP HD x H He. assert (Hs : s <> []) by (intros ->; discriminate).
  rewrite (uri_ascii reg rep) in H; [|exact HR|now apply iri_ascii|intros E; now apply quote_nil in E]. cbn zeta in H.
  rewrite C60_iri_to_uri_invertible in H by assumption. rewrite HD in H.
  destruct (utf8_enc (rep s)) as [y|] eqn:E; [|easy]. injection H as <-. cbn in He. subst y.
  apply utf8_roundtrip in E. congruence.
Qed.
Print Assumptions C85_other_bytes_lost.

Example C85_case : forall rep,
  let reg := fun _ : str => Some (utf8 rep) in
  utf8_text (!"/I " ++ [226%N; 153%N; 165%N]) /\ ~ In percent (!"/I " ++ [226%N; 153%N; 165%N]) /\
  uri_to_iri reg (PU !"/I%20%E2%99%A5") = Ok (PB (!"/I " ++ [226%N; 153%N; 165%N])) /\ utf8_dec [255%N] = None.
Proof.
  intros rep reg. split; [now exists (!"/I " ++ [9829%N])|]. split; [intros H; repeat (destruct H as [H|H]; [discriminate|]); easy|].
  split; reflexivity.
Qed.

(** ** C86.  The raw full path is the path given to set_path, followed by the query *)
Definition enc_path (p : str) : str := escape_uri_path false (iri_to_uri p).

Lemma enc_path_cons c p : enc_path (c :: p) = enc_path [c] ++ enc_path p.
Proof. unfold enc_path, iri_to_uri, escape_uri_path. change (c :: p) with ([c] ++ p). now rewrite !quote_app. Qed.
(** the code of one byte, and how it ends *)
Lemma enc_path_byte c t : (c < 256)%N -> c <> percent ->
  unquote_to_bytes (enc_path [c] ++ t) = c :: unquote_to_bytes t /\
  ((enc_path [c] = [c] /\ (c < 128)%N) \/
   (c <> 47%N /\ exists x y, enc_path [c] = [percent; x; y] /\ is_HEX x = true /\ is_HEX y = true)).
Proof.
  intros Hc Hp. assert (Hx : (c / 16 < 16)%N) by (apply N.div_lt_upper_bound; lia).
  assert (Hy : (c mod 16 < 16)%N) by (apply N.mod_lt; lia).
  assert (HE : forall u, unquote_to_bytes ([percent; hexdig (c / 16); hexdig (c mod 16)] ++ u) = c :: unquote_to_bytes u).
  { intros u. rewrite unquote_escape by assumption. f_equal. rewrite N.mul_comm. symmetry. apply N.div_mod. lia. }
  assert (HQ : quote (path_safe ++ [percent]) [percent; hexdig (c / 16); hexdig (c mod 16)] =
               [percent; hexdig (c / 16); hexdig (c mod 16)]).
  { apply quote_fixed. intros x [<-|[<-|[<-|[]]]]; [reflexivity| |]; rewrite HEX_safe; try reflexivity; now apply hexdig_HEX. }
  unfold enc_path, iri_to_uri, escape_uri_path. unfold quote at 2 4 6. cbn [flat_map]. unfold quote_byte.
  destruct (always_safe c || mem c iri_safe) eqn:E1; cbn [app].
  - unfold quote. cbn [flat_map]. unfold quote_byte. destruct (always_safe c || mem c (path_safe ++ [percent])) eqn:E2; cbn [app].
    + split; [now apply unquote_plain|]. left. split; [reflexivity|].
      apply orb_true_iff in E2 as [E2|E2]; [now apply always_safe_ascii|].
      apply mem_In in E2. exact (lit_ascii (path_safe ++ [percent]) eq_refl c E2).
    + split; [apply HE|]. right. split; [intros ->; discriminate|].
      exists (hexdig (c / 16)), (hexdig (c mod 16)). repeat split; now apply hexdig_HEX.
  - rewrite HQ. split; [apply HE|]. right. split; [intros ->; discriminate|].
    exists (hexdig (c / 16)), (hexdig (c mod 16)). repeat split; now apply hexdig_HEX.
Qed.
Lemma unquote_path p t : is_bytes p -> ~ In percent p -> unquote_to_bytes (enc_path p ++ t) = p ++ unquote_to_bytes t.
Proof.
  induction p as [|c p IH]; intros Hb Hp; [reflexivity|]. rewrite enc_path_cons, <- app_assoc.
  destruct (enc_path_byte c (enc_path p ++ t)) as [-> _]; [apply Hb; now left|intros ->; apply Hp; now left|].
  cbn [app]. f_equal. apply IH; [intros x Hx; apply Hb; now right|intros Hx; apply Hp; now right].
Qed.
Lemma enc_path_ascii p : is_bytes p -> ascii_only (enc_path p) = true.
Proof.
  intros H. apply forallb_forall. intros c Hc. apply N.ltb_lt.
  refine (proj1 (C61_escape_uri_path_output false (iri_to_uri p) c _ Hc)).
  intros x Hx. pose proof (iri_ascii p H) as HA. unfold ascii_only in HA. rewrite forallb_forall in HA.
  apply HA in Hx. unfold is_ascii in Hx. lia.
Qed.
Lemma endswith_last s c x : endswith (s ++ [x]) [c] = N.eqb c x.
Proof. unfold endswith. rewrite rev_app_distr. cbn. apply andb_true_r. Qed.
Lemma enc_path_snoc p c : enc_path (p ++ [c]) = enc_path p ++ enc_path [c].
Proof. unfold enc_path, iri_to_uri, escape_uri_path. now rewrite !quote_app. Qed.
Lemma enc_path_slash p : is_bytes p -> ~ In percent p -> endswith (enc_path p) !"/" = endswith p !"/".
Proof.
  destruct p as [|c p _] using rev_ind; intros Hb Hp; [reflexivity|]. rewrite enc_path_snoc.
  change !"/" with [47%N]. rewrite endswith_last.
  assert (Hc : In c (p ++ [c])) by (apply in_or_app; right; now left).
  destruct (enc_path_byte c []) as [_ [[-> _]|(Hn & x & y & -> & Hx & Hy)]];
    [now apply Hb|intros ->; now apply Hp|now rewrite endswith_last|].
  change [percent; x; y] with ([percent; x] ++ [y]). rewrite app_assoc, endswith_last.
  transitivity false; [|symmetry; apply N.eqb_neq; congruence]. apply N.eqb_neq. intros <-. discriminate.
Qed.

(** path and query as text without '%' *)
Definition plain_text (s : str) : Prop := utf8_text s /\ ~ In percent s.
Definition full_path_text (slash : bool) (p q : str) : str :=
  p ++ (if slash && negb (endswith p !"/") then !"/" else []) ++ match q with [] => [] | _ => !"?" ++ q end.

Theorem C86_raw_full_path_partial :
  forall reg st r p q slash, utf8_registry reg -> plain_text p -> plain_text q -> get_query r = Ok q ->
    let r' := snd (snd (set_path p true (st, r))) in
    exists x, get_full_path_raw reg slash r' = Ok x /\ pchars x = full_path_text slash p q.
Proof.
  intros reg st r p q slash HR [HT HP] [HTq HPq] Hq r'. pose proof (text_bytes p HT) as HB. pose proof (text_bytes q HTq) as HBq.
  destruct (C62_set_path_safe st r p HB) as (x & Hx & _ & _ & HF). specialize (HF slash q Hq). fold r' in HF, Hx.
  assert (Ex : x = enc_path p) by (cbn in Hx; unfold get_path in Hx; now injection Hx as <-). subst x. clear Hx.
  unfold get_full_path_raw. rewrite HF. cbn [bind]. rewrite enc_path_slash by assumption. clear HF.
  set (sl := if slash && negb (endswith p !"/") then !"/" else []).
  set (qs := match q with [] => [] | _ => !"?" ++ iri_to_uri q end).
  assert (Hsl : sl = [] \/ sl = !"/") by (unfold sl; destruct (slash && negb (endswith p !"/")); [now right|now left]).
  assert (HFT : full_path_text slash p q = p ++ sl ++ match q with [] => [] | _ => !"?" ++ q end) by reflexivity.
  change (exists x, uri_to_iri reg (PU (enc_path p ++ sl ++ qs)) = Ok x /\ pchars x = full_path_text slash p q).
  clearbody sl.
  assert (HqA : ascii_only qs = true).
  { unfold qs. destruct q as [|c q]; [reflexivity|]. unfold ascii_only. rewrite forallb_app. apply andb_true_iff. split; [reflexivity|now apply iri_ascii]. }
  assert (HqU : unquote_to_bytes qs = match q with [] => [] | _ => !"?" ++ q end).
  { unfold qs. destruct q as [|c q]; [reflexivity|]. change (!"?" ++ iri_to_uri (c :: q)) with (63%N :: iri_to_uri (c :: q)).
    rewrite unquote_plain by discriminate. rewrite C60_iri_to_uri_invertible by assumption. reflexivity. }
  assert (HU : unquote_to_bytes (enc_path p ++ sl ++ qs) = full_path_text slash p q).
  { rewrite unquote_path by assumption. rewrite HFT. f_equal. destruct Hsl as [->| ->]; [exact HqU|].
    change (!"/" ++ qs) with (47%N :: qs). rewrite unquote_plain by discriminate. now rewrite HqU. }
  assert (HA : ascii_only (enc_path p ++ sl ++ qs) = true).
  { unfold ascii_only. rewrite !forallb_app, !andb_true_iff. split; [now apply enc_path_ascii|]. split; [now destruct Hsl as [->| ->]|exact HqA]. }
  destruct (list_eq_dec N.eq_dec (enc_path p ++ sl ++ qs) []) as [E0|E0]; [rewrite E0; exists (PU []); split; [reflexivity|]; rewrite <- HU, E0; reflexivity|].
  exists (PB (full_path_text slash p q)). split; [|reflexivity]. rewrite uri_text; [now rewrite HU|exact HR|exact HA|exact E0|].
  rewrite HU, HFT. apply text_app; [exact HT|]. apply text_app; [destruct Hsl as [->| ->]; now apply text_ascii|].
  destruct q as [|c0 q]; [now apply text_ascii|]. apply text_app; [now apply text_ascii|exact HTq].
Qed.
Print Assumptions C86_raw_full_path_partial.

(** the raw path does not say where the path ends: two requests that differ in path and
    query have the same raw path, for every registry *)
Theorem C86_raw_ambiguous_refuted :
  forall reg, utf8_registry reg -> exists r1 r2 x,
    get_full_path_raw reg false r1 = Ok x /\ get_full_path_raw reg false r2 = Ok x /\
    get_path r1 <> get_path r2 /\ get_query r1 <> get_query r2 /\ get_full_path false r1 <> get_full_path false r2.
Proof.
  intros reg HR.
  set (mk := fun p q => mkR (l0_init []) true false None None None None false None (Some (mkMeta (Some q) None))
                          (mkA None None None None (Some (Some p)) None None)).
  exists (mk !"/a%3Fb" []), (mk !"/a" !"b"), (PB !"/a?b").
  assert (H : forall t, ascii_only t = true -> t <> [] -> ascii_only (unquote_to_bytes t) = true ->
                uri_to_iri reg (PU t) = Ok (PB (unquote_to_bytes t))).
  { intros t H1 H2 H3. apply uri_text; [exact HR|exact H1|exact H2|now apply text_ascii]. }
  unfold get_full_path_raw. change (get_full_path false (mk !"/a%3Fb" [])) with (@Ok str !"/a%3Fb").
  change (get_full_path false (mk !"/a" !"b")) with (@Ok str !"/a?b"). cbn [bind].
  split; [apply (H !"/a%3Fb"); reflexivity || discriminate|]. split; [apply (H !"/a?b"); reflexivity || discriminate|].
  split; [discriminate|]. split; discriminate.
Qed.
Print Assumptions C86_raw_ambiguous_refuted.

(** ** C87.  get_port *)
Theorem C87_get_port :
  forall reg st s r w l, request_init reg st s = Ok r -> delivers s w -> max_ok (s_hdr st) ->
    parse_request_line (w_line w) = Ok l ->
    forall st' r', parse_request_header reg (st, r) = (Ok tt, (st', r')) ->
      exists a, authority l w a /\
        get_port r' = Ok (match snd (split_domain_port a) with
                          | [] => if seqb (lower (rl_scheme l)) !"https" then !"443"
                                  else if seqb (lower (rl_scheme l)) !"http" then !"80" else !"65536"
                          | p => p
                          end).
Proof.
  intros reg st s r w l Hi Hd Hm Hl st' r' H. destruct (C16_port reg st s r w l Hi Hd Hm Hl st' r' H) as (a & Ha & Hp).
  exists a. split; [exact Ha|]. unfold get_port, attr. unfold port_is in Hp. rewrite Hp. cbn [bind].
  destruct (snd (split_domain_port a)) as [|c p]; [|reflexivity]. unfold default_port.
  destruct (seqb _ _); [reflexivity|]. now destruct (seqb _ _).
Qed.
Print Assumptions C87_get_port.
(** so it need not be a port number: ports end at 65535 *)
Theorem C87_not_a_port_refuted :
  exists st s, let '(x, (_, r)) := run hdr st s in
    x = Ok tt /\ exists p n, get_port r = Ok p /\ py_int 10 p = Some n /\ (65535 < n)%Z.
Proof.
  exists ex_set, (req [!"GET / HTTP/1.1"; !"Host: a"] []). vm_compute. split; [reflexivity|].
  eexists _, _. split; [reflexivity|]. split; reflexivity.
Qed.
Print Assumptions C87_not_a_port_refuted.
Theorem C87_unparsed_refuted :
  forall reg st s r, request_init reg st s = Ok r -> get_port r = Ok !"None".
Proof.
  intros reg st s r H. rewrite init_eq in H. destruct (querydict _ _ _ _); [|easy]. now injection H as <-.
Qed.
Print Assumptions C87_unparsed_refuted.

(** ** C88.  repr of a request *)
Theorem C88_repr_unparsed :
  forall reg st s r, request_init reg st s = Ok r -> request_repr r = Ok !"<HttpRequest>".
Proof.
  intros reg st s r H. rewrite init_eq in H. destruct (querydict _ _ _ _); [|easy]. now injection H as <-.
Qed.
Print Assumptions C88_repr_unparsed.
(** a line feed in the method is printed as it is *)
Theorem C88_one_line_refuted :
  exists st s, let '(x, (_, r)) := run hdr st s in x = Ok tt /\ exists t, request_repr r = Ok t /\ In LF t.
Proof.
  exists ex_set, (req [!"GE" ++ [LF] ++ !"T /p HTTP/1.1"; !"Host: a"] []). vm_compute. split; [reflexivity|].
  eexists. split; [reflexivity|]. do 16 right. now left.
Qed.
Print Assumptions C88_one_line_refuted.
(** a method without control characters is printed on one line: every character of the
    result is printable ASCII *)
Theorem C88_one_line_partial :
  forall r m p q t, a_method (r_attrs r) = Some (Some m) -> get_path r = Ok p -> get_query r = Ok q ->
    is_bytes p -> is_bytes q -> (forall c, In c m -> (32 <= c < 127)%N) ->
    request_repr r = Ok t -> forall c, In c t -> (32 <= c < 127)%N.
Proof.
  intros r m p q t Hm Hp Hq Bp Bq HM HT.
  assert (HL : forall s, forallb (fun c => N.leb 32 c && N.ltb c 127) s = true -> forall c, In c s -> (32 <= c < 127)%N).
  { intros s H c Hc. rewrite forallb_forall in H. apply H in Hc. lia. }
  unfold request_repr, attr in HT. rewrite Hm in HT. cbn [bind] in HT. unfold get_full_path in HT. rewrite Hp, Hq in HT. cbn [bind] in HT.
  set (full := escape_uri_path false p ++ _) in HT.
  assert (HF : forall c, In c full -> (32 <= c < 127)%N).
  { intros c Hc. subst full. apply in_app_or in Hc as [Hc|Hc].
    - assert (HI : In c (path_chars ++ [percent])).
      { apply mem_In. rewrite <- path_safe_pct_iff.
        destruct (quote_chars (path_safe ++ [percent]) p c (is_bytes_only p Bp) Hc) as [[H _]|[->|H]]; [easy|reflexivity|].
        now rewrite (HEX_safe _ H). }
      exact (HL (path_chars ++ [percent]) eq_refl c HI).
    - apply in_app_or in Hc as [Hc|Hc]; [destruct (false && _) in Hc; [|easy]; exact (HL !"/" eq_refl c Hc)|].
      destruct (nonempty q); [|easy]. apply in_app_or in Hc as [Hc|Hc]; [exact (HL !"?" eq_refl c Hc)|].
      apply (C60_iri_to_uri_output q Bq) in Hc. exact (HL uri_chars eq_refl c Hc). }
  clearbody full. apply (f_equal (fun x => match x with Ok a => a | Err _ => [] end)) in HT. cbv beta iota in HT. subst t. intros c Hc.
  destruct (nonempty full); [|refine (HL _ _ c Hc); reflexivity].
  apply in_app_or in Hc as [Hc|Hc]; [refine (HL _ _ c Hc); reflexivity|].
  apply in_app_or in Hc as [Hc|Hc]; [now apply HM|].
  apply in_app_or in Hc as [Hc|Hc]; [refine (HL _ _ c Hc); reflexivity|].
  apply in_app_or in Hc as [Hc|Hc]; [|refine (HL _ _ c Hc); reflexivity].
  unfold quoted in Hc. destruct (mem 39%N full); apply in_app_or in Hc as [Hc|Hc];
    [exact (HL [34%N] eq_refl c Hc)| |exact (HL [39%N] eq_refl c Hc)|]; apply in_app_or in Hc as [Hc|Hc];
    [now apply HF|exact (HL [34%N] eq_refl c Hc)|now apply HF|exact (HL [39%N] eq_refl c Hc)].
Qed.
Print Assumptions C88_one_line_partial.

Example C86_case : forall rep,
  let reg := fun _ : str => Some (utf8 rep) in
  let '(_, w) := run hdr ex_set (req [!"GET /old?a=[b] HTTP/1.1"; !"Host: x"] []) in
  let '(_, (_, r)) := set_path (!"/n" ++ [195%N; 169%N] ++ !"w ;#") true w in
  plain_text (!"/n" ++ [195%N; 169%N] ++ !"w ;#") /\ plain_text !"a=[b]" /\ get_query r = Ok !"a=[b]" /\
  get_full_path_raw reg true r = Ok (PB (!"/n" ++ [195%N; 169%N] ++ !"w ;#/?a=[b]")).
Proof.
  intros rep reg. cbn zeta. destruct (run hdr ex_set _) as [x w] eqn:E. vm_compute in E. injection E as <- <-.
  split. { split; [now exists (!"/n" ++ [233%N] ++ !"w ;#")|]. intros H; repeat (destruct H as [H|H]; [discriminate|]); easy. }
  split. { split; [now exists !"a=[b]"|]. intros H; repeat (destruct H as [H|H]; [discriminate|]); easy. }
  split; reflexivity.
Qed.
Example C87_case :
  (let '(x, (_, r)) := run hdr ex_set (req [!"GET https://a/ HTTP/1.1"; !"A: b"] []) in x = Ok tt /\ get_port r = Ok !"443") /\
  (let '(x, (_, r)) := run hdr ex_set (req [!"GET / HTTP/1.1"; !"Host: a:8080"] []) in x = Ok tt /\ get_port r = Ok !"8080").
Proof. vm_compute. repeat split; reflexivity. Qed.
Example C88_case :
  let '(x, (_, r)) := run hdr ex_set (req [!"GET /it's?q HTTP/1.1"; !"Host: a"] []) in
  x = Ok tt /\ request_repr r = Ok (!"<HttpRequest: GET " ++ [34%N] ++ !"/it's?q" ++ [34%N] ++ !">") /\
  (forall c, In c !"GET" -> (32 <= c < 127)%N).
Proof.
  vm_compute. split; [reflexivity|]. split; [reflexivity|]. intros c [<-|[<-|[<-|[]]]]; split; discriminate || reflexivity.
Qed.
