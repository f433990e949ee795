(** * C85, C86, continued: text with '%' in it *)
From Coq Require Import ZifyBool ZifyN ZifyNat.
From Verif Require Import Py Spec HeadSpec PyFacts PyDict StreamModel CodecModel CodecFacts PercentModel PercentFacts QueryModel
  HeadModel HeadFacts HeaderModel PropsHead PropsUtil PropsPart RequestModel RequestSpec HeaderRun BodyRun PropsRequest UriModel PropsUri.

Definition hex_head (s : str) : bool :=
  match s with a :: b :: _ => match hexval a, hexval b with Some _, Some _ => true | _, _ => false end | _ => false end.
Lemma unquote_pct s : hex_head s = false -> unquote_to_bytes (percent :: s) = percent :: unquote_to_bytes s.
Proof.
  intros H. destruct s as [|a [|b t]]; [reflexivity|reflexivity|]. cbn [hex_head] in H. cbn [unquote_to_bytes].
  rewrite N.eqb_refl. destruct (hexval a); [|reflexivity]. destruct (hexval b); [discriminate|reflexivity].
Qed.
Lemma hexval_safe c v : hexval c = Some v -> always_safe c = true.
Proof.
  unfold hexval, always_safe, is_alnum, is_alpha, is_upper, is_lower, is_digit.
  intros H. repeat match type of H with context [if ?b then _ else _] => destruct b eqn:?; [|] end; try discriminate; lia.
Qed.
Lemma quote_head safe c s : exists r, quote safe (c :: s) = (if always_safe c || mem c safe then c else percent) :: r /\
  (always_safe c || mem c safe = true -> r = quote safe s).
Proof.
  rewrite quote_cons. unfold quote_byte. destruct (always_safe c || mem c safe).
  - eexists. split; reflexivity.
  - eexists. split; [reflexivity|discriminate].
Qed.
Lemma hex_head_quote safe s : hex_head (quote safe s) = hex_head s.
Proof.
  destruct s as [|a s]; [reflexivity|]. destruct (quote_head safe a s) as (r & -> & Hr).
  destruct (always_safe a || mem a safe) eqn:Ea.
  - rewrite (Hr eq_refl). clear r Hr. destruct s as [|b t]; [reflexivity|].
    destruct (quote_head safe b t) as (r & -> & _). destruct (always_safe b || mem b safe) eqn:Eb; [reflexivity|].
    cbn [hex_head]. destruct (hexval a); [|reflexivity]. destruct (hexval b) eqn:E; [|reflexivity].
    apply hexval_safe in E. now rewrite E in Eb.
  - destruct (hexval a) as [v|] eqn:E; [apply hexval_safe in E; now rewrite E in Ea|].
    destruct r as [|x r], s as [|b t]; cbn [hex_head]; rewrite ?E; reflexivity.
Qed.
Lemma unquote_quote_any safe s : mem percent safe = true -> is_bytes s -> unquote_to_bytes (quote safe s) = unquote_to_bytes s.
Proof.
  intros HP. remember (length s) as n eqn:En. revert s En. induction n as [n IH] using lt_wf_ind. intros s En HB.
  destruct s as [|c s]; [reflexivity|]. cbn [length] in En.
  assert (HBs : is_bytes s) by (intros x Hx; apply HB; now right).
  rewrite quote_cons. unfold quote_byte. destruct (N.eqb_spec c percent) as [->|Hc].
  - rewrite HP, orb_true_r. cbn [app]. destruct (hex_head s) eqn:EH.
    + destruct s as [|a [|b t]]; try discriminate. cbn [hex_head] in EH.
      destruct (hexval a) as [x|] eqn:Ea; [|discriminate]. destruct (hexval b) as [y|] eqn:Eb; [|discriminate].
      rewrite !quote_cons. unfold quote_byte. rewrite (hexval_safe a x Ea), (hexval_safe b y Eb). cbn [orb app unquote_to_bytes].
      rewrite N.eqb_refl, Ea, Eb. f_equal. apply (IH (length t)); [cbn in En; lia|reflexivity|]. intros z Hz. apply HBs. now right; right.
    + rewrite !unquote_pct by (try rewrite hex_head_quote; exact EH). f_equal. apply (IH (length s)); [lia|reflexivity|exact HBs].
  - rewrite (unquote_plain c s Hc). assert (HI : unquote_to_bytes (quote safe s) = unquote_to_bytes s) by (apply (IH (length s)); [lia|reflexivity|exact HBs]). rewrite <- HI.
    destruct (always_safe c || mem c safe); [cbn [app]; now apply unquote_plain|].
    assert (Hb : (c < 256)%N) by (apply HB; now left).
    rewrite unquote_escape; [|apply N.div_lt_upper_bound; lia|apply N.mod_lt; lia]. f_equal. pose proof (N.div_mod c 16). lia.
Qed.
(** an escape: '%' and two hexadecimal digits *)
Definition hex_digit (c : char) : Prop := In c !"0123456789abcdefABCDEF".
Definition has_escape (s : str) : Prop := exists u x y v, s = u ++ [percent; x; y] ++ v /\ hex_digit x /\ hex_digit y.
Lemma hexval_digit c : (exists v, hexval c = Some v) <-> hex_digit c.
Proof.
  split.
  - intros [v H]. apply mem_In. assert (Hc : (c < 128)%N) by (apply hexval_safe in H; unfold always_safe, is_alnum, is_alpha, is_upper, is_lower, is_digit in H; lia).
    pose proof (ascii_check (fun c => match hexval c with Some _ => mem c !"0123456789abcdefABCDEF" | None => true end)
      ltac:(vm_compute; reflexivity) c Hc) as HK. cbv beta in HK. now rewrite H in HK.
  - unfold hex_digit. intros H. repeat (destruct H as [<-|H]; [eexists; reflexivity|]). destruct H.
Qed.
Lemma unquote_le n : forall s, length s <= n -> length (unquote_to_bytes s) <= length s.
Proof.
  induction n as [|n IH]; intros [|c s] H; cbn [length] in *; try (cbn; lia).
  destruct (N.eqb_spec c percent) as [->|Hc].
  - destruct (hex_head s) eqn:EH.
    + destruct s as [|a [|b t]]; try discriminate. cbn [hex_head] in EH. cbn [unquote_to_bytes].
      destruct (hexval a); [|discriminate]. destruct (hexval b); [|discriminate]. rewrite N.eqb_refl. cbn [length] in *.
      pose proof (IH t ltac:(lia)). lia.
    + rewrite unquote_pct by exact EH. cbn [length]. pose proof (IH s ltac:(lia)). lia.
  - rewrite unquote_plain by exact Hc. cbn [length]. pose proof (IH s ltac:(lia)). lia.
Qed.
Lemma unquote_id_iff s : unquote_to_bytes s = s <-> ~ has_escape s.
Proof.
  remember (length s) as n eqn:En. revert s En. induction n as [n IH] using lt_wf_ind. intros s En.
  destruct s as [|c s]; [split; [|reflexivity]; intros _ (u & x & y & v & H & _); now destruct u|]. cbn [length] in En.
  assert (IHs : unquote_to_bytes s = s <-> ~ has_escape s) by (apply (IH (length s)); [lia|reflexivity]).
  destruct (N.eqb_spec c percent) as [->|Hc].
  - destruct (hex_head s) eqn:EH.
    + destruct s as [|a [|b t]]; try discriminate. cbn [hex_head] in EH.
      destruct (hexval a) as [x|] eqn:Ea; [|discriminate]. destruct (hexval b) as [y|] eqn:Eb; [|discriminate].
      split.
      * intros H. exfalso. apply (f_equal (@length N)) in H. cbn [unquote_to_bytes] in H. rewrite N.eqb_refl, Ea, Eb in H. cbn [length] in H.
        pose proof (unquote_le (length t) t (le_n _)). lia.
      * intros H. exfalso. apply H. exists [], a, b, t. split; [reflexivity|]. split; apply hexval_digit; eexists; eassumption.
    + rewrite unquote_pct by exact EH. split.
      * intros [= H] (u & x & y & v & E & Hx & Hy). destruct u as [|z u].
        -- cbn in E. injection E as ->. apply hexval_digit in Hx as [vx Hx]. apply hexval_digit in Hy as [vy Hy]. cbn in EH. now rewrite Hx, Hy in EH.
        -- injection E as _ E. apply IHs in H. apply H. now exists u, x, y, v.
      * intros H. f_equal. apply IHs. intros (u & x & y & v & -> & Hx & Hy). apply H. now exists (percent :: u), x, y, v.
  - rewrite unquote_plain by exact Hc. split.
    + intros [= H] (u & x & y & v & E & Hx & Hy). destruct u as [|z u]; [cbn in E; injection E as E _; now elim Hc|].
      injection E as _ E. apply IHs in H. apply H. now exists u, x, y, v.
    + intros H. f_equal. apply IHs. intros (u & x & y & v & -> & Hx & Hy). apply H. now exists (c :: u), x, y, v.
Qed.

(** ** C85.  iri_to_uri then uri_to_iri: the escapes that were in the text are decoded,
    nothing else changes; so it gives the text back exactly when there is no escape in it *)
Theorem C85_exact :
  forall reg s, utf8_registry reg -> is_bytes s -> utf8_text (unquote_to_bytes s) ->
    exists x, uri_to_iri reg (PU (iri_to_uri s)) = Ok x /\ pchars x = unquote_to_bytes s /\ (pchars x = s <-> ~ has_escape s).
Proof.
  intros reg s HR HB HT. pose proof (unquote_quote_any iri_safe s eq_refl HB) as HU.
  destruct s as [|c s].
  - exists (PU []). split; [reflexivity|]. split; [reflexivity|]. split; [|reflexivity]. intros _. now apply unquote_id_iff.
  - exists (PB (unquote_to_bytes (c :: s))). split; [|split; [reflexivity|apply unquote_id_iff]].
    rewrite uri_text; [unfold iri_to_uri; now rewrite HU|exact HR|now apply iri_ascii|intros H; now apply quote_nil in H|unfold iri_to_uri; now rewrite HU].
Qed.
Print Assumptions C85_exact.
(** every text with an escape in it comes back changed *)
Theorem C85_escapes_refuted :
  forall reg s, utf8_registry reg -> is_bytes s -> utf8_text (unquote_to_bytes s) -> has_escape s ->
    exists x, uri_to_iri reg (PU (iri_to_uri s)) = Ok x /\ pchars x <> s.
Proof.
  intros reg s HR HB HT HE. destruct (C85_exact reg s HR HB HT) as (x & H1 & _ & H3). exists x. split; [exact H1|]. tauto.
Qed.
Print Assumptions C85_escapes_refuted.
Example C85_exact_case : has_escape !"100%41" /\ unquote_to_bytes !"100%41" = !"100A" /\ ~ has_escape !"100%, 5%4".
Proof.
  split; [exists !"100", 52%N, 49%N, []; cbn; tauto|]. split; [reflexivity|]. apply unquote_id_iff. reflexivity.
Qed.

(** ** C86.  The raw full path of every path and query, with '%' or without *)
(** [escaped s t]: [t] is [s] with some bytes that are neither '%' nor '/' nor hexadecimal digits escaped *)
Inductive escaped : str -> str -> Prop :=
| es_nil : escaped [] []
| es_keep c s t : escaped s t -> escaped (c :: s) (c :: t)
| es_code c s t : (c < 256)%N -> c <> percent /\ c <> 47%N -> hexval c = None -> escaped s t ->
    escaped (c :: s) ([percent; hexdig (c / 16); hexdig (c mod 16)] ++ t).
Lemma escaped_app a b : forall c d, escaped a b -> escaped c d -> escaped (a ++ c) (b ++ d).
Proof.
  intros c d H Hcd. induction H as [|x s t H IH|x s t H1 H2 H3 H IH]; [exact Hcd|now apply es_keep|].
  rewrite <- app_assoc. now apply es_code.
Qed.
Lemma escaped_refl s : escaped s s.
Proof. induction s; constructor. assumption. Qed.
Lemma escaped_head s t : escaped s t -> hex_head t = hex_head s.
Proof.
  intros H. destruct H as [|a s t H|a s t H1 H2 H3 H]; [reflexivity| |].
  - destruct H as [|b s t H|b s t H1 H2 H3 H]; [reflexivity|reflexivity|]. cbn [hex_head app]. rewrite H3. reflexivity.
  - cbn [hex_head app]. destruct s; [reflexivity|]. now rewrite H3.
Qed.
Lemma escaped_unquote s t : escaped s t -> unquote_to_bytes t = unquote_to_bytes s.
Proof.
  remember (length s) as n eqn:En. revert s t En. induction n as [n IH] using lt_wf_ind. intros s t En H.
  destruct H as [|c s t H|c s t H1 H2 H3 H]; [reflexivity| |]; cbn [length] in En.
  - destruct (N.eqb_spec c percent) as [->|Hc].
    + destruct (hex_head s) eqn:EH.
      * destruct s as [|a [|b u]]; try discriminate. cbn [hex_head] in EH.
        destruct (hexval a) as [x|] eqn:Ea; [|discriminate]. destruct (hexval b) as [y|] eqn:Eb; [|discriminate].
        inversion H as [|? ? t1 H1 E1 E2|? ? t1 _ _ H1 _ E1 E2]; subst; [|congruence].
        inversion H1 as [|? ? t2 H2 E1 E2|? ? t2 _ _ H2 _ E1 E2]; subst; [|congruence].
        cbn [unquote_to_bytes]. rewrite N.eqb_refl, Ea, Eb. f_equal. apply (IH (length u)); [cbn; lia|reflexivity|exact H2].
      * rewrite !unquote_pct by (try rewrite (escaped_head s t H); exact EH). f_equal. apply (IH (length s)); [lia|reflexivity|exact H].
    + rewrite !unquote_plain by exact Hc. f_equal. apply (IH (length s)); [lia|reflexivity|exact H].
  - rewrite (unquote_plain c s (proj1 H2)). rewrite unquote_escape; [|apply N.div_lt_upper_bound; lia|apply N.mod_lt; lia].
    rewrite (IH (length s) ltac:(lia) s t eq_refl H). f_equal. pose proof (N.div_mod c 16). lia.
Qed.
Lemma not_safe_hex c safe : always_safe c || mem c safe = false -> hexval c = None.
Proof. intros H. destruct (hexval c) eqn:E; [apply hexval_safe in E; now rewrite E in H|reflexivity]. Qed.
Lemma quote_escaped safe s : mem percent safe = true -> mem 47%N safe = true -> is_bytes s -> escaped s (quote safe s).
Proof.
  intros HP HS. induction s as [|c s IH]; intros HB; [constructor|]. rewrite quote_cons. unfold quote_byte.
  assert (HI : escaped s (quote safe s)) by (apply IH; intros x Hx; apply HB; now right).
  destruct (always_safe c || mem c safe) eqn:E; [now apply es_keep|].
  apply es_code; [apply HB; now left|split; intros ->; [now rewrite HP, orb_true_r in E|now rewrite HS, orb_true_r in E]|now apply not_safe_hex in E|exact HI].
Qed.
Lemma enc_path_escaped p : is_bytes p -> escaped p (enc_path p).
Proof.
  induction p as [|c p IH]; intros HB; [constructor|]. rewrite enc_path_cons. change (c :: p) with ([c] ++ p).
  apply escaped_app; [|apply IH; intros x Hx; apply HB; now right].
  assert (Hc : (c < 256)%N) by (apply HB; now left).
  assert (HQ : quote (path_safe ++ [percent]) [percent; hexdig (c / 16); hexdig (c mod 16)] =
               [percent; hexdig (c / 16); hexdig (c mod 16)]).
  { apply quote_fixed. intros x [<-|[<-|[<-|[]]]]; [reflexivity| |]; rewrite HEX_safe; try reflexivity; apply hexdig_HEX;
      [apply N.div_lt_upper_bound; lia|apply N.mod_lt; lia]. }
  unfold enc_path, iri_to_uri, escape_uri_path. unfold quote at 2. cbn [flat_map]. unfold quote_byte.
  destruct (always_safe c || mem c iri_safe) eqn:E; cbn [app].
  - apply quote_escaped; [reflexivity|reflexivity|]. intros x [<-|[]]. exact Hc.
  - rewrite HQ. change [percent; hexdig (c / 16); hexdig (c mod 16)] with ([percent; hexdig (c / 16); hexdig (c mod 16)] ++ []).
    apply es_code; [exact Hc|split; intros ->; discriminate E|now apply not_safe_hex in E|constructor].
Qed.
Lemma escaped_slash s t : escaped s t -> endswith t !"/" = endswith s !"/".
Proof.
  assert (HE : forall x y (l : str), endswith (x :: y :: l) !"/" = endswith (y :: l) !"/").
  { intros x y l. destruct (exists_last (l := y :: l)) as (l' & z & ->); [discriminate|].
    change !"/" with [47%N]. change (x :: l' ++ [z]) with ((x :: l') ++ [z]). now rewrite !endswith_last. }
  assert (HN : forall s t, escaped s t -> s = [] <-> t = []).
  { intros a b []; split; intros HX; easy || discriminate HX. }
  intros H. induction H as [|c s t H IH|c s t H1 H2 H3 H IH]; [reflexivity| |].
  - destruct s as [|a s].
    + assert (t = []) as -> by now apply (HN _ _ H). reflexivity.
    + destruct t as [|b t]; [inversion H|]. now rewrite !HE.
  - assert (HD : endswith ([percent; hexdig (c / 16)] ++ [hexdig (c mod 16)]) !"/" = false).
    { change !"/" with [47%N]. rewrite endswith_last. apply N.eqb_neq. intros E.
      assert (HX : is_HEX (hexdig (c mod 16)) = true) by (apply hexdig_HEX, N.mod_lt; lia). rewrite <- E in HX. discriminate. }
    cbn [app] in *. destruct s as [|a s].
    + assert (t = []) as -> by now apply (HN _ _ H). rewrite HD. symmetry. change (endswith ([] ++ [c]) [47%N] = false).
      rewrite endswith_last. apply N.eqb_neq. intros <-. now apply (proj2 H2).
    + destruct t as [|b t]; [inversion H|]. now rewrite !HE.
Qed.
Theorem C86_exact :
  forall reg st r p q slash, utf8_registry reg -> is_bytes p -> is_bytes q -> get_query r = Ok q ->
    utf8_text (unquote_to_bytes (full_path_text slash p q)) ->
    let r' := snd (snd (set_path p true (st, r))) in
    exists x, get_full_path_raw reg slash r' = Ok x /\ pchars x = unquote_to_bytes (full_path_text slash p q).
Proof.
  intros reg st r p q slash HR HB HBq Hq HT r'.
  destruct (C62_set_path_safe st r p HB) as (x & Hx & _ & _ & HF). specialize (HF slash q Hq). fold r' in HF, Hx.
  assert (Ex : x = enc_path p) by (cbn in Hx; unfold get_path in Hx; now injection Hx as <-). subst x. clear Hx.
  unfold get_full_path_raw. rewrite HF. cbn [bind]. rewrite (escaped_slash p (enc_path p)) by now apply enc_path_escaped. clear HF.
  set (t := enc_path p ++ _).
  assert (HE : escaped (full_path_text slash p q) t).
  { unfold full_path_text, t. apply escaped_app; [now apply enc_path_escaped|]. apply escaped_app; [apply escaped_refl|].
    destruct q as [|c q]; [constructor|]. apply escaped_app; [apply escaped_refl|]. now apply quote_escaped. }
  pose proof (escaped_unquote _ _ HE) as HU.
  assert (HA : ascii_only t = true).
  { unfold t, ascii_only. rewrite !forallb_app, !andb_true_iff. split; [now apply enc_path_ascii|].
    split; [now destruct (slash && negb (endswith p !"/"))|]. destruct q as [|c q]; [reflexivity|].
    rewrite forallb_app. apply andb_true_iff. split; [reflexivity|now apply iri_ascii]. }
  clearbody t. destruct t as [|c t].
  - exists (PU []). split; [reflexivity|]. now rewrite <- HU.
  - exists (PB (unquote_to_bytes (full_path_text slash p q))). split; [|reflexivity].
    rewrite uri_text; [now rewrite HU|exact HR|exact HA|discriminate|now rewrite HU].
Qed.
Print Assumptions C86_exact.
(** wherever the question mark is put: path [p ++ "?" ++ q] without a query and path [p]
    with query [q] print the same raw full path, for every [p] and [q] *)
Theorem C86_same_raw_refuted :
  forall reg st r1 r2 p q, utf8_registry reg -> is_bytes p -> is_bytes q -> q <> [] ->
    get_query r1 = Ok [] -> get_query r2 = Ok q -> utf8_text (unquote_to_bytes (p ++ !"?" ++ q)) ->
    exists x y, get_full_path_raw reg false (snd (snd (set_path (p ++ !"?" ++ q) true (st, r1)))) = Ok x /\
              get_full_path_raw reg false (snd (snd (set_path p true (st, r2)))) = Ok y /\ pchars x = pchars y.
Proof.
  intros reg st r1 r2 p q HR HB HBq Hq H1 H2 HT.
  assert (E1 : full_path_text false (p ++ !"?" ++ q) [] = p ++ !"?" ++ q) by (unfold full_path_text; cbn [andb]; now rewrite !app_nil_r).
  assert (E2 : full_path_text false p q = p ++ !"?" ++ q) by (unfold full_path_text; cbn [andb app]; now destruct q).
  assert (HB1 : is_bytes (p ++ !"?" ++ q)).
  { intros c Hc. apply in_app_or in Hc as [Hc|Hc]; [now apply HB|]. apply in_app_or in Hc as [[<-|[]]|Hc]; [reflexivity|now apply HBq]. }
  destruct (C86_exact reg st r1 (p ++ !"?" ++ q) [] false HR HB1 (fun c H => match H with end) H1) as (x & Hx & Ex); [now rewrite E1|].
  destruct (C86_exact reg st r2 p q false HR HB HBq H2) as (y & Hy & Ey); [now rewrite E2|].
  exists x, y. split; [exact Hx|]. split; [exact Hy|]. now rewrite Ex, Ey, E1, E2.
Qed.
Print Assumptions C86_same_raw_refuted.
Example C86_exact_case : forall rep,
  let reg := fun _ : str => Some (utf8 rep) in
  let '(_, w) := run hdr ex_set (req [!"GET /old?a=%5B HTTP/1.1"; !"Host: x"] []) in
  let '(_, (_, r)) := set_path !"/50%25" true w in
  get_query r = Ok !"a=%5B" /\ unquote_to_bytes (full_path_text true !"/50%25" !"a=%5B") = !"/50%/?a=[" /\
  get_full_path_raw reg true r = Ok (PB !"/50%/?a=[").
Proof.
  intros rep reg. cbn zeta. destruct (run hdr ex_set _) as [x w] eqn:E. vm_compute in E. injection E as <- <-.
  split; [reflexivity|]. split; reflexivity.
Qed.
