(** * C138: redirecting to the address of the request itself *)
From Coq Require Import ZifyBool ZifyN ZifyNat.
From Verif Require Import Py Spec HeadSpec PyFacts PyDict StreamModel StreamSpec StreamFacts StreamCalm CodecModel
  QueryModel QueryFacts HeadModel HeadFacts UrlFacts PercentModel PercentFacts HeaderModel RequestModel RequestSpec HeaderRun UriModel UtilModel UtilFacts
  PropsUtil PropsHead PropsPart PropsRequest PropsEnd PropsHost.

(** visible ASCII other than the backslash *)
Definition tame (c : N) : Prop := (33 <= c /\ c <= 126 /\ c <> 92)%N.
Lemma tame_uws c : tame c -> is_uws c = false.
Proof. unfold tame, is_uws, is_ws. lia. Qed.
Lemma mem_tame l : forallb (fun c => (33 <=? c)%N && (c <=? 126)%N && negb (c =? 92)%N) l = true -> forall c, mem c l = true -> tame c.
Proof. intros H c Hc. apply mem_In in Hc. rewrite forallb_forall in H. apply H in Hc. unfold tame. lia. Qed.
Lemma safe_tame c : always_safe c = true -> tame c.
Proof. unfold always_safe, is_alnum, is_alpha, is_lower, is_upper, is_digit, tame. lia. Qed.
Lemma quote_tame safe s : is_bytes s -> forallb (fun c => (33 <=? c)%N && (c <=? 126)%N && negb (c =? 92)%N) safe = true ->
  forall c, In c (quote safe s) -> tame c.
Proof.
  intros Hb Hs c Hin. unfold quote in Hin. apply in_flat_map in Hin as (x & Hx & Hin). specialize (Hb x Hx).
  unfold quote_byte in Hin. destruct (always_safe x || mem x safe) eqn:E.
  - destruct Hin as [<-|[]]. apply orb_true_iff in E as [E|E]; [now apply safe_tame|now apply (mem_tame safe)].
  - assert (HH : forall d, (d < 16)%N -> tame (hexdig d)).
    { intros d Hd. unfold hexdig, tame. destruct (d <? 10)%N eqn:E2; lia. }
    destruct Hin as [<-|[<-|[<-|[]]]]; [unfold tame, percent; lia| |]; apply HH.
    + apply N.div_lt_upper_bound; lia.
    + apply N.mod_lt. lia.
Qed.
Lemma path_tame p : is_bytes p -> forall c, In c (escape_uri_path false p) -> tame c.
Proof. intros Hp. apply quote_tame; [exact Hp|reflexivity]. Qed.
Lemma query_tame q : is_bytes q -> forall c, In c (iri_to_uri q) -> tame c.
Proof. intros Hp. apply quote_tame; [exact Hp|reflexivity]. Qed.

Lemma tame_slash : tame 47%N. Proof. unfold tame. lia. Qed.
Lemma tame_qmark : tame 63%N. Proof. unfold tame. lia. Qed.
Lemma local_safe ctl hosts https c t : (forall x, In x (c :: t) -> tame x) -> (c = 47 \/ c = 63)%N -> (c = 47%N -> hd 0%N t <> 47%N) ->
  ctl c = false -> is_safe_url ctl (Some (c :: t)) hosts https = true.
Proof.
  intros HT Hc Ht Hctl. apply C63_safe_url_iff. cbv zeta.
  assert (Hw : ustrip (c :: t) = c :: t).
  { apply strip_by_tight, tight_by_all. intros x Hx. now apply tame_uws, HT. }
  assert (HR : replacec 92%N slash (c :: t) = c :: t).
  { unfold replacec. rewrite <- (map_id (c :: t)) at 2. apply map_ext_in. intros x Hx. apply HT in Hx as (_ & _ & Hx).
    apply N.eqb_neq in Hx. now rewrite Hx. }
  rewrite Hw, HR.
  assert (Hns : forall u, c :: t <> slash :: slash :: u).
  { intros u [= -> ->]. now apply Ht. }
  assert (HS : safe_reading ctl hosts https (c :: t)).
  { split; [|split; [|split]].
    - intros [u Hu]. now apply (Hns (slash :: u)).
    - intros x y [= <- _]. exact Hctl.
    - intros sc rest [[Hne Hall] Heq]. destruct sc as [|x sc]; [easy|]. injection Heq as <- _. apply scheme_text_iff in Hall.
      destruct Hc as [-> | ->]; discriminate Hall.
    - intros _ n (u & Hu & _) _. exfalso. now apply (Hns (n ++ u)). }
  split; [easy|split; exact HS].
Qed.

(** the same, for the encoded address of a request *)
Lemma address_safe ctl hosts https sl p q : is_bytes p -> is_bytes q -> (p = [] \/ exists t, p = 47%N :: t) -> ctl 47%N = false -> ctl 63%N = false ->
  let u := escape_uri_path false p ++ (if sl && negb (endswith p !"/") then !"/" else []) ++ (if nonempty q then !"?" ++ iri_to_uri q else []) in
  u = [] \/ is_safe_url ctl (Some (escape_leading_slashes u)) hosts https = true.
Proof.
  intros Hp Hq HP C1 C2 u.
  assert (HT : forall x, In x u -> tame x).
  { intros x Hx. unfold u in Hx. apply in_app_or in Hx as [Hx|Hx]; [now apply (path_tame p)|]. apply in_app_or in Hx as [Hx|Hx].
    - destruct (_ && _); [|easy]. destruct Hx as [<-|[]]. exact tame_slash.
    - destruct (nonempty q); [|easy]. apply in_app_or in Hx as [[<-|[]]|Hx]; [exact tame_qmark|now apply (query_tame q)]. }
  assert (HH : u = [] \/ exists c t, u = c :: t /\ (c = 47 \/ c = 63)%N).
  { unfold u. destruct HP as [->|(t & ->)].
    - cbn [escape_uri_path quote flat_map app]. destruct (sl && _); [right; exists 47%N; eexists; split; [reflexivity|now left]|].
      destruct (nonempty q); [right; exists 63%N; eexists; split; [reflexivity|now right]|now left].
    - right. exists 47%N. eexists. split; [reflexivity|now left]. }
  destruct HH as [->|(c & t & E & Hc)]; [now left|right]. clearbody u. subst u.
  unfold escape_leading_slashes. destruct (startswith (c :: t) !"//") eqn:ES.
  - cbn [startswith prefixb lit] in ES. destruct t as [|d t]; [cbn in ES; now rewrite andb_false_r in ES|].
    change (!"/%2F" ++ skipn 2 (c :: d :: t)) with (47%N :: (!"%2F" ++ t)). apply local_safe; [|now left|discriminate|exact C1].
    intros x [<-|Hx]; [exact tame_slash|]. apply in_app_or in Hx as [Hx|Hx]; [|apply HT; right; now right].
    cbn in Hx. unfold tame. lia.
  - apply local_safe; [exact HT|exact Hc| |now destruct Hc as [-> | ->]].
    intros ->. destruct t as [|d t]; [discriminate|]. cbn in *. intros ->. discriminate.
Qed.

(** the paths that a request line can give *)
Lemma cut_head c s a b : cut c s = (a, b) -> a = [] \/ exists x y z, a = x :: y /\ s = x :: z.
Proof.
  intros H. apply cut_spec in H as H'. unfold cut in H. destruct (split1_cases c s) as [(n & v & -> & Hn & E)|[Hn E]]; rewrite E in H; injection H as <- <-.
  - destruct n as [|x n]; [now left|right]. now exists x, n, (n ++ c :: v).
  - destruct s as [|x s]; [now left|right]. now exists x, s, s.
Qed.
Lemma span_head : forall s a b, span_netloc s = (a, b) -> b = [] \/ exists x y, b = x :: y /\ is_netloc_end x = true.
Proof.
  induction s as [|c s IH]; intros a b H; cbn [span_netloc] in H; [injection H as <- <-; now left|].
  destruct (is_netloc_end c) eqn:E; [injection H as <- <-; right; now exists c, s|].
  destruct (span_netloc s) as [a1 b1] eqn:E1. injection H as <- <-. now apply (IH a1).
Qed.
Lemma path_rooted url u : urlparse url = Ok u ->
  (exists t, url = 47%N :: t) \/ (exists sc t, has_scheme url sc (47%N :: t)) ->
  up_path u = [] \/ exists t, up_path u = 47%N :: t.
Proof.
  unfold urlparse. destruct (ascii_only url); [|easy]. unfold urlparse_text, urlsplit. intros H HR.
  assert (HS : exists sc t, split_scheme url = (sc, 47%N :: t)).
  { destruct HR as [(t & ->)|(sc & t & HS)].
    - exists [], t. apply split_scheme_none. intros sc rest [[Hne Hall] Heq]. destruct sc as [|x sc]; [easy|].
      injection Heq as <- _. apply scheme_text_iff in Hall. discriminate Hall.
    - exists (lower sc), t. now apply split_scheme_has. }
  destruct HS as (sc & t & HS). rewrite HS in H. destruct (split_netloc (47%N :: t)) as [n u2] eqn:EN.
  destruct (_ || _) in H; [discriminate|]. destruct (cut hash u2) as [u3 f] eqn:E3. destruct (cut qmark u3) as [pa q] eqn:E4.
  cbn [bind su_scheme su_path su_netloc su_query su_fragment] in H.
  assert (HP : pa = [] \/ exists t, pa = 47%N :: t).
  { assert (H2 : u2 = [] \/ exists x y, u2 = x :: y /\ is_netloc_end x = true).
    { unfold split_netloc in EN. destruct (startswith _ _); [now apply span_head in EN|]. injection EN as <- <-. right. now exists 47%N, t. }
    apply cut_head in E4 as E4'. destruct E4' as [->|(x & y & z & -> & ->)]; [now left|].
    apply cut_head in E3 as E3'. destruct E3' as [E|(x2 & y2 & z2 & [= <- <-] & ->)]; [discriminate|].
    destruct H2 as [E|(x3 & y3 & [= <- <-] & HX)]; [discriminate|].
    right. exists y. f_equal. unfold is_netloc_end in HX.
    assert (x = 47 \/ x = 63 \/ x = 35)%N as [->|[->| ->]] by (unfold slash, qmark, hash in HX; lia); [reflexivity| |].
    - exfalso. apply cut_spec in E4 as (_ & _ & _ & H4). apply H4. now left.
    - exfalso. apply cut_spec in E3 as (_ & _ & _ & H4). apply H4. now left. }
  destruct (_ && mem semi pa) eqn:EM in H.
  - apply andb_true_iff in EM as [_ EM]. destruct (splitparams pa) as [p1 p2] eqn:EP. injection H as <-. cbn [up_path].
    apply splitparams_spec in EP as (pp & HPP & E); [|exact EM]. destruct p1 as [|c p1]; [now left|right].
    destruct HP as [->|(t' & ->)]; [discriminate|]. injection E as <- _. now exists p1.
  - injection H as <-. exact HP.
Qed.

(** after a successful parse of a request for a path or an absolute URL, the escaped address is
    a redirect target that no list of hosts rejects *)
Theorem C138_own_address :
  forall reg st s r w m url v st1 r1 ctl hosts https sl, request_init reg st s = Ok r -> delivers s w -> max_ok (s_hdr st) ->
    request_line w m url v -> (exists t, url = 47%N :: t) \/ (exists sc t, has_scheme url sc (47%N :: t)) ->
    parse_request_header reg (st, r) = (Ok tt, (st1, r1)) -> ctl 47%N = false -> ctl 63%N = false ->
    exists u, get_full_path sl r1 = Ok u /\
      ((get_path r1 = Ok [] /\ get_query r1 = Ok [] /\ u = []) \/
       is_safe_url ctl (Some (escape_leading_slashes u)) hosts https = true).
Proof.
  intros reg st s r w m url v st1 r1 ctl hosts https sl Hi Hd Hm (HL & L1 & L2 & L3) HR HP C1 C2.
  destruct (header_known _ _ _ _ _ _ _ Hi Hd Hm HP) as (l & host & h & c & ch & g & El & Ea & Eme & _).
  pose proof (C11_method_and_version_verbatim m url v L1 L2 L3) as H11. rewrite HL in El. rewrite El in H11.
  destruct H11 as (_ & _ & EU). set (u := mkParse (rl_scheme l) (rl_domain l) (rl_path l) (rl_params l) (rl_query l) (rl_fragment l)) in *. change (urlparse url = Ok u) in EU.
  pose proof (path_rooted url u EU HR) as HQ.
  assert (HB : is_bytes (up_path u) /\ is_bytes (up_query u)).
  { assert (HA : forall x, In x url -> (x < 128)%N).
    { unfold urlparse in EU. destruct (ascii_only url) eqn:E; [|discriminate]. unfold ascii_only in E. rewrite forallb_forall in E.
      intros x Hx. apply E in Hx. unfold is_ascii in Hx. lia. }
    destruct (C12_url_split_lossless url u EU) as (s0 & S & N & P & Q & F & E & _ & _ & _ & _ & HQQ & _).
    split; intros x Hx; apply N.lt_trans with 128%N; try lia; apply HA; rewrite E; rewrite !in_app_iff; [tauto|].
    destruct HQQ as [-> |[-> E0]]; [right; right; right; right; left; apply in_or_app; now right|rewrite E0 in Hx; easy]. }
  destruct HB as [HB1 HB2].
  unfold get_full_path, get_path, attr, get_query. rewrite Ea, Eme. cbn [line_attrs a_path m_query bind].
  change (rl_path l) with (up_path u). change (rl_query l) with (up_query u). clearbody u.
  eexists. split; [reflexivity|].
  destruct (address_safe ctl hosts https sl (up_path u) (up_query u) HB1 HB2 HQ C1 C2) as [E|E]; [left|right; exact E].
  cbn zeta in E. apply app_eq_nil in E as E'. destruct E' as [E1 E2]. apply app_eq_nil in E2 as [_ E3].
  assert (P0 : up_path u = []).
  { destruct (up_path u) as [|x y]; [reflexivity|]. exfalso. unfold escape_uri_path in E1. cbn [app] in E1. rewrite quote_cons in E1.
    apply app_eq_nil in E1 as [E1 _]. unfold quote_byte in E1. destruct (_ || _) in E1; discriminate. }
  assert (Q0 : up_query u = []) by (destruct (up_query u); [reflexivity|discriminate]).
  split; [now rewrite P0|]. split; [now rewrite Q0|]. exact E.
Qed.
Print Assumptions C138_own_address.

(** without the escaping the address can be that of another site: for every host name [n], a request
    for "////n/..." has the full path "//n/...", which a browser takes for a URL at that host *)
Theorem C138_unescaped_refuted :
  forall reg st s r w m n t v st1 r1 ctl hosts https, request_init reg st s = Ok r -> delivers s w -> max_ok (s_hdr st) ->
    request_line w m (!"////" ++ n ++ 47%N :: t) v -> parse_request_header reg (st, r) = (Ok tt, (st1, r1)) ->
    n <> [] -> (forall c, In c n -> In c path_chars /\ c <> 47%N) -> (forall c, In c t -> In c path_chars) -> ~ In n hosts ->
    get_full_path false r1 = Ok (!"//" ++ n ++ 47%N :: t) /\
    is_safe_url ctl (Some (!"//" ++ n ++ 47%N :: t)) hosts https = false.
Proof.
  intros reg st s r w m n t v st1 r1 ctl hosts https Hi Hd Hm (HL & L1 & L2 & L3) HP Hn Hc Ht Hh. split.
  2:{ apply (C63_foreign_host_rejected ctl hosts https [] slash slash n t); try easy; try (now left).
      intros c Hin. apply Hc in Hin as [Hin H47]. split; [exact H47|]. cbn in Hin.
      unfold slash, qmark, hash. repeat (destruct Hin as [<-|Hin]; [repeat split; discriminate|]). easy. }
  destruct (header_known _ _ _ _ _ _ _ Hi Hd Hm HP) as (l & host & h & c & ch & g & El & Ea & Eme & _).
  pose proof (C11_method_and_version_verbatim m _ v L1 L2 L3) as H11. rewrite HL in El. rewrite El in H11.
  destruct H11 as (_ & _ & EU).
  assert (HC : forall c, In c (47%N :: 47%N :: n ++ 47%N :: t) -> In c path_chars).
  { intros x [<-|[<-|Hx]]; [apply mem_In; reflexivity|apply mem_In; reflexivity|].
    apply in_app_or in Hx as [Hx|[<-|Hx]]; [now apply Hc|apply mem_In; reflexivity|now apply Ht]. }
  set (q := 47%N :: 47%N :: n ++ 47%N :: t) in *.
  assert (HN : forall x, In x path_chars -> x <> 35%N /\ x <> 63%N /\ x <> 59%N).
  { intros x Hx. cbn in Hx. repeat (destruct Hx as [<-|Hx]; [repeat split; discriminate|]). easy. }
  assert (EP : urlparse (47%N :: 47%N :: q) = Ok (mkParse [] [] q [] [] [])).
  { unfold urlparse. assert (ascii_only (47%N :: 47%N :: q) = true) as ->.
    { apply forallb_forall. intros x Hx. assert (In x path_chars) as H.
      { destruct Hx as [<-|[<-|Hx]]; [apply mem_In; reflexivity|apply mem_In; reflexivity|now apply HC]. }
      clear - H. cbn in H. repeat (destruct H as [<-|H]; [reflexivity|]). easy. }
    unfold urlparse_text, urlsplit. rewrite split_scheme_none.
    2:{ intros sc rest [[Hne Hall] Heq]. destruct sc as [|x sc]; [easy|]. injection Heq as <- _. apply scheme_text_iff in Hall. discriminate Hall. }
    assert (split_netloc (47%N :: 47%N :: q) = ([], q)) as ->.
    { unfold split_netloc. change (startswith (47%N :: 47%N :: q) !"//") with true. cbn iota. cbn [skipn]. unfold q. reflexivity. }
    cbn [mem existsb orb andb]. 
    assert (HCut : forall x, x = hash \/ x = qmark -> cut x q = (q, [])).
    { intros x Hx. unfold cut. rewrite split1_notin; [reflexivity|]. intros Hin. apply HC, HN in Hin. unfold hash, qmark in Hx. destruct Hx as [-> | ->]; tauto. }
    rewrite (HCut hash), (HCut qmark) by tauto. cbn [bind su_scheme su_path su_netloc su_query su_fragment].
    assert (mem semi q = false) as ->. { apply mem_nIn. intros Hin. apply HC, HN in Hin. unfold semi in Hin. tauto. }
    rewrite andb_false_r. reflexivity. }
  change (!"////" ++ n ++ 47%N :: t) with (47%N :: 47%N :: q) in EU. rewrite EP in EU.
  assert (E1 : rl_path l = q) by congruence. assert (E2 : rl_query l = []) by congruence.
  clear EP EU. unfold get_full_path, get_path, attr, get_query. rewrite Ea, Eme. cbn [line_attrs a_path m_query bind].
  rewrite E1, E2. cbn [nonempty andb app]. rewrite app_nil_r. f_equal. change (!"//" ++ n ++ 47%N :: t) with q.
  unfold escape_uri_path. clearbody q. clear - HC. induction q as [|x q IH]; [reflexivity|]. rewrite quote_cons, IH by (intros y Hy; apply HC; now right).
  unfold quote_byte. rewrite path_safe_pct_iff. assert (mem x (path_chars ++ [percent]) = true) as ->; [|reflexivity].
  apply mem_In, in_or_app. left. apply HC. now left.
Qed.
Print Assumptions C138_unescaped_refuted.
Example C138_case :
  let '(x, (_, r)) := run hdr ex_set (req [!"GET ////evil.com/login?next=/ HTTP/1.1"; !"Host: x"] []) in
  x = Ok tt /\ get_full_path false r = Ok !"//evil.com/login?next=/" /\ escape_leading_slashes !"//evil.com/login?next=/" = !"/%2Fevil.com/login?next=/" /\
  is_safe_url no_ctl (Some !"//evil.com/login?next=/") [!"x"] false = false /\
  is_safe_url no_ctl (Some !"/%2Fevil.com/login?next=/") [!"x"] false = true /\
  is_safe_url no_ctl (Some !"//x/login") [!"x"] false = true /\ no_ctl 47%N = false.
Proof. vm_compute. repeat split. Qed.
