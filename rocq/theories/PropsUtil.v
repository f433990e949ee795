(** * Theorems C60, C61, C63-C71: the helpers of utils/encoding.py and utils/http.py *)
From Verif Require Import Py Spec HeadSpec PyFacts HeadModel UrlFacts PercentModel PercentFacts
  UtilModel UtilFacts Base64Model Base64Facts DateModel DateFacts.

(** ** Character sets of RFC 3986, written out *)
Definition unreserved : str :=
  !"ABCDEFGHIJKLMNOPQRSTUVWXYZabcdefghijklmnopqrstuvwxyz0123456789-._~".
Definition reserved : str := !":/?#[]@!$&'()*+,;=".
(** bytes *)
Definition is_bytes (s : str) : Prop := forall c, In c s -> (c < 256)%N.
Lemma is_bytes_only s : is_bytes s -> bytes_only s = true.
Proof. intros H. apply forallb_forall. intros c Hc. now apply N.ltb_lt, H. Qed.
(** [%XY], the upper-case percent-encoding of a byte *)
Definition hex_digits : str := !"0123456789ABCDEF".
Definition pct (c : N) (e : str) : Prop :=
  exists i j, (i < 16)%nat /\ (j < 16)%nat /\ c = N.of_nat (i * 16 + j) /\
    e = [37%N; nth i hex_digits 0%N; nth j hex_digits 0%N].

Lemma hexdig_nth d : (d < 16)%N -> hexdig d = nth (N.to_nat d) hex_digits 0%N.
Proof. intros H. apply N_cases16 in H. repeat destruct H as [->|H]; try reflexivity. now subst. Qed.
Lemma quote_byte_cases safe c : (c < 256)%N ->
  (always_safe c || mem c safe = true /\ quote_byte safe c = [c]) \/
  (always_safe c || mem c safe = false /\ pct c (quote_byte safe c)).
Proof.
  intros Hc. unfold quote_byte. destruct (always_safe c || mem c safe); [now left|right]. split; [easy|].
  exists (N.to_nat (c / 16)), (N.to_nat (c mod 16)).
  assert (Hm : (c mod 16 < 16)%N) by now apply N.mod_lt.
  assert (Hd : (c / 16 < 16)%N) by now apply N.div_lt_upper_bound.
  pose proof (N.div_mod c 16 ltac:(easy)) as HD.
  repeat split; [lia|lia|lia|]. now rewrite !hexdig_nth.
Qed.
Lemma ascii_check (P : N -> bool) : forallb P (map N.of_nat (seq 0 128)) = true -> forall c, (c < 128)%N -> P c = true.
Proof.
  intros H c Hc. rewrite forallb_forall in H. apply H. rewrite in_map_iff. exists (N.to_nat c).
  split; [lia|]. apply in_seq. lia.
Qed.
Lemma always_safe_ascii c : always_safe c = true -> (c < 128)%N.
Proof.
  unfold always_safe, is_alnum, is_alpha, is_upper, is_lower, is_digit.
  rewrite !orb_true_iff, !andb_true_iff, !N.leb_le, !N.eqb_eq. lia.
Qed.
Lemma lit_ascii (s : str) : forallb (fun c => N.ltb c 128) s = true -> forall c, In c s -> (c < 128)%N.
Proof. intros H c Hc. rewrite forallb_forall in H. now apply N.ltb_lt, H. Qed.
Lemma safe_iff safe legal : forallb (fun c => N.ltb c 128) safe = true -> forallb (fun c => N.ltb c 128) legal = true ->
  forallb (fun c => Bool.eqb (always_safe c || mem c safe) (mem c legal)) (map N.of_nat (seq 0 128)) = true ->
  forall c, always_safe c || mem c safe = mem c legal.
Proof.
  intros Hs Hl H c. destruct (N.lt_ge_cases c 128) as [Hc|Hc].
  - apply Bool.eqb_prop. exact (ascii_check (fun c => Bool.eqb (always_safe c || mem c safe) (mem c legal)) H c Hc).
  - destruct (mem c legal) eqn:E1; [apply mem_In in E1; apply (lit_ascii _ Hl) in E1; lia|].
    destruct (mem c safe) eqn:E2; [apply mem_In in E2; apply (lit_ascii _ Hs) in E2; lia|].
    destruct (always_safe c) eqn:E3; [apply always_safe_ascii in E3; lia|easy].
Qed.

(** what [quote] does, character by character *)
Definition encodes_with (legal : str) (f : str -> str) : Prop :=
  f [] = [] /\ (forall a b, f (a ++ b) = f a ++ f b) /\
  (forall c, In c legal -> f [c] = [c]) /\
  (forall c, (c < 256)%N -> ~ In c legal -> pct c (f [c])).
Lemma quote_encodes safe legal : (forall c, always_safe c || mem c safe = mem c legal) ->
  encodes_with legal (quote safe).
Proof.
  intros H. repeat split.
  - intros a b. apply quote_app.
  - intros c Hc. cbn. unfold quote_byte. rewrite H. apply mem_In in Hc. now rewrite Hc.
  - intros c Hc Hn. cbn. rewrite app_nil_r. destruct (quote_byte_cases safe c Hc) as [[H1 _]|[_ H1]]; [|easy].
    rewrite H in H1. now apply mem_In in H1.
Qed.

(** ** C60.  iri_to_uri leaves the characters a URI may contain (and '%') as they
    are and percent-encodes every other byte. *)
Definition uri_chars : str := unreserved ++ reserved ++ [percent].
Lemma iri_safe_iff : forall c, always_safe c || mem c iri_safe = mem c uri_chars.
Proof. apply safe_iff; vm_compute; reflexivity. Qed.

Theorem C60_iri_to_uri_encodes : encodes_with uri_chars iri_to_uri.
Proof. apply quote_encodes, iri_safe_iff. Qed.
Print Assumptions C60_iri_to_uri_encodes.

Theorem C60_iri_to_uri_output :
  forall s, is_bytes s -> forall c, In c (iri_to_uri s) -> In c uri_chars.
Proof.
  intros s Hs c Hc. apply mem_In. rewrite <- iri_safe_iff.
  destruct (quote_chars iri_safe s c (is_bytes_only s Hs) Hc) as [[H _]|[->|H]]; [easy|reflexivity|].
  now rewrite (HEX_safe _ H).
Qed.
Print Assumptions C60_iri_to_uri_output.

Theorem C60_iri_to_uri_idempotent : forall s, is_bytes s -> iri_to_uri (iri_to_uri s) = iri_to_uri s.
Proof. intros s Hs. apply quote_idempotent; [reflexivity|now apply is_bytes_only]. Qed.
Print Assumptions C60_iri_to_uri_idempotent.

Theorem C60_iri_to_uri_invertible :
  forall s, is_bytes s -> ~ In percent s -> unquote_to_bytes (iri_to_uri s) = s.
Proof. intros s Hs Hp. apply unquote_quote_nopercent; [easy|now apply is_bytes_only]. Qed.
Print Assumptions C60_iri_to_uri_invertible.

Example C60_case : iri_to_uri (!"/I " ++ [226%N; 153%N; 165%N] ++ !" x/?a=1&b#f%20") = !"/I%20%E2%99%A5%20x/?a=1&b#f%20".
Proof. reflexivity. Qed.

(** ** C61.  escape_uri_path *)
Definition path_chars : str := unreserved ++ !"/:@&+$,!*'()".
Lemma path_safe_iff : forall c, always_safe c || mem c path_safe = mem c path_chars.
Proof. apply safe_iff; vm_compute; reflexivity. Qed.
Lemma path_safe_pct_iff : forall c, always_safe c || mem c (path_safe ++ [percent]) = mem c (path_chars ++ [percent]).
Proof. apply safe_iff; vm_compute; reflexivity. Qed.

Theorem C61_escape_uri_path_encodes :
  encodes_with path_chars (escape_uri_path true) /\ encodes_with (path_chars ++ [percent]) (escape_uri_path false).
Proof. split; apply quote_encodes; [apply path_safe_iff|apply path_safe_pct_iff]. Qed.
Print Assumptions C61_escape_uri_path_encodes.

Theorem C61_escape_uri_path_invertible :
  forall s, is_bytes s -> unquote_to_bytes (escape_uri_path true s) = s.
Proof. intros s Hs. apply unquote_quote; [reflexivity|now apply is_bytes_only]. Qed.
Print Assumptions C61_escape_uri_path_invertible.

Theorem C61_escape_uri_path_idempotent :
  forall s, is_bytes s -> escape_uri_path false (escape_uri_path false s) = escape_uri_path false s.
Proof. intros s Hs. apply quote_idempotent; [reflexivity|now apply is_bytes_only]. Qed.
Print Assumptions C61_escape_uri_path_idempotent.

(** nothing that ends a path, and nothing outside ASCII, is ever produced *)
Theorem C61_escape_uri_path_output :
  forall b s c, is_bytes s -> In c (escape_uri_path b s) ->
    (c < 128)%N /\ c <> qmark /\ c <> hash /\ c <> semi /\ c <> 61%N /\ (32 < c)%N.
Proof.
  intros b s c Hs Hc.
  assert (HI : In c (path_chars ++ [percent])).
  { apply mem_In. destruct b; cbn [escape_uri_path] in Hc.
    - rewrite mem_app, <- path_safe_iff.
      destruct (quote_chars _ s c (is_bytes_only s Hs) Hc) as [[H _]|[->|H]];
        [now rewrite H|reflexivity|now rewrite (HEX_safe _ H)].
    - rewrite <- path_safe_pct_iff.
      destruct (quote_chars _ s c (is_bytes_only s Hs) Hc) as [[H _]|[->|H]];
        [easy|reflexivity|now rewrite (HEX_safe _ H)]. }
  assert (HB : forallb (fun c => N.ltb c 128 && negb (N.eqb c qmark) && negb (N.eqb c hash) && negb (N.eqb c semi)
     && negb (N.eqb c 61) && N.ltb 32 c) (path_chars ++ [percent]) = true) by reflexivity.
  rewrite forallb_forall in HB. specialize (HB c HI). rewrite !andb_true_iff, !negb_true_iff, !N.eqb_neq, !N.ltb_lt in HB.
  tauto.
Qed.
Print Assumptions C61_escape_uri_path_output.
Example C61_case : escape_uri_path true !"/a b;c=d?e%41" = !"/a%20b%3Bc%3Dd%3Fe%2541" /\
                   escape_uri_path false !"/a b%41" = !"/a%20b%41".
Proof. now split. Qed.

(** ** C63.  is_safe_url.
    What one reading [v] of the URL must satisfy; [has_scheme] and [has_authority]
    (UtilFacts) describe the grammar  [scheme ":"] ["//" authority]. *)
Definition brackets_match (n : str) : Prop := In lbr n <-> In rbr n.
Definition safe_reading (ctl : N -> bool) (hosts : list str) (https : bool) (v : str) : Prop :=
  ~ (exists t, v = !"///" ++ t) /\
  (forall c t, v = c :: t -> ctl c = false) /\
  (* with a scheme: http or https, and an allowed authority *)
  (forall sc rest, has_scheme v sc rest ->
     (lower sc = !"https" \/ (lower sc = !"http" /\ https = false)) /\
     exists n, has_authority rest n /\ n <> [] /\ In n hosts /\ brackets_match n) /\
  (* without: no authority, or an allowed one when plain http will do *)
  ((forall sc rest, ~ has_scheme v sc rest) ->
     forall n, has_authority v n -> n <> [] -> In n hosts /\ https = false /\ brackets_match n).

Definition mismatch (n : str) : bool := (mem lbr n && negb (mem rbr n)) || (mem rbr n && negb (mem lbr n)).
Lemma mismatch_iff n : mismatch n = false <-> brackets_match n.
Proof.
  unfold mismatch, brackets_match. rewrite <- !mem_In. destruct (mem lbr n), (mem rbr n); cbn; intuition congruence.
Qed.
Lemma urlparse_text_cases v :
  let sc := fst (split_scheme v) in let n := fst (split_netloc (snd (split_scheme v))) in
  if mismatch n then exists e, urlparse_text v = Err e
  else exists u, urlparse_text v = Ok u /\ up_scheme u = sc /\ up_netloc u = n.
Proof.
  unfold urlparse_text, urlsplit, mismatch. destruct (split_scheme v) as [sc u1]. cbn [fst snd].
  destruct (split_netloc u1) as [n u2]. cbn [fst]. destruct (_ || _); [now eexists|].
  destruct (cut hash u2) as [u3 f]. destruct (cut qmark u3) as [pa q]. cbn [bind su_scheme su_path su_netloc su_query su_fragment].
  match goal with |- context [let (_, _) := ?x in _] => destruct x as [p1 p2] end. eexists. repeat split.
Qed.
Lemma nonempty_iff s : nonempty s = true <-> s <> [].
Proof. destruct s; cbn; split; congruence. Qed.
Lemma existsb_seqb n l : existsb (seqb n) l = true <-> In n l.
Proof. rewrite existsb_exists. split; [intros (x & H1 & H2); apply seqb_eq in H2; now subst|exists n; split; [easy|apply seqb_refl]]. Qed.
Lemma authority_unique rest n m : has_authority rest n -> has_authority rest m -> n = m.
Proof. intros H1 H2. apply split_netloc_has in H1, H2. congruence. Qed.
Lemma authority_starts rest n : has_authority rest n -> startswith rest !"//" = true.
Proof. intros (t & -> & _). apply prefixb_app. Qed.

Lemma is_safe_url1_iff ctl v hosts https : v <> [] ->
  is_safe_url1 ctl v hosts https = true <-> safe_reading ctl hosts https v.
Proof.
  intros Hne. unfold is_safe_url1, safe_reading.
  destruct (startswith v !"///") eqn:E3.
  { split; [easy|]. intros [H _]. exfalso. apply H. unfold startswith in E3. now apply prefixb_iff in E3. }
  assert (H3 : ~ (exists t, v = !"///" ++ t)).
  { intros H. apply prefixb_iff in H. unfold startswith in E3. congruence. }
  assert (HC : (forall c t, v = c :: t -> ctl c = false) <-> ctl (hd 0%N v) = false).
  { destruct v as [|c t]; [easy|]. cbn. split; [intros H; now apply (H c t)|intros H c' t' [= <- <-]; easy]. }
  rewrite HC. pose proof (urlparse_text_cases v) as HU. cbv zeta in HU.
  set (auth := fst (split_netloc (snd (split_scheme v)))) in *.
  destruct (scheme_dec v) as [(sc & rest & HS)|HS].
  - pose proof (split_scheme_has _ _ _ HS) as HE. rewrite HE in HU. cbn [fst] in HU.
    assert (HNE : nonempty (lower sc) = true).
    { apply nonempty_iff. destruct HS as [[H _] _]. now destruct sc. }
    assert (Ha : auth = fst (split_netloc rest)) by (unfold auth; now rewrite HE).
    assert (HA : nonempty auth = true -> has_authority rest auth).
    { intros H. rewrite Ha in *. apply split_netloc_authority. destruct (startswith rest !"//") eqn:E; [easy|].
      rewrite (split_netloc_none _ E) in H. easy. }
    destruct (mismatch auth) eqn:EM.
    + destruct HU as [e ->]. split; [easy|]. intros (_ & _ & H & _).
      destruct (H _ _ HS) as (_ & n & Hn & Hn2 & _ & Hb).
      assert (n = auth) as -> by (apply split_netloc_has in Hn; congruence).
      apply mismatch_iff in Hb. congruence.
    + destruct HU as (u & -> & Hs & Hn). rewrite Hs, Hn, HNE.
      destruct (nonempty auth) eqn:EA; cbn [negb andb orb].
      * destruct (ctl (hd 0%N v)) eqn:EC; [split; [easy|]; intros (_ & H & _); congruence|].
        rewrite HNE. cbn [negb orb]. rewrite andb_true_iff, !existsb_seqb. split.
        -- intros [H1 H2]. split; [easy|split; [easy|split]].
           ++ intros sc' rest' HS'. pose proof (split_scheme_has _ _ _ HS') as HE'. rewrite HE in HE'.
              injection HE' as H4 <-. rewrite <- H4. split.
              ** destruct https; destruct H2 as [H2|H2];
                [left; now rewrite <- H2|destruct H2|right; split; [now rewrite <- H2|reflexivity]|
                 destruct H2 as [H2|[]]; left; now rewrite <- H2].
              ** exists auth. split; [auto|split; [now apply nonempty_iff|split; [easy|now apply mismatch_iff]]].
           ++ intros H. now destruct (H _ _ HS).
        -- intros (_ & _ & H & _). destruct (H _ _ HS) as (H1 & n & Hn1 & _ & Hn3 & _).
           assert (n = auth) as -> by (apply split_netloc_has in Hn1; congruence). split; [easy|].
           destruct H1 as [->|[-> ->]]; [destruct https; cbn; auto|cbn; auto].
      * split; [easy|]. intros (_ & _ & H & _). destruct (H _ _ HS) as (_ & n & Hn1 & Hn2 & _).
        assert (n = auth) as -> by (apply split_netloc_has in Hn1; congruence). apply nonempty_iff in Hn2. congruence.
  - pose proof (split_scheme_none _ HS) as HE. rewrite HE in HU. cbn [fst snd] in HU.
    assert (Ha : auth = fst (split_netloc v)) by (unfold auth; now rewrite HE).
    assert (HA : nonempty auth = true -> has_authority v auth).
    { intros H. rewrite Ha in *. apply split_netloc_authority. destruct (startswith v !"//") eqn:E; [easy|].
      rewrite (split_netloc_none _ E) in H. easy. }
    destruct (mismatch auth) eqn:EM.
    + destruct HU as [e ->]. split; [easy|]. intros (_ & _ & _ & H).
      assert (HNA : nonempty auth = true) by (apply nonempty_iff; intros Hx; rewrite Hx in EM; discriminate EM).
      destruct (H HS auth (HA HNA)) as (_ & _ & Hb); [now apply nonempty_iff|]. apply mismatch_iff in Hb. congruence.
    + destruct HU as (u & -> & Hs & Hn). rewrite Hs, Hn. cbn [nonempty negb andb]. rewrite andb_false_r.
      destruct (ctl (hd 0%N v)) eqn:EC; [split; [easy|]; intros (_ & H & _); congruence|].
      destruct (nonempty auth) eqn:EA; cbn [negb andb orb].
      * split.
        -- intros H. rewrite andb_true_iff, existsb_seqb in H. destruct H as [H1 H2].
           assert (Hf : https = false) by (destruct https; [discriminate H2|easy]).
           split; [easy|split; [easy|split]].
           ++ intros sc rest H. now destruct (HS sc rest).
           ++ intros _ n Hn' _. rewrite (authority_unique _ _ _ Hn' (HA eq_refl)).
              split; [easy|split; [easy|now apply mismatch_iff]].
        -- intros (_ & _ & _ & H). destruct (H HS auth (HA eq_refl)) as (H1 & H2 & _); [now apply nonempty_iff|].
           subst https. rewrite andb_true_iff, existsb_seqb. now split.
      * split; [|easy]. intros _. split; [easy|split; [easy|split]].
        -- intros sc rest H. now destruct (HS sc rest).
        -- intros _ n Hn' Hne'. exfalso. assert (n = auth) as -> by (apply split_netloc_has in Hn'; congruence).
           apply nonempty_iff in Hne'. congruence.
Qed.

Theorem C63_safe_url_iff :
  forall ctl url hosts https, is_safe_url ctl (Some url) hosts https = true <->
    let w := ustrip url in
    w <> [] /\ safe_reading ctl hosts https w /\ safe_reading ctl hosts https (replacec 92%N slash w).
Proof.
  intros ctl url hosts https. cbv zeta. unfold is_safe_url. destruct (ustrip url) as [|c w] eqn:E; [now cbn|].
  cbn [nonempty negb]. rewrite andb_true_iff, !is_safe_url1_iff by easy. split; [now intros []|now intros (_ & ? & ?)].
Qed.
Print Assumptions C63_safe_url_iff.
Theorem C63_none_unsafe : forall ctl hosts https, is_safe_url ctl None hosts https = false.
Proof. reflexivity. Qed.
Print Assumptions C63_none_unsafe.

(** The consequence users care about: a scheme-relative or http(s) URL, with either
    kind of slash, is accepted only with an allowed host. *)
Theorem C63_foreign_host_rejected :
  forall ctl hosts https pfx a b n t,
    pfx = [] \/ pfx = !"http:" \/ pfx = !"https:" ->
    (a = slash \/ a = 92%N) -> (b = slash \/ b = 92%N) ->
    n <> [] -> (forall c, In c n -> c <> slash /\ c <> qmark /\ c <> hash /\ c <> 92%N) ->
    ~ In n hosts ->
    is_safe_url ctl (Some (pfx ++ [a; b] ++ n ++ slash :: t)) hosts https = false.
Proof.
  intros ctl hosts https pfx a b n t HP Ha Hb Hn Hc Hh.
  assert (HR : forall t, replacec 92%N slash (pfx ++ [a; b] ++ n ++ slash :: t)
             = pfx ++ !"//" ++ n ++ slash :: replacec 92%N slash t).
  { intros t'. unfold replacec. rewrite map_app. f_equal; [destruct HP as [->|[->| ->]]; reflexivity|].
    assert (E1 : (if (a =? 92)%N then slash else a) = slash) by (destruct Ha as [-> | ->]; reflexivity).
    assert (E2 : (if (b =? 92)%N then slash else b) = slash) by (destruct Hb as [-> | ->]; reflexivity).
    cbn [app map]. rewrite E1, E2, map_app. change (lit "//"%string) with [slash; slash]. cbn [app map]. do 3 f_equal.
    rewrite <- (map_id n) at 2. apply map_ext_in. intros c Hin. destruct (Hc c Hin) as (_ & _ & _ & H).
    apply N.eqb_neq in H. now rewrite H. }
  assert (HT : exists t', ustrip (pfx ++ [a; b] ++ n ++ slash :: t) = pfx ++ [a; b] ++ n ++ slash :: t').
  { unfold ustrip, strip_by.
    assert (HL : lstrip_by is_uws (pfx ++ [a; b] ++ n ++ slash :: t) = pfx ++ [a; b] ++ n ++ slash :: t).
    { apply lstrip_by_id. destruct HP as [->|[->| ->]]; try reflexivity. cbn. destruct Ha as [-> | ->]; reflexivity. }
    rewrite HL. destruct (rstrip_by_prefix is_uws (pfx ++ [a; b] ++ n ++ slash :: t)) as (z & Hz & Hzw).
    set (w := rstrip_by is_uws (pfx ++ [a; b] ++ n ++ slash :: t)) in *. clearbody w.
    replace (pfx ++ [a; b] ++ n ++ slash :: t) with ((pfx ++ [a; b] ++ n) ++ slash :: t) in Hz by now rewrite <- !app_assoc.
    (* the slash is not white space, so only characters of t are removed *)
    destruct (Nat.lt_ge_cases (length (pfx ++ [a; b] ++ n)) (length w)) as [HLen|Hge].
    - apply app_eq_split in Hz; [|lia]. destruct Hz as (m & H1 & H2). destruct m as [|x m].
      { rewrite app_nil_r in H1. rewrite H1 in HLen. lia. }
      injection H2 as <- _. exists m. rewrite H1, <- !app_assoc. reflexivity.
    - exfalso. symmetry in Hz. apply app_eq_split in Hz; [|easy]. destruct Hz as (m & H1 & H2).
      rewrite forallb_forall in Hzw. specialize (Hzw slash). discriminate Hzw. rewrite H2. apply in_or_app. right. now left. }
  assert (HAuth : forall t', has_authority (!"//" ++ n ++ slash :: t') n).
  { intros t'. exists (slash :: t'). split; [easy|]. split; [intros c Hin; destruct (Hc c Hin) as (?&?&?&_); now intros [->|[->| ->]]|].
    right. exists slash, t'. split; [reflexivity|now left]. }
  destruct (is_safe_url _ _ _ _) eqn:E; [|easy]. exfalso. apply C63_safe_url_iff in E. destruct E as (_ & _ & H).
  destruct HT as (t' & Ht). rewrite Ht, HR in H. destruct H as (_ & _ & H1 & H2).
  destruct HP as [->|HP].
  - cbn [app] in H2. destruct (H2) with (n := n) as (Hin & _); [|apply HAuth|easy|now apply Hh].
    intros sc rest [[Hne Hall] Heq]. destruct sc as [|c sc]; [easy|]. injection Heq as <- _. apply scheme_text_iff in Hall. discriminate Hall.
  - assert (HS : exists sc, has_scheme (pfx ++ !"//" ++ n ++ slash :: replacec 92%N slash t') sc (!"//" ++ n ++ slash :: replacec 92%N slash t')).
    { destruct HP as [->| ->]; [exists !"http"|exists !"https"]; (split; [split; [discriminate|apply scheme_text_iff; reflexivity]|reflexivity]). }
    destruct HS as (sc & HS). destruct (H1 _ _ HS) as (_ & m & Hm & _ & Hin & _).
    rewrite (authority_unique _ _ _ Hm (HAuth _)) in Hin. now apply Hh.
Qed.
Print Assumptions C63_foreign_host_rejected.

(** plain absolute paths are accepted, so the test is not vacuous *)
Theorem C63_paths_accepted :
  forall ctl hosts https p, p <> [] ->
    (forall c, In c p -> c <> slash /\ c <> 92%N /\ c <> colon /\ is_uws c = false) -> ctl slash = false ->
    is_safe_url ctl (Some (slash :: p)) hosts https = true.
Proof.
  intros ctl hosts https p Hp Hc Hctl. apply C63_safe_url_iff. cbv zeta.
  assert (Hw : ustrip (slash :: p) = slash :: p).
  { apply strip_by_tight, tight_by_all. intros c [<-|Hin]; [reflexivity|now apply Hc]. }
  assert (HR : replacec 92%N slash (slash :: p) = slash :: p).
  { unfold replacec. cbn [map]. change ((slash =? 92)%N) with false. cbn iota. f_equal.
    rewrite <- (map_id p) at 2. apply map_ext_in. intros c Hin. destruct (Hc c Hin) as (_ & H & _).
    apply N.eqb_neq in H. now rewrite H. }
  rewrite Hw, HR.
  assert (HS : safe_reading ctl hosts https (slash :: p)).
  { assert (Hns : forall u, slash :: p <> slash :: slash :: u).
    { intros u [= ->]. destruct (Hc slash) as [H _]; [now left|easy]. }
    split; [|split; [|split]].
    - intros [t Ht]. now apply (Hns (slash :: t)).
    - intros c t [= <- _]. easy.
    - intros sc rest [[Hne Hall] Heq]. destruct sc as [|c sc]; [easy|]. injection Heq as <- _. apply scheme_text_iff in Hall. discriminate Hall.
    - intros _ n (t & Ht & _) _. exfalso. now apply (Hns (n ++ t)). }
  split; [easy|split; exact HS].
Qed.
Print Assumptions C63_paths_accepted.

(** for Python 2 byte strings the function never says that a URL is safe: it rejects
    it or raises TypeError (unicodedata.category wants a unicode character) *)
Theorem C63_native_never_safe : forall url, is_safe_url_native url <> Ok true.
Proof.
  intros [u|]; cbn; [|easy]. destruct (negb (nonempty (strip u))); [easy|].
  unfold is_safe_url1_native. destruct (startswith (strip u) !"///"); [easy|].
  destruct (urlparse (strip u)) as [r|e]; [|easy]. destruct (_ && _); easy.
Qed.
Print Assumptions C63_native_never_safe.

Definition no_ctl : N -> bool := fun c => N.ltb c 32.
Example C63_case :
  is_safe_url no_ctl (Some !"http://example.com/a") [!"example.com"] false = true /\
  is_safe_url no_ctl (Some !"http://example.com/a") [!"example.com"] true = false /\
  is_safe_url no_ctl (Some !"/\\evil.com/a") [!"example.com"] false = false /\
  is_safe_url no_ctl (Some !" /a?b") [] true = true.
Proof. now vm_compute. Qed.

(** ** C64.  escape_leading_slashes *)
Theorem C64_escape_leading_slashes :
  forall url, ~ (exists t, escape_leading_slashes url = !"//" ++ t) /\
    ((~ exists t, url = !"//" ++ t) -> escape_leading_slashes url = url) /\
    (forall t, url = !"//" ++ t -> escape_leading_slashes url = !"/%2F" ++ t) /\
    escape_leading_slashes (escape_leading_slashes url) = escape_leading_slashes url.
Proof.
  intros url. unfold escape_leading_slashes, startswith. destruct (prefixb !"//" url) eqn:E.
  - apply prefixb_iff in E as [t ->]. repeat split; try easy.
    + intros [t' H]. discriminate H.
    + intros H. exfalso. apply H. now exists t.
    + intros t' H. injection H as ->. reflexivity.
  - assert (HN : ~ exists t, url = !"//" ++ t) by (rewrite <- prefixb_iff; congruence).
    split; [easy|]. split; [easy|]. split; [|now rewrite E]. intros t ->. exfalso. apply HN. now exists t.
Qed.
Print Assumptions C64_escape_leading_slashes.
Example C64_case : escape_leading_slashes !"//evil.com/x" = !"/%2Fevil.com/x" /\ escape_leading_slashes !"/x" = !"/x".
Proof. now split. Qed.

(** ** C65.  is_same_domain *)
Theorem C65_is_same_domain :
  forall host pattern, is_same_domain host pattern = true <->
    lower pattern <> [] /\
    (host = lower pattern \/
     exists rest, lower pattern = 46%N :: rest /\ (host = rest \/ exists sub, host = sub ++ 46%N :: rest)).
Proof.
  intros host pattern. unfold is_same_domain. destruct (lower pattern) as [|c rest]; [split; [easy|now intros []]|].
  rewrite orb_true_iff, andb_true_iff, orb_true_iff, N.eqb_eq, !seqb_eq.
  unfold endswith. rewrite prefixb_iff.
  assert (HE : (exists t, rev host = rev (c :: rest) ++ t) <-> exists sub, host = sub ++ c :: rest).
  { split.
    - intros [t Ht]. exists (rev t). rewrite <- (rev_involutive host), Ht, rev_app_distr. now rewrite rev_involutive.
    - intros [sub ->]. exists (rev sub). now rewrite rev_app_distr. }
  rewrite HE. split.
  - intros [[-> H]| <-]; [|split; [easy|now left]]. split; [easy|right]. exists rest. split; [easy|]. tauto.
  - intros [_ [->|(r & [= -> ->] & H)]]; [now right|left]. split; [easy|]. tauto.
Qed.
Print Assumptions C65_is_same_domain.
Example C65_case : is_same_domain !"foo.example.com" !".EXAMPLE.com" = true /\
  is_same_domain !"badexample.com" !".example.com" = false /\ is_same_domain !"x" [] = false.
Proof. now vm_compute. Qed.

(** ** C66.  Base 36 *)
Theorem C66_base36_roundtrip :
  forall i, (0 <= i < 36 ^ 13)%Z -> exists s, int_to_base36 i = Ok s /\ base36_to_int s = Ok i.
Proof.
  intros i Hi. destruct (int_to_base36_spec i) as (s & H1 & H2 & H3 & H4 & H5); [lia|]. exists s. split; [easy|].
  unfold base36_to_int. destruct (Nat.ltb_spec 13 (length s)) as [Hlt|].
  - exfalso. destruct s as [|c r]; [cbn in Hlt; lia|]. destruct (H4 c r eq_refl) as [_ H6]; [intros ->; cbn in Hlt; lia|].
    assert (Hp : (36 ^ 13 <= 36 ^ Z.of_nat (length r))%Z) by (apply Z.pow_le_mono_r; cbn in Hlt; lia). lia.
  - rewrite py_int_36, H3 by easy. cbn. f_equal. lia.
Qed.
Print Assumptions C66_base36_roundtrip.
Theorem C66_base36_too_big :
  forall i, (36 ^ 13 <= i)%Z -> exists s, int_to_base36 i = Ok s /\ base36_to_int s = Err ValueError.
Proof.
  intros i Hi. destruct (int_to_base36_spec i) as (s & H1 & H2 & H3 & H4 & H5); [lia|]. exists s. split; [easy|].
  unfold base36_to_int. destruct (Nat.ltb_spec 13 (length s)) as [Hlt|Hge]; [easy|exfalso].
  assert (Hp : (36 ^ Z.of_nat (length s) <= 36 ^ 13)%Z) by (apply Z.pow_le_mono_r; lia). lia.
Qed.
Print Assumptions C66_base36_too_big.
Theorem C66_base36_shape :
  forall i s, int_to_base36 i = Ok s ->
    (0 <= i)%Z /\ s <> [] /\ (forall c, In c s -> In c !"0123456789abcdefghijklmnopqrstuvwxyz") /\
    (forall c r, s = c :: r -> r <> [] -> c <> 48%N).
Proof.
  intros i s H. assert (Hi : (0 <= i)%Z).
  { unfold int_to_base36 in H. destruct (Z.ltb_spec i 0); [easy|lia]. }
  destruct (int_to_base36_spec i Hi) as (s' & H1 & [H2 H2'] & H3 & H4 & H5). rewrite H1 in H. injection H as ->.
  split; [easy|]. split; [easy|]. split; [|intros c r Hs Hr; now apply (H4 c r)].
  intros c Hc. rewrite forallb_forall in H2'. specialize (H2' c Hc). apply mem_In.
  assert (HA : (c < 128)%N).
  { unfold is36, is_digit, is_lower in H2'. rewrite orb_true_iff, !andb_true_iff, !N.leb_le in H2'. lia. }
  pose proof (ascii_check (fun c => implb (is36 c) (mem c !"0123456789abcdefghijklmnopqrstuvwxyz"))) as HK.
  specialize (HK ltac:(vm_compute; reflexivity) c HA). cbv beta in HK. now rewrite H2' in HK.
Qed.
Print Assumptions C66_base36_shape.
Theorem C66_negative_rejected : forall i, (i < 0)%Z -> int_to_base36 i = Err ValueError.
Proof. intros i H. unfold int_to_base36. destruct (Z.ltb_spec i 0); [easy|lia]. Qed.
Print Assumptions C66_negative_rejected.
Example C66_case : int_to_base36 9223372036854775807 = Ok !"1y2p0ij32e8e7" /\
                   base36_to_int !"1y2p0ij32e8e7" = Ok 9223372036854775807%Z.
Proof. now vm_compute. Qed.

(** ** C67.  URL-safe base64 *)
Theorem C67_urlsafe_roundtrip :
  forall s, is_bytes s -> urlsafe_base64_decode (urlsafe_base64_encode s) = Ok s.
Proof. intros s Hs. now apply urlsafe_roundtrip, is_bytes_only. Qed.
Print Assumptions C67_urlsafe_roundtrip.
Definition urlsafe_alphabet : str := !"ABCDEFGHIJKLMNOPQRSTUVWXYZabcdefghijklmnopqrstuvwxyz0123456789_-".
Lemma urlsafe_iff c : is_urlsafe c = true <-> In c urlsafe_alphabet.
Proof.
  rewrite <- mem_In.
  assert (H : is_urlsafe c = mem c urlsafe_alphabet); [|rewrite H; tauto].
  destruct (N.lt_ge_cases c 128) as [Hc|Hc].
  - apply Bool.eqb_prop. refine (ascii_check (fun c => Bool.eqb (is_urlsafe c) (mem c urlsafe_alphabet)) _ c Hc).
    vm_compute. reflexivity.
  - destruct (mem c urlsafe_alphabet) eqn:E1.
    + apply mem_In in E1. apply (lit_ascii urlsafe_alphabet eq_refl) in E1. lia.
    + destruct (is_urlsafe c) eqn:E2; [|easy]. unfold is_urlsafe, is_alnum, is_alpha, is_upper, is_lower, is_digit in E2.
      rewrite !orb_true_iff, !andb_true_iff, !N.leb_le, !N.eqb_eq in E2. lia.
Qed.
Theorem C67_urlsafe_output :
  forall s c, is_bytes s -> In c (urlsafe_base64_encode s) -> In c urlsafe_alphabet.
Proof.
  intros s c Hs Hc. destruct (urlsafe_encode_spec s (is_bytes_only s Hs)) as (body & k & _ & H2 & H3 & _).
  rewrite H2 in Hc. apply in_map_iff in Hc as (x & <- & Hx). apply urlsafe_iff, to_urlsafe_safe.
  rewrite forallb_forall in H3. now apply H3.
Qed.
Print Assumptions C67_urlsafe_output.
Example C67_case : urlsafe_base64_encode [251%N; 255%N; 0%N; 7%N] = !"-_8ABw" /\
                   urlsafe_base64_decode !"-_8ABw" = Ok [251%N; 255%N; 0%N; 7%N].
Proof. now vm_compute. Qed.

(** ** C68.  Malformed input: the claim "ValueError" is false in Python 2, where
    base64 raises TypeError, which line 228 does not catch. *)
Theorem C68_malformed_raises_valueerror_refuted :
  exists s e, urlsafe_base64_decode s = Err e /\ e <> ValueError /\ e <> UnicodeDecodeError.
Proof. exists !"a", TypeError. now vm_compute. Qed.
Print Assumptions C68_malformed_raises_valueerror_refuted.

(** What does hold: text of the URL-safe alphabet is decoded unless its length is
    1 modulo 4, and the only exceptions are TypeError and, for non-ASCII text, a
    UnicodeError (which is a ValueError).  Missing for the full claim: ValueError. *)
Lemma of_urlsafe_b64 c : is_urlsafe c = true -> is_b64 (of_urlsafe c) = true.
Proof.
  intros H. destruct (N.lt_ge_cases c 128) as [Hc|Hc].
  - pose proof (ascii_check (fun c => implb (is_urlsafe c) (is_b64 (of_urlsafe c))) ltac:(vm_compute; reflexivity) c Hc) as HK.
    cbv beta in HK. now rewrite H in HK.
  - apply urlsafe_iff, (lit_ascii urlsafe_alphabet eq_refl) in H. lia.
Qed.
Lemma shift0 v c : b64_shift v (mkB64 0 c 0) = ([], mkB64 1 (c * 64 + v) 6).
Proof. reflexivity. Qed.
Lemma shift1 v c : exists x c', b64_shift v (mkB64 1 c 6) = ([x], mkB64 2 c' 4).
Proof. eexists _, _. reflexivity. Qed.
Lemma shift2 v c : exists x c', b64_shift v (mkB64 2 c 4) = ([x], mkB64 3 c' 2).
Proof. eexists _, _. reflexivity. Qed.
Lemma shift3 v c : exists x c', b64_shift v (mkB64 3 c 2) = ([x], mkB64 0 c' 0).
Proof. eexists _, _. reflexivity. Qed.
Lemma b64_val_ne c : is_b64 c = true -> exists v, b64val c = Some v /\ c <> pad.
Proof.
  unfold is_b64. destruct (b64val c) as [v|] eqn:E; [|easy]. intros _. exists v. split; [easy|]. intros ->. discriminate E.
Qed.
Lemma a2b_length : forall body : str, forallb is_b64 body = true -> forall c pads,
  pads = repeat pad (length body mod 4) ->
  if Nat.eqb (length body mod 4) 1 then snd (a2b_loop (body ++ pads) (mkB64 0 c 0)) <> 0%N
  else snd (a2b_loop (body ++ pads) (mkB64 0 c 0)) = 0%N /\
       length (fst (a2b_loop (body ++ pads) (mkB64 0 c 0))) = length body * 3 / 4.
Proof.
  induction body as [|x0|x0 x1|x0 x1 x2|x0 x1 x2 x3 body IH] using list_ind4; intros HF c pads HP; subst pads.
  - now cbn.
  - cbn [forallb] in HF. rewrite andb_true_r in HF. destruct (b64_val_ne _ HF) as (v & V & P).
    cbn [length]. change (1 mod 4) with 1. cbn [Nat.eqb repeat app]. rewrite (a2b_val _ _ _ _ V P), shift0. cbn. easy.
  - cbn [forallb] in HF. rewrite !andb_true_iff in HF. destruct HF as (F0 & F1 & _).
    destruct (b64_val_ne _ F0) as (v & V & P), (b64_val_ne _ F1) as (v1 & V1 & P1).
    cbn [length]. change (2 mod 4) with 2. cbn [Nat.eqb repeat app].
    rewrite (a2b_val _ _ _ _ V P), shift0, (a2b_val _ _ _ _ V1 P1).
    destruct (shift1 v1 (c * 64 + v)) as (y & c' & ->). now cbn.
  - cbn [forallb] in HF. rewrite !andb_true_iff in HF. destruct HF as (F0 & F1 & F2 & _).
    destruct (b64_val_ne _ F0) as (v & V & P), (b64_val_ne _ F1) as (v1 & V1 & P1), (b64_val_ne _ F2) as (v2 & V2 & P2).
    cbn [length]. change (3 mod 4) with 3. cbn [Nat.eqb repeat app].
    rewrite (a2b_val _ _ _ _ V P), shift0, (a2b_val _ _ _ _ V1 P1).
    destruct (shift1 v1 (c * 64 + v)) as (y & c' & ->). rewrite (a2b_val _ _ _ _ V2 P2).
    destruct (shift2 v2 c') as (y2 & c2 & ->). now cbn.
  - cbn [forallb] in HF. rewrite !andb_true_iff in HF. destruct HF as (F0 & F1 & F2 & F3 & HF).
    destruct (b64_val_ne _ F0) as (v & V & P), (b64_val_ne _ F1) as (v1 & V1 & P1), (b64_val_ne _ F2) as (v2 & V2 & P2),
      (b64_val_ne _ F3) as (v3 & V3 & P3).
    assert (HL : length (x0 :: x1 :: x2 :: x3 :: body) mod 4 = length body mod 4).
    { cbn [length]. replace (S (S (S (S (length body))))) with (length body + 1 * 4) by lia. now rewrite Nat.mod_add by lia. }
    rewrite HL. cbn [app]. rewrite (a2b_val _ _ _ _ V P), shift0, (a2b_val _ _ _ _ V1 P1).
    destruct (shift1 v1 (c * 64 + v)) as (y & c' & ->). rewrite (a2b_val _ _ _ _ V2 P2).
    destruct (shift2 v2 c') as (y2 & c2 & ->). rewrite (a2b_val _ _ _ _ V3 P3).
    destruct (shift3 v3 c2) as (y3 & c3 & ->). specialize (IH HF c3 _ eq_refl).
    destruct (a2b_loop (body ++ repeat pad (length body mod 4)) (mkB64 0 c3 0)) as [o l]. cbn [fst snd app length] in IH |- *.
    destruct (Nat.eqb (length body mod 4) 1); [easy|]. destruct IH as [I1 I2]. split; [easy|]. rewrite I2.
    replace (S (S (S (S (length body)))) * 3) with (length body * 3 + 3 * 4) by lia. rewrite Nat.div_add by lia. lia.
Qed.
Theorem C68_alphabet_decodes_partial :
  forall s, (forall c, In c s -> In c urlsafe_alphabet) ->
    if Nat.eqb (length s mod 4) 1 then urlsafe_base64_decode s = Err TypeError
    else exists out, urlsafe_base64_decode s = Ok out /\ length out = (length s * 3) / 4.
Proof.
  intros s Hs. unfold urlsafe_base64_decode, b64decode, b64_init.
  assert (HU : forall c, In c s -> is_urlsafe c = true) by (intros c Hc; now apply urlsafe_iff, Hs).
  assert (HA : ascii_only s = true).
  { apply forallb_forall. intros c Hc. apply N.ltb_lt. now apply (lit_ascii urlsafe_alphabet eq_refl), Hs. }
  rewrite HA, map_app, map_repeat. change (of_urlsafe pad) with pad.
  assert (HB : forallb is_b64 (map of_urlsafe s) = true).
  { apply forallb_forall. intros c Hc. apply in_map_iff in Hc as (x & <- & Hx). now apply of_urlsafe_b64, HU. }
  pose proof (a2b_length (map of_urlsafe s) HB 0%N _ eq_refl) as HL. rewrite map_length in HL.
  destruct (a2b_loop (map of_urlsafe s ++ repeat pad (length s mod 4)) (mkB64 0 0 0)) as [o l]. cbn [fst snd] in HL.
  destruct (Nat.eqb (length s mod 4) 1).
  - apply N.eqb_neq in HL. now rewrite HL.
  - destruct HL as [-> HL]. exists o. now split.
Qed.
Print Assumptions C68_alphabet_decodes_partial.
Example C68_case : urlsafe_base64_decode !"abcde" = Err TypeError /\ urlsafe_base64_decode !"abcdef" = Ok [105%N; 183%N; 29%N; 121%N].
Proof. now vm_compute. Qed.
Theorem C68_exceptions_partial :
  forall s e, urlsafe_base64_decode s = Err e ->
    (e = TypeError /\ (forall c, In c s -> (c < 128)%N)) \/ (e = UnicodeDecodeError /\ exists c, In c s /\ (128 <= c)%N).
Proof.
  intros s e. unfold urlsafe_base64_decode, b64decode. destruct (ascii_only s) eqn:EA.
  - destruct (a2b_loop _ _) as [o l]. destruct (N.eqb l 0); [easy|]. intros [= <-]. left. split; [easy|].
    intros c. now apply ascii_only_In.
  - intros [= <-]. right. split; [easy|]. unfold ascii_only in EA.
    assert (H : exists c, In c s /\ is_ascii c = false).
    { clear - EA. induction s as [|x s IH]; [easy|]. cbn in EA. destruct (is_ascii x) eqn:E.
      - destruct (IH EA) as (c & H1 & H2). exists c. split; [now right|easy].
      - exists x. split; [now left|easy]. }
    destruct H as (c & H1 & H2). exists c. split; [easy|]. unfold is_ascii in H2. now apply N.ltb_ge in H2.
Qed.
Print Assumptions C68_exceptions_partial.

(** ** C69.  ETags *)
(** pieces: an ETag without a comma, with white space around it *)
Definition padded_tag (tag piece : str) : Prop :=
  is_etag tag /\ ~ In comma tag /\
  exists u v, piece = u ++ tag ++ v /\ forallb is_ws u = true /\ forallb is_ws v = true.
Lemma comma_not_ws c : is_ws c = true -> c <> comma.
Proof. intros H ->. discriminate H. Qed.
Theorem C69_etag_list_roundtrip_partial :
  forall tags pieces, tags <> [] -> Forall2 padded_tag tags pieces ->
    parse_etags (join [comma] pieces) = tags.
Proof.
  intros tags pieces Hne HF.
  assert (HP : Forall (fun p => ~ In comma p) pieces).
  { clear Hne. induction HF as [|t p ts ps (Ht & Hc & u & v & -> & Hu & Hv) HF IH]; constructor; [|easy].
    rewrite forallb_forall in Hu, Hv. intros H. apply in_app_or in H as [H|H]; [now apply Hu in H|].
    apply in_app_or in H as [H|H]; [easy|now apply Hv in H]. }
  assert (HS : map strip pieces = tags).
  { clear Hne HP. induction HF as [|t p ts ps (Ht & Hc & u & v & -> & Hu & Hv) HF IH]; [easy|].
    cbn. rewrite IH. f_equal. apply strip_by_pad; try easy; [now apply etag_tight|now destruct Ht as (m & _ & [->| ->])]. }
  unfold parse_etags. destruct (seqb (strip (join [comma] pieces)) [star]) eqn:E.
  - exfalso. apply seqb_eq in E.
    (* a quote occurs in the list, and stripping keeps it *)
    destruct tags as [|t tags]; [easy|]. inversion HF as [|t' p ts ps (Ht & Hc & u & v & Hp & Hu & Hv) HF']; subst.
    assert (HQ : In dquote (strip (join [comma] ((u ++ t ++ v) :: ps)))).
    { assert (HQ1 : In dquote (join [comma] ((u ++ t ++ v) :: ps))).
      { destruct Ht as (m & _ & [->| ->]); destruct ps; cbn [join]; rewrite !in_app_iff; cbn; tauto. }
      destruct (strip_by_spec is_ws (join [comma] ((u ++ t ++ v) :: ps))) as (x & y & Hxy & Hx & Hy).
      rewrite Hxy in HQ1. rewrite forallb_forall in Hx, Hy.
      apply in_app_or in HQ1 as [H|H]; [now apply Hx in H|]. apply in_app_or in H as [H|H]; [easy|now apply Hy in H]. }
    assert (HQ2 : In dquote [star]) by (rewrite <- E; exact HQ). destruct HQ2 as [HQ2|[]]. discriminate HQ2.
  - rewrite splitc_join_inv; [|intros ->; inversion HF; now subst|easy]. rewrite HS.
    clear - HF. induction HF as [|t p ts ps (Ht & _) HF IH]; [easy|]. cbn.
    apply etag_match_iff in Ht. now rewrite Ht, IH.
Qed.
Print Assumptions C69_etag_list_roundtrip_partial.

(** commas are allowed inside an ETag, but such a tag is lost *)
Theorem C69_etag_list_roundtrip_refuted :
  exists tag, is_etag tag /\ parse_etags tag = [].
Proof.
  exists ([dquote] ++ !"a,b" ++ [dquote]). split; [|reflexivity].
  exists !"a,b". split; [|now left]. intros H. cbn in H. repeat destruct H as [H|H]; try discriminate H. easy.
Qed.
Print Assumptions C69_etag_list_roundtrip_refuted.

Theorem C69_star : forall u v, forallb is_ws u = true -> forallb is_ws v = true ->
  parse_etags (u ++ [star] ++ v) = [[star]].
Proof.
  intros u v Hu Hv. unfold parse_etags. unfold strip. rewrite strip_by_pad by easy. now rewrite seqb_refl.
Qed.
Print Assumptions C69_star.
Theorem C69_only_etags_returned : forall s t, In t (parse_etags s) -> t = [star] \/ (is_etag t /\ occurs t s).
Proof.
  intros s t. unfold parse_etags. destruct (seqb (strip s) [star]); [intros [<-|[]]; now left|].
  intros H. right. apply filter_In in H as [H1 H2]. apply etag_match_iff in H2. split; [easy|].
  apply in_map_iff in H1 as (p & <- & Hp). destruct (strip_by_spec is_ws p) as (u & v & Hp2 & _ & _).
  assert (HO : occurs p s).
  { rewrite <- (splitc_join comma s). revert Hp. generalize (splitc comma s). induction l as [|x l IH]; [easy|].
    intros [->|Hin].
    - destruct l as [|y l]; [exists [], []; now rewrite app_nil_r|].
      rewrite join_cons. now exists [], ([comma] ++ join [comma] (y :: l)).
    - destruct (IH Hin) as (a & b & Hab). destruct l as [|y l]; [easy|]. rewrite join_cons, Hab.
      exists (x ++ [comma] ++ a), b. now rewrite <- !app_assoc. }
  destruct HO as (a & b & ->). exists (a ++ u), (v ++ b). rewrite Hp2 at 1. unfold strip. now rewrite <- !app_assoc.
Qed.
Print Assumptions C69_only_etags_returned.
Theorem C69_quote_etag_idempotent_partial : forall s, is_etag s \/ ~ In dquote s ->
  is_etag (quote_etag s) /\ quote_etag (quote_etag s) = quote_etag s /\ (is_etag s -> quote_etag s = s).
Proof.
  intros s H.
  assert (HE : is_etag (quote_etag s)).
  { unfold quote_etag. destruct (etag_match s) eqn:E; [now apply etag_match_iff|].
    destruct H as [H|H]; [apply etag_match_iff in H; congruence|]. exists s. split; [easy|now left]. }
  split; [easy|]. split.
  - unfold quote_etag at 1. apply etag_match_iff in HE. now rewrite HE.
  - intros Hs. unfold quote_etag. apply etag_match_iff in Hs. now rewrite Hs.
Qed.
Print Assumptions C69_quote_etag_idempotent_partial.
Theorem C69_quote_etag_idempotent_refuted : exists s, quote_etag (quote_etag s) <> quote_etag s.
Proof. exists [97%N; dquote; 98%N]. now vm_compute. Qed.
Print Assumptions C69_quote_etag_idempotent_refuted.
Example C69_case :
  parse_etags ([dquote] ++ !"a" ++ [dquote] ++ !" , W/" ++ [dquote] ++ !"b" ++ [dquote] ++ !",junk")
  = [[dquote] ++ !"a" ++ [dquote]; !"W/" ++ [dquote] ++ !"b" ++ [dquote]].
Proof. reflexivity. Qed.

(** ** C70.  HTTP dates; the bounds are 0100-01-01, 10000-01-01 and 2070-01-01, and
    [rfc850_date], [asctime_date] (DateFacts) write an instant in the older formats *)
Theorem C70_http_date_roundtrip : forall t, (-59011459200 <= t < 253402300800)%Z -> parse_http_date (http_date t) = Ok t.
Proof. exact http_date_roundtrip. Qed.
Print Assumptions C70_http_date_roundtrip.
Theorem C70_rfc850_roundtrip : forall t, (0 <= t < 3155760000)%Z -> parse_http_date (rfc850_date t) = Ok t.
Proof. exact rfc850_roundtrip. Qed.
Print Assumptions C70_rfc850_roundtrip.
Theorem C70_asctime_roundtrip : forall t, (-59011459200 <= t < 253402300800)%Z -> parse_http_date (asctime_date t) = Ok t.
Proof. exact asctime_roundtrip. Qed.
Print Assumptions C70_asctime_roundtrip.
(** the text written for a calendar date is that date, with the weekday of the
    proleptic Gregorian calendar (day 1 of year 1 was a Monday) *)
Theorem C70_http_date_text :
  forall d, valid_dt d = true ->
    http_date (timegm d) =
      day_name ((days_before_year (dt_y d) + days_before_month (dt_y d) (dt_mo d) + (dt_d d - 1)) mod 7) ++ !", "
      ++ pad2 (dt_d d) ++ !" " ++ month_name (dt_mo d) ++ !" " ++ pad4 (dt_y d) ++ !" "
      ++ pad2 (dt_h d) ++ !":" ++ pad2 (dt_mi d) ++ !":" ++ pad2 (dt_s d) ++ !" GMT".
Proof.
  intros d HV. unfold http_date. destruct (gmtime_timegm d HV) as [-> _]. rewrite weekday_timegm by easy.
  f_equal. f_equal. unfold toordinal.
  replace (days_before_year (dt_y d) + days_before_month (dt_y d) (dt_mo d) + dt_d d + 6)%Z
    with (days_before_year (dt_y d) + days_before_month (dt_y d) (dt_mo d) + (dt_d d - 1) + 1 * 7)%Z by lia.
  now rewrite Z.mod_add by lia.
Qed.
Print Assumptions C70_http_date_text.
Example C70_case :
  http_date 784111777 = !"Sun, 06 Nov 1994 08:49:37 GMT" /\
  rfc850_date 784111777 = !"Sunday, 06-Nov-94 08:49:37 GMT" /\
  asctime_date 784111777 = !"Sun Nov  6 08:49:37 1994" /\
  parse_http_date !"Sun Nov  6 08:49:37 1994" = Ok 784111777%Z.
Proof. now vm_compute. Qed.

(** ** C71.  Invalid dates.  [date_text s m] (DateFacts) says that [s] has one of the
    three shapes with fields [m]. *)
Theorem C71_bad_shape_valueerror :
  forall s, parse_http_date s = Err ValueError <-> ~ exists m, date_text s m.
Proof.
  intros s. rewrite parse_http_date_eq. destruct (match_any s) as [m|] eqn:E.
  - apply match_any_iff in E. split.
    + destruct (date_of_match m); discriminate.
    + intros H. exfalso. apply H. now exists m.
  - split; [|easy]. intros _ [m Hm]. apply match_any_iff in Hm. congruence.
Qed.
Print Assumptions C71_bad_shape_valueerror.
(** well-shaped but impossible dates raise TypeError, because [six.reraise] is called
    with an exception instance as its first argument *)
Theorem C71_invalid_dates_valueerror_refuted :
  exists s, parse_http_date s = Err TypeError /\ exists m, date_text s m.
Proof.
  exists !"Sun, 31 Feb 1994 08:49:37 GMT". split; [reflexivity|].
  eexists. apply match_any_iff. reflexivity.
Qed.
Print Assumptions C71_invalid_dates_valueerror_refuted.
(** every outcome is one of three, and _safe hides exactly the failures *)
Theorem C71_outcomes_partial :
  forall s, (exists t, parse_http_date s = Ok t /\ parse_http_date_safe s = Some t) \/
    ((parse_http_date s = Err ValueError \/ parse_http_date s = Err TypeError) /\ parse_http_date_safe s = None).
Proof.
  intros s. unfold parse_http_date_safe. rewrite parse_http_date_eq. destruct (match_any s) as [m|].
  - destruct (date_of_match m) as [t|]; [left; now exists t|right; auto].
  - right. auto.
Qed.
Print Assumptions C71_outcomes_partial.
(** a successful parse means: a well-shaped date that exists, read field by field;
    two-digit years are taken as 1970-2069 *)
Lemma index_of_Some x : forall l z, index_of x l = Some z -> exists k, z = Z.of_nat k /\ nth_error l k = Some x.
Proof.
  induction l as [|y l IH]; intros z; cbn; [easy|]. destruct (seqb x y) eqn:E.
  - intros [= <-]. apply seqb_eq in E. subst. now exists 0.
  - destruct (index_of x l) as [z'|]; [|easy]. intros [= <-]. destruct (IH z' eq_refl) as (k & -> & H).
    exists (S k). split; [lia|easy].
Qed.
Theorem C71_parsed_dates_exist :
  forall s t, parse_http_date s = Ok t ->
    exists m d y, date_text s m /\ timegm d = t /\
      (1 <= dt_mo d <= 12 /\ 1 <= dt_d d <= days_in_month (dt_y d) (dt_mo d) /\
       0 <= dt_h d <= 23 /\ 0 <= dt_mi d <= 59 /\ 0 <= dt_s d <= 59)%Z /\
      py_int 10 (m_year m) = Some y /\
      (100 <= y /\ dt_y d = y \/ 70 <= y < 100 /\ dt_y d = 1900 + y \/ y < 70 /\ dt_y d = 2000 + y)%Z /\
      lower (m_mon m) = lower (month_name (dt_mo d)) /\
      py_int 10 (m_day m) = Some (dt_d d) /\ py_int 10 (m_hour m) = Some (dt_h d) /\
      py_int 10 (m_min m) = Some (dt_mi d) /\ py_int 10 (m_sec m) = Some (dt_s d).
Proof.
  intros s t. rewrite parse_http_date_eq. destruct (match_any s) as [m|] eqn:E; [|easy]. apply match_any_iff in E.
  unfold date_of_match.
  destruct (py_int 10 (m_year m)) as [y|] eqn:E1; [|easy].
  destruct (index_of (lower (m_mon m)) months_lower) as [mo|] eqn:E2; [|easy].
  destruct (py_int 10 (m_day m)) as [d|] eqn:E3; [|easy]. destruct (py_int 10 (m_hour m)) as [h|] eqn:E4; [|easy].
  destruct (py_int 10 (m_min m)) as [mi|] eqn:E5; [|easy]. destruct (py_int 10 (m_sec m)) as [x|] eqn:E6; [|easy].
  set (dt := mkDT _ _ _ _ _ _). destruct (valid_dt dt) eqn:EV; [|easy]. intros [= <-]. apply valid_dt_iff in EV.
  exists m, dt, y. split; [easy|]. split; [easy|]. split; [lia|]. split; [easy|].
  split; [cbn [dt dt_y]; destruct (Z.ltb_spec y 100); [destruct (Z.ltb_spec y 70)|]; lia|].
  split; [|easy]. cbn [dt dt_mo]. apply index_of_Some in E2 as (k & -> & HN).
  unfold months_lower in HN. rewrite nth_error_map in HN. unfold month_name.
  replace (Z.to_nat (Z.of_nat k + 1 - 1)) with k by lia.
  destruct (nth_error month_names k) as [nm|] eqn:EN; [|easy]. cbn in HN. injection HN as <-.
  f_equal. symmetry. now apply nth_error_nth.
Qed.
Print Assumptions C71_parsed_dates_exist.
Example C71_case :
  parse_http_date !"Sun, 06 Nov 0094 08:49:37 GMT" = Ok 784111777%Z /\
  parse_http_date !"Sun, 06 Nov 1994 08:49:37 UTC" = Err ValueError /\
  parse_http_date !"Sun, 06 Nov 1994 24:49:37 GMT" = Err TypeError /\
  parse_http_date_safe !"Sun, 06 Nov 1994 24:49:37 GMT" = None.
Proof. now vm_compute. Qed.
