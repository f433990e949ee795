(** * Theorems about quoting and urlencode: C106, C107 *)
From Verif Require Import Py PyFacts PyDict CodecModel CodecFacts PercentModel PercentFacts QuerySpec QueryModel QueryFacts UriModel EncModel.

(** ** C106: quoting can be undone *)
(** the strings that can be quoted, and the text they stand for *)
Definition quotable (c : codec) (p : pystr) : Prop :=
  match p with PB b => bytes_only b = true | PU u => c_enc c u <> None end.
Definition text (c : codec) (p : pystr) : str := match p with PB b => c_rep c b | PU u => u end.

Lemma quotable_bytes reg c p : reg UTF8_NAME = Some c -> codec_ok c -> quotable c p ->
  exists b, quoted_bytes reg p = Ok b /\ bytes_only b = true /\ c_rep c b = text c p.
Proof.
  intros Hr Hc Hq. destruct p as [b|u]; cbn [quotable text] in *.
  - exists b. easy.
  - destruct (c_enc c u) as [b|] eqn:E; [|easy]. exists b. unfold quoted_bytes, encode. rewrite Hr, E.
    split; [easy|]. split; [now apply (cok_bytes c Hc u)|].
    apply (cok_rep c Hc). now apply (cok_roundtrip c Hc).
Qed.

Lemma safe_ascii_In safe x : In x (safe_ascii safe) -> In x safe /\ (x < 128)%N.
Proof. intros H. apply filter_In in H as [H1 H2]. split; [easy|]. now apply N.ltb_lt. Qed.
Lemma safe_ascii_mem safe x : ~ In x safe -> mem x (safe_ascii safe) = false.
Proof.
  intros H. destruct (mem x (safe_ascii safe)) eqn:E; [|easy]. apply mem_In in E. now apply safe_ascii_In in E.
Qed.
Lemma quote_safe_ascii safe b : bytes_only b = true -> ascii_only (quote (safe_ascii safe) b) = true.
Proof.
  intros H. apply forallb_forall. intros x Hx. apply N.ltb_lt.
  apply (quote_ascii (safe_ascii safe) b H); [|easy]. intros y Hy. now apply safe_ascii_In in Hy.
Qed.

Theorem C106_quote_roundtrip :
  forall reg c safe p, reg UTF8_NAME = Some c -> codec_ok c -> quotable c p -> ~ In percent safe ->
  exists q, urlquote reg safe p = Ok q /\ urlunquote reg (PU q) = Ok (PU (text c p)).
Proof.
  intros reg c safe p Hr Hc Hq Hs. destruct (quotable_bytes reg c p Hr Hc Hq) as (b & Hb & Hbb & Ht).
  unfold urlquote. rewrite Hb. cbn [bind]. eexists. split; [reflexivity|]. unfold urlunquote.
  rewrite (unquote_ascii reg _ c) by (try easy; now apply quote_safe_ascii). cbn [bind].
  rewrite unquote_quote by (try easy; now apply safe_ascii_mem). now rewrite Ht.
Qed.
Print Assumptions C106_quote_roundtrip.
(** byte strings: without an escape they come back as they are; otherwise they are taken as text, if they are ASCII *)
Theorem C106_unquote_bytes :
  forall reg b,
    (~ In percent b -> urlunquote reg (PB b) = Ok (PB b)) /\
    (In percent b -> ascii_only b = true -> urlunquote reg (PB b) = urlunquote reg (PU b)) /\
    (In percent b -> ascii_only b = false -> urlunquote reg (PB b) = Err UnicodeDecodeError).
Proof.
  intros reg b. cbn [urlunquote]. destruct (mem percent b) eqn:E.
  - assert (H : In percent b) by now apply mem_In. split; [easy|]. split; intros _ ->; reflexivity.
  - assert (H : ~ In percent b) by (intros H; apply mem_In in H; congruence). split; [reflexivity|]. split; easy.
Qed.
Print Assumptions C106_unquote_bytes.

Lemma replacec_ascii a b s : (b < 128)%N -> ascii_only s = true -> ascii_only (replacec a b s) = true.
Proof.
  intros Hb Hs. apply forallb_forall. intros x Hx. apply in_map_iff in Hx as (y & <- & Hy).
  destruct (N.eqb y a); [now apply N.ltb_lt|]. unfold ascii_only in Hs. rewrite forallb_forall in Hs. now apply Hs.
Qed.

Theorem C106_quote_plus_roundtrip :
  forall reg c safe p, reg UTF8_NAME = Some c -> codec_ok c -> quotable c p -> ~ In percent safe -> ~ In plus safe ->
  exists q, urlquote_plus reg safe p = Ok q /\ urlunquote_plus reg (PU q) = Ok (PU (text c p)).
Proof.
  intros reg c safe p Hr Hc Hq Hs Hp. destruct (quotable_bytes reg c p Hr Hc Hq) as (b & Hb & Hbb & Ht).
  assert (Hnp : forall sf, ~ In plus sf -> ~ In plus (quote (safe_ascii sf) b)).
  { intros sf Hsf Hin. destruct (quote_chars _ b plus Hbb Hin) as [[H _]|[H|H]]; try easy.
    apply orb_true_iff in H. destruct H as [H|H]; [easy|]. now rewrite safe_ascii_mem in H. }
  unfold urlquote_plus, urlquote, urlunquote_plus. rewrite Hb. cbn [bind pchars].
  destruct (mem 32%N (pchars p)) eqn:Em; eexists; (split; [reflexivity|]).
  - rewrite replacec_back by (apply Hnp; rewrite in_app_iff; intros [H|[H|[]]]; easy).
    rewrite (unquote_ascii reg _ c) by (try easy; now apply quote_safe_ascii). cbn [bind].
    rewrite unquote_quote; [now rewrite Ht| |easy]. apply safe_ascii_mem. rewrite in_app_iff. intros [H|[H|[]]]; easy.
  - rewrite replacec_notin by now apply Hnp.
    rewrite (unquote_ascii reg _ c) by (try easy; now apply quote_safe_ascii). cbn [bind].
    rewrite unquote_quote; [now rewrite Ht|now apply safe_ascii_mem|easy].
Qed.
Print Assumptions C106_quote_plus_roundtrip.

(** what is quoted consists of letters, digits, '_', '.', '-', the characters
    declared safe and '%'; with '+' for the blanks in [urlquote_plus] *)
Theorem C106_quoted_chars :
  forall reg c safe p, reg UTF8_NAME = Some c -> codec_ok c -> quotable c p ->
  (forall q x, urlquote reg safe p = Ok q -> In x q ->
    is_alnum x = true \/ In x !"_.-%" \/ (In x safe /\ (x < 128)%N)) /\
  (forall q x, urlquote_plus reg safe p = Ok q -> In x q ->
    (~ In 32%N safe -> x <> 32%N) /\ (is_alnum x = true \/ In x !"_.-%+" \/ (In x safe /\ (x < 128)%N))).
Proof.
  intros reg c safe p Hr Hc Hq. destruct (quotable_bytes reg c p Hr Hc Hq) as (b & Hb & Hbb & Ht).
  assert (HH : forall x, is_HEX x = true -> is_alnum x = true).
  { intros x Hx. unfold is_alnum, is_alpha, is_upper, is_lower, is_digit. unfold is_HEX, is_digit in Hx.
    apply orb_true_iff in Hx. rewrite !andb_true_iff, !N.leb_le in Hx. 
    rewrite !orb_true_iff, !andb_true_iff, !N.leb_le. destruct Hx as [?|?]; lia. }
  assert (H : forall sf x, In x (quote (safe_ascii sf) b) ->
    is_alnum x = true \/ In x !"_.-%" \/ (In x sf /\ (x < 128)%N)).
  { intros sf x Hx. destruct (quote_chars _ b x Hbb Hx) as [[Hx' _]|[Hx'|Hx']].
    - apply orb_true_iff in Hx' as [Hx'|Hx'].
      + unfold always_safe in Hx'. rewrite !orb_true_iff, !N.eqb_eq in Hx'.
        destruct Hx' as [[[Hx'|Hx']|Hx']|Hx']; subst; [now left|right; left; cbn; tauto..].
      + apply mem_In in Hx'. right. right. now apply safe_ascii_In.
    - subst. right. left. cbn. tauto.
    - left. now apply HH. }
  split.
  - intros q x. unfold urlquote. rewrite Hb. cbn [bind]. intros [= <-]. apply H.
  - intros q x. unfold urlquote_plus, urlquote. rewrite Hb. cbn [bind].
    destruct (mem 32%N (pchars p)) eqn:Em; intros [= <-] Hx.
    + apply in_map_iff in Hx as (y & <- & Hy). destruct (N.eqb_spec y 32).
      * split; [easy|]. right. left. cbn. tauto.
      * split; [easy|]. destruct (H _ _ Hy) as [|[Hi|[Hi Hl]]]; [tauto| |].
        -- right. left. cbn in Hi |- *. tauto.
        -- rewrite in_app_iff in Hi. destruct Hi as [Hi|[Hi|[]]]; [tauto|now symmetry in Hi].
    + split.
      * intros Hsf ->. destruct (H _ _ Hx) as [Ha|[Ha|[Ha _]]]; [easy| |easy]. cbn in Ha. intuition easy.
      * destruct (H _ _ Hx) as [|[Hi|Hi]]; [tauto| |tauto]. right. left. cbn in Hi |- *. tauto.
Qed.
Print Assumptions C106_quoted_chars.

(** the example: '/' is kept by default, a blank, a percent sign and e-acute are quoted *)
Definition u8reg : registry := fun n => if seqb n UTF8_NAME then Some (utf8 (fun s => s)) else None.
Example C106_case :
  urlquote u8reg !"/" (PU (!"a/b c%" ++ [233%N])) = Ok !"a/b%20c%25%C3%A9" /\
  urlquote_plus u8reg [] (PU (!"a/b c%" ++ [233%N])) = Ok !"a%2Fb+c%25%C3%A9" /\
  urlunquote_plus u8reg (PU !"a%2Fb+c%25%C3%A9") = Ok (PU (!"a/b c%" ++ [233%N])).
Proof. repeat split; vm_compute; reflexivity. Qed.

(** declaring '%' or '+' safe breaks the round trip *)
Theorem C106_safe_refuted :
  (exists p q r, urlquote u8reg [percent] (PU p) = Ok q /\ urlunquote u8reg (PU q) = Ok (PU r) /\ r <> p) /\
  (exists p q r, urlquote_plus u8reg [plus] (PU p) = Ok q /\ urlunquote_plus u8reg (PU q) = Ok (PU r) /\ r <> p).
Proof.
  split.
  - exists !"100%25". do 2 eexists. split; [vm_compute; reflexivity|]. split; [vm_compute; reflexivity|easy].
  - exists !"a+b". do 2 eexists. split; [vm_compute; reflexivity|]. split; [vm_compute; reflexivity|easy].
Qed.
Print Assumptions C106_safe_refuted.

(** ** C107: urlencode *)
(** the pairs that a query stands for: one for each value of a sequence *)
Definition item_text (c : codec) (i : uitem) : str :=
  match i with IStr p => text c p | INone => [] | IObj s => s end.
Definition val_texts (c : codec) (v : uval) : list str :=
  match v with VItem i => [item_text c i] | VSeq l => map (item_text c) l end.
Definition pairs_of (c : codec) (q : list (pystr * uval)) : list (str * str) :=
  flat_map (fun e => map (fun t => (text c (fst e), t)) (val_texts c (snd e))) q.

(** values that are encoded well: byte strings, unicode strings in a sequence if
    they are ASCII, other objects with an ASCII text *)
Definition good_item (i : uitem) : Prop :=
  match i with
  | INone => False
  | IStr (PB b) => bytes_only b = true
  | IStr (PU u) => ascii_only u = true
  | IObj s => ascii_only s = true
  end.
Definition good_val (v : uval) : Prop :=
  match v with
  | VItem (IStr (PU _)) => False
  | VItem i => good_item i
  | VSeq l => Forall good_item l
  end.

Lemma good_native c i : codec_ok c -> good_item i ->
  exists b, item_native i = Ok b /\ bytes_only b = true /\ c_rep c b = item_text c i.
Proof.
  intros Hc Hg. assert (HA : forall s, ascii_only s = true -> bytes_only s = true /\ c_rep c s = s).
  { intros s Hs. split; [now apply ascii_bytes|]. apply (cok_rep c Hc). now apply (cok_dec_ascii c Hc). }
  destruct i as [[b|u]| |s]; cbn [good_item] in Hg; cbn [item_native item_text text]; try easy.
  - exists b. easy.
  - exists u. cbn [to_native]. rewrite Hg. split; [easy|now apply HA].
  - exists s. split; [easy|now apply HA].
Qed.
Lemma good_natives c l : codec_ok c -> Forall good_item l ->
  exists bs, items_native l = Ok bs /\ Forall (fun b => bytes_only b = true) bs /\
    map (c_rep c) bs = map (item_text c) l.
Proof.
  intros Hc. induction 1 as [|i l Hi HF (bs & H1 & H2 & H3)]; [now exists []|].
  destruct (good_native c i Hc Hi) as (b & B1 & B2 & B3). exists (b :: bs).
  cbn [items_native]. rewrite B1. cbn [bind]. rewrite H1. cbn [bind map]. rewrite B3, H3.
  split; [easy|]. split; [now constructor|easy].
Qed.
Definition qvals (v : qval) : list str := match v with QOne s => [s] | QList l => l end.
Lemma good_query_val c v : codec_ok c -> good_val v ->
  exists r, query_val v = Ok r /\ Forall (fun b => bytes_only b = true) (qvals r) /\
    map (c_rep c) (qvals r) = val_texts c v.
Proof.
  intros Hc Hg. destruct v as [i|l].
  - assert (Hg' : good_item i) by (destruct i as [[?|?]| |?]; easy).
    destruct (good_native c i Hc Hg') as (b & B1 & B2 & B3). exists (QOne b).
    destruct i as [[b'|u]| |s]; cbn [item_native to_native] in B1; try easy; injection B1 as <-; cbn [query_val qvals map val_texts];
      rewrite B3; (split; [easy|]); (split; [now constructor|easy]).
  - destruct (good_natives c l Hc Hg) as (bs & B1 & B2 & B3). exists (QList bs). cbn [query_val]. rewrite B1. easy.
Qed.

Lemma pair_parses reg c kb vb : reg UTF8_NAME = Some c -> codec_ok c ->
  bytes_only kb = true -> bytes_only vb = true ->
  let e := quote_plus kb ++ [equal] ++ quote_plus vb in
  no_separator e /\ field_res reg UTF8_NAME (qsl_field true e) = Ok [(c_rep c kb, c_rep c vb)].
Proof.
  intros Hr Hc Hkb Hvb. assert (Hck := quote_plus_chars kb). assert (Hcv := quote_plus_chars vb).
  assert (Hne : ~ In equal (quote_plus kb)).
  { intros H. destruct (Hck _ Hkb H) as (_ & _ & H' & _). easy. }
  cbn zeta. split.
  { intros x Hx [Hs|Hs]; rewrite in_app_iff in Hx; cbn in Hx; destruct Hx as [Hx|[Hx|Hx]]; subst; try easy;
      try (destruct (Hck _ Hkb Hx) as (? & ? & _); easy); destruct (Hcv _ Hvb Hx) as (? & ? & _); easy. }
  cbn [app]. rewrite qsl_field_value by easy. rewrite orb_true_r. cbn [field_res].
  assert (Hasc : forall s, bytes_only s = true -> ascii_only (replacec plus 32%N (quote_plus s)) = true).
  { intros s Hs. apply forallb_forall. intros x Hx. apply in_map_iff in Hx. destruct Hx as (y & <- & Hy).
    destruct (N.eqb y plus); [easy|]. apply N.ltb_lt. now apply (quote_plus_chars s). }
  rewrite !(unquote_ascii reg _ c) by (try easy; now apply Hasc). cbn [bind]. now rewrite !unquote_quote_plus.
Qed.

Lemma qsl_loop_app reg enc blank a b ra rb : qsl_loop reg enc blank a = Ok ra -> qsl_loop reg enc blank b = Ok rb ->
  qsl_loop reg enc blank (a ++ b) = Ok (ra ++ rb).
Proof.
  revert ra. induction a as [|x a IH]; intros ra Ha Hb; [cbn in Ha; now injection Ha as <-|].
  cbn [app]. rewrite qsl_loop_cons in *. destruct (field_res reg enc (qsl_field blank x)) as [f|]; [|easy].
  cbn [bind] in *. destruct (qsl_loop reg enc blank a) as [ra'|] eqn:E; [|easy]. cbn [bind] in Ha. injection Ha as <-.
  rewrite (IH ra' eq_refl Hb). cbn [bind]. now rewrite app_assoc.
Qed.

Lemma orig_parses reg c q : reg UTF8_NAME = Some c -> codec_ok c ->
  Forall (fun e => quotable c (fst e) /\ good_val (snd e)) q ->
  exists ps es, query_params q = Ok ps /\ orig_pairs reg true ps = Ok es /\ Forall no_separator es /\
    qsl_loop reg UTF8_NAME true es = Ok (pairs_of c q).
Proof.
  intros Hr Hc. induction 1 as [|[k v] q [Hk Hv] HF (ps & es & H1 & H2 & H3 & H4)]; [now exists [], []|].
  cbn [fst snd] in *. destruct (quotable_bytes reg c k Hr Hc Hk) as (kb & K1 & K2 & K3).
  destruct (good_query_val c v Hc Hv) as (r & V1 & V2 & V3).
  set (es0 := map (fun b => quote_plus kb ++ [equal] ++ quote_plus b) (qvals r)).
  exists ((k, r) :: ps), (es0 ++ es). cbn [query_params]. rewrite V1. cbn [bind]. rewrite H1. cbn [bind].
  split; [easy|]. cbn [orig_pairs]. unfold orig_pair. rewrite K1. cbn [bind]. rewrite H2. cbn [bind].
  split; [unfold es0; now destruct r|].
  assert (H0 : Forall no_separator es0 /\
     qsl_loop reg UTF8_NAME true es0 = Ok (map (fun t => (text c k, t)) (map (c_rep c) (qvals r)))).
  { unfold es0. clear -V2 K2 K3 Hr Hc. induction V2 as [|b l Hb HF IH]; [split; [constructor|easy]|]. cbn [map].
    destruct (pair_parses reg c kb b Hr Hc K2 Hb) as [P1 P2]. destruct IH as [I1 I2].
    split; [now constructor|]. rewrite qsl_loop_cons, P2. cbn [bind]. rewrite I2. cbn [bind]. now rewrite K3. }
  destruct H0 as [H01 H02]. split; [now apply Forall_app|].
  cbn [pairs_of flat_map fst snd]. rewrite <- V3. now apply qsl_loop_app.
Qed.

(** with doseq, what is encoded parses back to the same pairs *)
Theorem C107_roundtrip_partial :
  forall reg c q, reg UTF8_NAME = Some c -> codec_ok c ->
  Forall (fun e => quotable c (fst e) /\ good_val (snd e)) q ->
  exists s, urlencode reg true q = Ok s /\ limited_parse_qsl reg s true UTF8_NAME None = Ok (pairs_of c q).
Proof.
  intros reg c q Hr Hc Hq. destruct (orig_parses reg c q Hr Hc Hq) as (ps & es & H1 & H2 & H3 & H4).
  unfold urlencode. rewrite H1. cbn [bind]. rewrite H2. cbn [bind]. eexists. split; [reflexivity|].
  unfold limited_parse_qsl. cbn [qsl_pairs bind]. destruct es as [|e es].
  - cbn in H4. injection H4 as <-. easy.
  - rewrite fields_split_join by easy. exact H4.
Qed.
Print Assumptions C107_roundtrip_partial.

Definition ex_query : list (pystr * uval) :=
  [(PU [233%N], VSeq [IStr (PB !"1&2"); IStr (PU !"b c"); IObj !"3"]); (PB !"k", VItem (IStr (PB [195; 169]%N)));
   (PB !"e", VSeq [])].
Example C107_case :
  urlencode u8reg true ex_query = Ok !"%C3%A9=1%262&%C3%A9=b+c&%C3%A9=3&k=%C3%A9" /\
  Forall (fun e => quotable (utf8 (fun s => s)) (fst e) /\ good_val (snd e)) ex_query.
Proof.
  split; [vm_compute; reflexivity|].
  apply Forall_cons; [split; [easy|]|apply Forall_cons; [split; exact eq_refl|apply Forall_cons; [split; [exact eq_refl|]|apply Forall_nil]]].
  - cbn. repeat (apply Forall_cons; [easy|]). apply Forall_nil.
  - apply Forall_nil.
Qed.

(** what is missing: a unicode value is taken apart into its characters, and without
    doseq the values of a MultiValueDict become the text of a list *)
Theorem C107_unicode_value_refuted :
  exists u s, urlencode u8reg true [(PB !"k", VItem (IStr (PU u)))] = Ok s /\
  limited_parse_qsl u8reg s true UTF8_NAME None = Ok (map (fun x => (!"k", [x])) u) /\ length u = 3.
Proof. exists !"abc". eexists. split; [vm_compute; reflexivity|]. split; vm_compute; reflexivity. Qed.
Print Assumptions C107_unicode_value_refuted.
Theorem C107_unicode_value_split :
  forall reg c k u, reg UTF8_NAME = Some c -> codec_ok c -> quotable c k -> ascii_only u = true ->
  exists s, urlencode reg true [(k, VItem (IStr (PU u)))] = Ok s /\
  limited_parse_qsl reg s true UTF8_NAME None = Ok (map (fun x => (text c k, [x])) u).
Proof.
  intros reg c k u Hr Hc Hk Hu.
  destruct (C107_roundtrip_partial reg c [(k, VSeq (map (fun x => IStr (PU [x])) u))] Hr Hc) as (s & H1 & H2).
  - constructor; [|constructor]. split; [easy|]. cbn. apply Forall_forall. intros i Hi.
    apply in_map_iff in Hi as (x & <- & Hx). cbn. rewrite andb_true_r. unfold ascii_only in Hu.
    rewrite forallb_forall in Hu. now apply Hu.
  - exists s. split; [exact H1|]. rewrite H2. unfold pairs_of. cbn [flat_map fst snd val_texts]. rewrite app_nil_r.
    rewrite !map_map. easy.
Qed.
Print Assumptions C107_unicode_value_split.
Theorem C107_no_doseq_refuted :
  exists s, urlencode u8reg false [(PB !"k", VSeq [IStr (PB !"1")])] = Ok s /\
  limited_parse_qsl u8reg s true UTF8_NAME None = Ok [(!"k", !"['1']")].
Proof. eexists. split; [vm_compute; reflexivity|]. vm_compute. reflexivity. Qed.
Print Assumptions C107_no_doseq_refuted.

(** None is refused, wherever it stands, with either doseq *)
Definition has_none (v : uval) : Prop :=
  match v with VItem i => i = INone | VSeq l => In INone l end.
Definition native_ok (i : uitem) : Prop := match i with IStr (PU u) => ascii_only u = true | _ => True end.
Definition val_native_ok (v : uval) : Prop :=
  match v with VItem i => native_ok i | VSeq l => Forall native_ok l end.
Lemma items_native_none l : Forall native_ok l ->
  (In INone l /\ items_native l = Err TypeError) \/ (~ In INone l /\ exists bs, items_native l = Ok bs).
Proof.
  induction 1 as [|i l Hi HF IH]; [right; split; [easy|now exists []]|]. cbn [items_native].
  destruct i as [p| |s].
  - assert (exists b, to_native p = Ok b) as [b Hb].
    { destruct p as [b|u]; cbn [to_native native_ok] in *; [eauto|]. rewrite Hi. eauto. }
    cbn [item_native]. rewrite Hb. cbn [bind].
    destruct IH as [[H1 ->]|[H1 [bs ->]]]; cbn [bind]; [left|right]; split; cbn; intuition (eauto; easy).
  - left. split; [now left|easy].
  - cbn [item_native bind].
    destruct IH as [[H1 ->]|[H1 [bs ->]]]; cbn [bind]; [left|right]; split; cbn; intuition (eauto; easy).
Qed.
Lemma query_val_none v : val_native_ok v ->
  (has_none v /\ query_val v = Err TypeError) \/ (~ has_none v /\ exists r, query_val v = Ok r).
Proof.
  destruct v as [[[b|u]| |s]|l]; cbn [has_none val_native_ok native_ok query_val]; intros Hv.
  - right. split; [easy|eauto].
  - right. split; [easy|]. destruct (items_native_none (map (fun x => IStr (PU [x])) u)) as [[H _]|[_ [bs ->]]].
    + apply Forall_forall. intros i Hi. apply in_map_iff in Hi as (x & <- & Hx). cbn. rewrite andb_true_r.
      unfold ascii_only in Hv. rewrite forallb_forall in Hv. now apply Hv.
    + apply in_map_iff in H as (x & H & _). easy.
    + cbn [bind]. eauto.
  - now left.
  - right. split; [easy|eauto].
  - destruct (items_native_none l Hv) as [[H ->]|[H [bs ->]]]; [now left|right]. cbn [bind]. eauto.
Qed.
Theorem C107_none :
  forall reg c doseq q, reg UTF8_NAME = Some c -> codec_ok c ->
  Forall (fun e => quotable c (fst e) /\ val_native_ok (snd e)) q ->
  (Exists (fun e => has_none (snd e)) q -> urlencode reg doseq q = Err TypeError) /\
  (~ Exists (fun e => has_none (snd e)) q -> exists s, urlencode reg doseq q = Ok s).
Proof.
  intros reg c doseq q Hr Hc HF.
  assert (H : (Exists (fun e => has_none (snd e)) q /\ query_params q = Err TypeError) \/
              (~ Exists (fun e => has_none (snd e)) q /\
               exists ps es, query_params q = Ok ps /\ orig_pairs reg doseq ps = Ok es)).
  { induction HF as [|[k v] q [Hk Hv] HF IH].
    - right. split; [intros H; inversion H|]. now exists [], [].
    - cbn [fst snd query_params] in *. destruct (query_val_none v Hv) as [[N1 ->]|[N1 [r ->]]].
      + left. split; [now constructor|easy].
      + cbn [bind]. destruct IH as [[I1 ->]|[I1 (ps & es & -> & I3)]].
        * left. split; [now constructor 2|easy].
        * right. split; [intros H; inversion H; easy|]. destruct (quotable_bytes reg c k Hr Hc Hk) as (kb & Hkb & _).
          cbn [bind]. eexists; eexists. split; [reflexivity|]. cbn [orig_pairs]. unfold orig_pair. rewrite Hkb.
          cbn [bind]. rewrite I3. reflexivity. }
  destruct H as [[H1 H2]|[H1 (ps & es & H2 & H3)]]; split; intros H; try easy.
  - unfold urlencode. now rewrite H2.
  - unfold urlencode. rewrite H2. cbn [bind]. rewrite H3. cbn [bind]. eauto.
Qed.
Print Assumptions C107_none.
Example C107_none_case :
  urlencode u8reg false [(PB !"a", VItem (IObj !"1")); (PU !"b", VSeq [IStr (PB !"x"); INone])] = Err TypeError.
Proof. vm_compute. reflexivity. Qed.
