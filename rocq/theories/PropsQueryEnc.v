(** * C154: the encoding of a QueryDict *)
From Verif Require Import Py PyFacts PyDict CodecModel CodecFacts PercentModel PercentFacts QueryModel QuerySpec QueryFacts PropsData PropsSafe.

(** ** The encoding argument and attribute, request_parser/http/request.py *)
(** the constructor with its argument [encoding], lines 619-642: line 622 takes DEFAULT_CHARSET, and the argument
    is not looked at *)
Definition querydict_enc (reg : registry) (st : option qsettings) (qs : option pystr) (mut : bool) (encoding : option str) : res qdict :=
  querydict reg st qs mut.
(** the attribute [encoding], lines 657-665: None stands for the DEFAULT_CHARSET of the settings when it is next
    read ([charset]); it may be set on an immutable QueryDict, too *)
Definition q_set_encoding (charset : str) (e : option str) (q : qdict) : qdict :=
  mkQD (match e with Some e => e | None => charset end) (q_mut q) (q_d q).

(** ** Specification: what becomes of a dictionary written in one charset and read in another *)
(** the text [k] written in [c] and read in [d] *)
Definition misread (c d : codec) (k : str) : str := match c_enc c k with Some b => c_rep d b | None => k end.
(** the values under the keys that are read as [k] *)
Definition read_values (c d : codec) (k : str) (l : dict (list pystr)) : list str :=
  flat_map (fun e => if seqb (misread c d (fst e)) k then map pchars (snd e) else []) l.

Lemma other_pair reg enc e c d k v x : reg enc = Some d -> codec_ok d -> reg e = Some c -> codec_ok c -> ascii_only (pchars v) = true ->
  enc_pair reg e None (PU k) v = Ok x ->
  no_separator x /\ ascii_only x = true /\ field_res reg enc (qsl_field true x) = Ok [(misread c d k, pchars v)].
Proof.
  intros Hr Hd Hre Hc Hv He. unfold enc_pair in He. unfold encode in He at 1. rewrite Hre in He.
  unfold misread. destruct (c_enc c k) as [kb|] eqn:Ek; [|easy]. cbn [bind] in He.
  rewrite (enc_value_ascii reg e c v Hre Hc Hv) in He. cbn [bind] in He. injection He as <-.
  pose proof (cok_bytes c Hc k kb Ek) as Hkb. pose proof (ascii_bytes _ Hv) as Hvb.
  assert (Hck := fun x => quote_plus_chars kb x Hkb). assert (Hcv := fun x => quote_plus_chars (pchars v) x Hvb).
  assert (Hne : ~ In equal (quote_plus kb)) by (intros H; now destruct (Hck _ H) as (_ & _ & H' & _)).
  split.
  { intros y Hy [Hs|Hs]; rewrite in_app_iff in Hy; cbn in Hy; destruct Hy as [Hy|[Hy|Hy]]; subst; try easy;
      try (destruct (Hck _ Hy) as (? & ? & _); easy); destruct (Hcv _ Hy) as (? & ? & _); easy. }
  split.
  { unfold ascii_only. rewrite forallb_app. apply andb_true_iff. split; [|cbn; rewrite <- (andb_true_l (forallb _ _)); apply andb_true_iff; split; [easy|]];
      apply forallb_forall; intros y Hy; apply N.ltb_lt; [now apply Hck|now apply Hcv]. }
  change (quote_plus kb ++ [equal] ++ quote_plus (pchars v)) with (quote_plus kb ++ equal :: quote_plus (pchars v)).
  rewrite qsl_field_value by easy. rewrite orb_true_r. cbn [field_res].
  assert (Hasc : forall s, bytes_only s = true -> ascii_only (replacec plus 32%N (quote_plus s)) = true).
  { intros s Hs. apply forallb_forall. intros y Hy. apply in_map_iff in Hy. destruct Hy as (z & <- & Hz).
    destruct (N.eqb z plus); [easy|]. apply N.ltb_lt. now apply (quote_plus_chars s). }
  rewrite !(unquote_ascii reg enc d) by (try easy; now apply Hasc). cbn [bind].
  rewrite !unquote_quote_plus by easy. now rewrite (cok_rep d Hd (pchars v) (pchars v)) by now apply (cok_dec_ascii d Hd).
Qed.
Lemma other_pairs reg enc e c d : reg enc = Some d -> codec_ok d -> reg e = Some c -> codec_ok c -> forall l,
  Forall (fun x => (exists k, fst x = PU k /\ c_enc c k <> None) /\ ascii_only (pchars (snd x)) = true) l ->
  exists es, enc_pairs reg e None l = Ok es /\ length es = length l /\ Forall no_separator es /\ Forall (fun x => ascii_only x = true) es /\
  qsl_loop reg enc true es = Ok (map (fun x => (misread c d (pchars (fst x)), pchars (snd x))) l).
Proof.
  intros Hr Hd Hre Hc. induction l as [|[k v] l IH]; intros HF.
  - exists []. repeat split; constructor.
  - inversion HF as [|? ? [(k0 & Hk & Hk1) Hv] HF']; subst. cbn [fst snd] in *. subst k. destruct (IH HF') as (es & E0 & E1 & E2 & E3 & E4).
    assert (He : exists x, enc_pair reg e None (PU k0) v = Ok x).
    { unfold enc_pair, encode at 1. rewrite Hre. destruct (c_enc c k0) as [kb|]; [|easy]. cbn [bind].
      rewrite (enc_value_ascii reg e c v Hre Hc Hv). cbn. eauto. }
    destruct He as [x He]. destruct (other_pair reg enc e c d k0 v x Hr Hd Hre Hc Hv He) as (P1 & P2 & P3).
    exists (x :: es). cbn [enc_pairs]. rewrite He. cbn [bind]. rewrite E0. cbn [bind length]. split; [reflexivity|]. split; [now rewrite E1|].
    split; [now constructor|]. split; [now constructor|]. rewrite qsl_loop_cons, P3. cbn [bind]. rewrite E4. reflexivity.
Qed.
Lemma values_read c d k q : values_of k (map (fun x => (misread c d (pchars (fst x)), pchars (snd x))) (q_pairs q)) = read_values c d k (q_d q).
Proof.
  unfold q_pairs, read_values, values_of. induction (q_d q) as [|[k0 l] r IH]; [reflexivity|]. cbn [flat_map fst snd].
  rewrite map_app, filter_app, map_app, IH. f_equal. clear. rewrite map_map. cbn [fst snd pchars].
  induction l as [|v l IH]; cbn; [now destruct (seqb _ _)|]. destruct (seqb (misread c d k0) k); cbn; now rewrite IH.
Qed.

(** what a QueryDict written with one encoding reads as, under settings with another DEFAULT_CHARSET: the encoding
    given to the constructor makes no difference *)
Theorem C154_read_back :
  forall reg st c d e q arg mut, reg (qs_charset st) = Some d -> codec_ok d -> reg e = Some c -> codec_ok c -> encodable c q ->
  match qs_limit st with Some z => (z = 0 \/ Z.of_nat (value_count q) <= z)%Z | None => True end ->
  exists s q', q_urlencode reg None (q_set_encoding (qs_charset st) (Some e) q) = Ok s /\
    querydict_enc reg (Some st) (Some (PB s)) mut arg = Ok q' /\ q_enc q' = qs_charset st /\
    forall k, map pchars (q_list k q') = read_values c d k (q_d q).
Proof.
  intros reg st c d e q arg mut Hr Hd Hre Hc HE Hlim. pose proof (pairs_encodable c q HE) as Hp.
  destruct (other_pairs reg (qs_charset st) e c d Hr Hd Hre Hc (q_pairs q) Hp) as (es & E0 & E1 & E2 & E3 & E4).
  set (s := join [amp] es).
  assert (Hs : ascii_only s = true).
  { unfold s. clear -E3. induction E3 as [|x es He HF IH]; [easy|]. destruct es as [|e' es]; [easy|].
    rewrite join_cons. rewrite !ascii_only_app, He, IH. easy. }
  exists s. unfold q_urlencode. change (q_enc (q_set_encoding (qs_charset st) (Some e) q)) with e.
  change (q_pairs (q_set_encoding (qs_charset st) (Some e) q)) with (q_pairs q). cbn [bind]. rewrite E0. cbn [bind]. fold s.
  assert (Ht : query_text reg (qs_charset st) (if pnonempty (PB s) then PB s else PB []) = Ok s).
  { unfold query_text, decode. destruct s as [|x s'] eqn:Es; cbn [pnonempty pchars nonempty]; rewrite Hr;
      now rewrite (cok_dec_ascii d Hd). }
  pose proof (querydict_spec reg st d s (Some (PB s)) mut Hr Hd Ht) as Hq.
  assert (Hparse : limited_parse_qsl reg s true (qs_charset st) (qs_limit st) =
                   Ok (map (fun x => (misread c d (pchars (fst x)), pchars (snd x))) (q_pairs q))).
  { unfold limited_parse_qsl. rewrite qsl_pairs_spec.
    assert (Hfs : qsl_loop reg (qs_charset st) true (fields_split None s) =
                  Ok (map (fun x => (misread c d (pchars (fst x)), pchars (snd x))) (q_pairs q))).
    { destruct es as [|x es].
      - destruct (q_pairs q); [easy|cbn in E1; lia].
      - unfold s. rewrite fields_split_join by easy. exact E4. }
    destruct (qs_limit st) as [z|]; [|exact Hfs]. destruct (Z.eqb_spec z 0) as [|Hz]; [exact Hfs|].
    destruct (Z.leb_spec z (Z.of_nat (separators s))) as [Hle|]; [|exact Hfs]. exfalso.
    destruct Hlim as [Hlim|Hlim]; [easy|]. rewrite <- q_pairs_length, <- E1 in Hlim.
    destruct es as [|x es].
    - unfold s in Hle. cbn in Hle, Hlim. lia.
    - pose proof (separators_join (x :: es) ltac:(easy) E2) as Hj. fold s in Hj. lia. }
  rewrite Hparse in Hq. destruct Hq as (q' & Hq & _ & He' & Hl & _).
  exists q'. split; [reflexivity|]. split; [exact Hq|]. split; [exact He'|]. intros k. rewrite Hl.
  rewrite map_map. cbn [pchars]. rewrite map_id. apply values_read.
Qed.
Print Assumptions C154_read_back.

Lemma seqb_dec_spec a b : reflect (a = b) (seqb a b).
Proof. destruct (seqb a b) eqn:E; constructor; [now apply seqb_eq|now apply seqb_neq]. Qed.
Lemma read_same c d k l : (forall k' x, In (k', x) l -> misread c d k' = k') -> wf l ->
  read_values c d k l = match dget k l with Some x => map pchars x | None => [] end.
Proof.
  intros H Hw. unfold read_values. induction l as [|[k0 x] l IH]; [reflexivity|]. cbn [flat_map fst snd dget].
  rewrite (H k0 x (or_introl eq_refl)). unfold wf in Hw. cbn [map fst] in Hw. inversion Hw as [|? ? HN Hw']; subst.
  rewrite IH by (try exact Hw'; intros k' x' Hk; apply (H k' x'); now right).
  assert (HD : dget k0 l = None).
  { clear - HN. induction l as [|[k1 y] l IH]; [reflexivity|]. cbn [map fst In dget] in *. destruct (seqb_dec_spec k0 k1) as [->|]; [destruct HN; now left|]. apply IH. intros H. apply HN. now right. }
  destruct (seqb_dec_spec k0 k) as [E|N1], (seqb_dec_spec k k0) as [E2|N2]; try congruence; [|reflexivity]. subst k. rewrite HD. apply app_nil_r.
Qed.
(** it comes back when both charsets write the keys alike, ASCII keys for example *)
Theorem C154_keys_alike_partial :
  forall reg st c d e q mut, reg (qs_charset st) = Some d -> codec_ok d -> reg e = Some c -> codec_ok c -> encodable c q ->
  (forall k l, In (k, l) (q_d q) -> c_enc c k = c_enc d k) ->
  match qs_limit st with Some z => (z = 0 \/ Z.of_nat (value_count q) <= z)%Z | None => True end ->
  exists s q', q_urlencode reg None (q_set_encoding (qs_charset st) (Some e) q) = Ok s /\
    querydict_enc reg (Some st) (Some (PB s)) mut (Some e) = Ok q' /\
    forall k, map pchars (q_list k q') = map pchars (q_list k q).
Proof.
  intros reg st c d e q mut Hr Hd Hre Hc HE HK Hlim.
  destruct (C154_read_back reg st c d e q (Some e) mut Hr Hd Hre Hc HE Hlim) as (s & q' & H1 & H2 & _ & H3).
  exists s, q'. split; [exact H1|]. split; [exact H2|]. intros k. rewrite H3, read_same.
  - unfold q_list. now destruct (dget k (q_d q)).
  - intros k' x Hin. unfold misread. destruct (c_enc c k') as [b|] eqn:E; [|reflexivity]. rewrite (HK k' x Hin) in E.
    apply (cok_rep d Hd). now apply (cok_roundtrip d Hd).
  - apply HE.
Qed.
Print Assumptions C154_keys_alike_partial.
(** a key that reads as something else is lost, although the same encoding was named when writing and when reading *)
Theorem C154_encoding_ignored_refuted :
  forall reg st c d e q mut key, reg (qs_charset st) = Some d -> codec_ok d -> reg e = Some c -> codec_ok c -> encodable c q ->
  match qs_limit st with Some z => (z = 0 \/ Z.of_nat (value_count q) <= z)%Z | None => True end ->
  (forall k l, In (k, l) (q_d q) -> misread c d k <> key) ->
  exists s q', q_urlencode reg None (q_set_encoding (qs_charset st) (Some e) q) = Ok s /\
    querydict_enc reg (Some st) (Some (PB s)) mut (Some e) = Ok q' /\ q_list key q' = [].
Proof.
  intros reg st c d e q mut key Hr Hd Hre Hc HE Hlim HK.
  destruct (C154_read_back reg st c d e q (Some e) mut Hr Hd Hre Hc HE Hlim) as (s & q' & H1 & H2 & _ & H3).
  exists s, q'. split; [exact H1|]. split; [exact H2|]. specialize (H3 key).
  assert (E : read_values c d key (q_d q) = []).
  { clear - HK. unfold read_values. induction (q_d q) as [|[k l] r IH]; [reflexivity|]. cbn [flat_map fst snd].
    rewrite IH by (intros k' l' Hin; apply (HK k' l'); now right). rewrite app_nil_r.
    destruct (seqb_dec_spec (misread c d k) key) as [E|]; [|reflexivity]. destruct (HK k l (or_introl eq_refl) E). }
  rewrite E in H3. now destruct (q_list key q').
Qed.
Print Assumptions C154_encoding_ignored_refuted.
(** DEFAULT_CHARSET utf-8, encoding ISO-8859-1, the key e with an acute accent: it is written as %E9 and read as
    U+FFFD *)
Definition ex_utf8 : codec := utf8 (map (fun _ => 65533%N)).
Definition ex_reg2 : registry := fun n => if seqb n !"ISO-8859-1" then Some latin1 else if seqb n !"utf-8" then Some ex_utf8 else None.
Definition ex_acute : qdict := mkQD !"utf-8" false [([233%N], [PU !"1"]); (!"a", [PU !"2"; PU []])].
Example C154_case :
  encodable latin1 ex_acute /\
  q_urlencode ex_reg2 None (q_set_encoding !"utf-8" (Some !"ISO-8859-1") ex_acute) = Ok !"%E9=1&a=2&a=" /\
  q_urlencode ex_reg2 None (q_set_encoding !"utf-8" None ex_acute) = Ok !"%C3%A9=1&a=2&a=" /\
  misread latin1 ex_utf8 [233%N] = [65533%N] /\ misread latin1 ex_utf8 !"a" = !"a" /\
  match querydict_enc ex_reg2 (Some (mkQS !"utf-8" None)) (Some (PB !"%E9=1&a=2&a=")) true (Some !"ISO-8859-1") with
  | Ok q => q_enc q = !"utf-8" /\ q_list [233%N] q = [] /\ q_list [65533%N] q = [PU !"1"] /\ q_list !"a" q = [PU !"2"; PU []]
  | Err _ => False
  end.
Proof.
  split.
  { split; [|split].
    - unfold wf. cbn. constructor; [intros [H|[]]; discriminate|]. constructor; [intros []|constructor].
    - cbn. intros k l [H|[H|[]]]; injection H as <- <-; vm_compute; discriminate.
    - cbn. intros k l v [H|[H|[]]] Hv; injection H as <- <-; cbn in Hv.
      + destruct Hv as [<-|[]]; reflexivity.
      + destruct Hv as [<-|[<-|[]]]; reflexivity. }
  vm_compute. repeat split; reflexivity.
Qed.
