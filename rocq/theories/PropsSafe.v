(** * C153: QueryDict.urlencode(safe) *)
From Verif Require Import Py PyFacts PyDict CodecModel CodecFacts PercentModel PercentFacts QueryModel QuerySpec QueryFacts PropsData.

(** the characters with a meaning in a query string: % & + ; = *)
Definition query_special : str := !"%&+;=".
(** ASCII characters without a meaning in a query string *)
Definition harmless (u : str) : Prop := ascii_only u = true /\ forall x, In x query_special -> ~ In x u.

Lemma harmless_char u x : harmless u -> In x u -> x <> amp /\ x <> semic /\ x <> equal /\ x <> plus /\ x <> percent /\ (x < 128)%N.
Proof.
  intros [HA H] Hx.
  assert (HN : forall y, In y query_special -> x <> y) by (intros y Hy ->; exact (H y Hy Hx)).
  unfold ascii_only in HA. rewrite forallb_forall in HA. apply HA in Hx. apply N.ltb_lt in Hx.
  repeat split; try (apply HN; vm_compute; tauto). exact Hx.
Qed.
Lemma quote_safe_chars u s x : harmless u -> bytes_only s = true -> In x (quote u s) ->
  x <> amp /\ x <> semic /\ x <> equal /\ x <> plus /\ (x < 128)%N.
Proof.
  intros Hu Hb Hx. destruct (quote_chars u s x Hb Hx) as [[H _]|[->|H]].
  - apply orb_true_iff in H. destruct H as [H|H]; [apply always_safe_iff in H; tauto|]. apply mem_In in H.
    destruct (harmless_char u x Hu H) as (A & B & C & D & _ & E). tauto.
  - easy.
  - apply HEX_iff in H. tauto.
Qed.
Lemma unquote_quote_safe u s : harmless u -> bytes_only s = true -> unquote_to_bytes (replacec plus 32%N (quote u s)) = s.
Proof.
  intros Hu Hb. rewrite replacec_notin.
  - apply unquote_quote; [|exact Hb]. apply mem_nIn. intros H. now destruct (harmless_char u _ Hu H) as (_ & _ & _ & _ & H' & _).
  - intros H. now destruct (quote_safe_chars u s _ Hu Hb H) as (_ & _ & _ & H' & _).
Qed.
Lemma enc_value_ascii reg enc c v : reg enc = Some c -> codec_ok c -> ascii_only (pchars v) = true -> enc_value reg enc v = Ok (pchars v).
Proof.
  intros Hr Hc Hv. unfold enc_value, to_native, encode. destruct v as [b|b]; cbn [pchars] in *; rewrite ?Hv; cbn [bind]; rewrite Hr, Hv; now rewrite (cok_enc_ascii c Hc b Hv).
Qed.
Lemma safe_pair_parses reg enc c u k v e : harmless u -> reg enc = Some c -> codec_ok c -> ascii_only (pchars v) = true ->
  enc_pair reg enc (Some u) (PU k) v = Ok e ->
  no_separator e /\ ascii_only e = true /\ field_res reg enc (qsl_field true e) = Ok [(k, pchars v)].
Proof.
  intros Hu Hr Hc Hv He. unfold enc_pair, encode in He. rewrite Hr in He.
  destruct (c_enc c k) as [kb|] eqn:Ek; [|easy]. cbn [bind] in He.
  rewrite (enc_value_ascii reg enc c v Hr Hc Hv) in He. cbn [bind] in He. injection He as <-.
  pose proof (cok_bytes c Hc k kb Ek) as Hkb. pose proof (ascii_bytes _ Hv) as Hvb.
  assert (Hck := fun x => quote_safe_chars u kb x Hu Hkb). assert (Hcv := fun x => quote_safe_chars u (pchars v) x Hu Hvb).
  assert (Hne : ~ In equal (quote u kb)) by (intros H; now destruct (Hck _ H) as (_ & _ & H' & _)).
  split.
  { intros x Hx [Hs|Hs]; rewrite in_app_iff in Hx; cbn in Hx; destruct Hx as [Hx|[Hx|Hx]]; subst; try easy;
      try (destruct (Hck _ Hx) as (? & ? & _); easy); destruct (Hcv _ Hx) as (? & ? & _); easy. }
  split.
  { unfold ascii_only. rewrite forallb_app. apply andb_true_iff. split; [|cbn; rewrite <- (andb_true_l (forallb _ _)); apply andb_true_iff; split; [easy|]];
      apply forallb_forall; intros x Hx; apply N.ltb_lt; [now apply Hck|now apply Hcv]. }
  change (quote u kb ++ [equal] ++ quote u (pchars v)) with (quote u kb ++ equal :: quote u (pchars v)).
  rewrite qsl_field_value by easy. rewrite orb_true_r. cbn [field_res].
  assert (Hasc : forall s, bytes_only s = true -> ascii_only (replacec plus 32%N (quote u s)) = true).
  { intros s Hs. apply forallb_forall. intros x Hx. apply in_map_iff in Hx. destruct Hx as (y & <- & Hy).
    destruct (N.eqb y plus); [easy|]. apply N.ltb_lt. now apply (quote_safe_chars u s). }
  rewrite !(unquote_ascii reg enc c) by (try easy; now apply Hasc). cbn [bind].
  rewrite !unquote_quote_safe by easy.
  rewrite (cok_rep c Hc kb k) by now apply (cok_roundtrip c Hc).
  rewrite (cok_rep c Hc (pchars v) (pchars v)) by now apply (cok_dec_ascii c Hc). easy.
Qed.
Lemma safe_pairs_parse reg enc c u l es : harmless u -> reg enc = Some c -> codec_ok c ->
  Forall (fun e => exists k, fst e = PU k) l -> Forall (fun e => ascii_only (pchars (snd e)) = true) l ->
  enc_pairs reg enc (Some u) l = Ok es ->
  length es = length l /\ Forall no_separator es /\ Forall (fun e => ascii_only e = true) es /\
  qsl_loop reg enc true es = Ok (map (fun e => (pchars (fst e), pchars (snd e))) l).
Proof.
  intros Hu Hr Hc. revert es. induction l as [|[k v] l IH]; intros es Hk Hv He; cbn [enc_pairs] in He.
  - injection He as <-. repeat split; constructor.
  - inversion Hk as [|? ? [k0 Hk0] Hk']; subst. cbn in Hk0. subst k. inversion Hv as [|? ? Hv0 Hv']; subst. cbn in Hv0.
    destruct (enc_pair reg enc (Some u) (PU k0) v) as [e|] eqn:Ee; [|easy]. cbn [bind] in He.
    destruct (enc_pairs reg enc (Some u) l) as [es'|] eqn:Ees; [|easy]. cbn [bind] in He. injection He as <-.
    destruct (IH es' Hk' Hv' eq_refl) as (I1 & I2 & I3 & I4).
    destruct (safe_pair_parses reg enc c u k0 v e Hu Hr Hc Hv0 Ee) as (P1 & P2 & P4).
    split; [cbn; now rewrite I1|]. split; [now constructor|]. split; [now constructor|].
    rewrite qsl_loop_cons, P4. cbn [bind]. rewrite I4. easy.
Qed.
Lemma safe_bytes reg enc c p : reg enc = Some c -> codec_ok c -> ascii_only (pchars p) = true -> encode reg enc p = Ok (pchars p).
Proof. intros Hr Hc HA. unfold encode. destruct p as [b|b]; cbn [pchars] in *; rewrite Hr, ?HA; now rewrite (cok_enc_ascii c Hc b HA). Qed.
Lemma pairs_encodable c q : encodable c q ->
  Forall (fun e => (exists k, fst e = PU k /\ c_enc c k <> None) /\ ascii_only (pchars (snd e)) = true) (q_pairs q).
Proof.
  intros (Hw & Hk & Hv). apply Forall_forall. intros [k v] Hin. unfold q_pairs in Hin. apply in_flat_map in Hin.
  destruct Hin as ([k0 l0] & Hin & Hin2). cbn in Hin2. apply in_map_iff in Hin2. destruct Hin2 as (v0 & [= <- <-] & Hin2).
  cbn [fst snd]. split; [exists k0; split; [easy|]; now apply (Hk k0 l0)|now apply (Hv k0 l0)].
Qed.
(** the dictionary comes back whatever harmless characters are left as they are *)
Theorem C153_roundtrip_partial :
  forall reg st c q safe mut, reg (qs_charset st) = Some c -> codec_ok c ->
  q_enc q = qs_charset st -> encodable c q -> harmless (pchars safe) ->
  match qs_limit st with Some z => (z = 0 \/ Z.of_nat (value_count q) <= z)%Z | None => True end ->
  exists s q', q_urlencode reg (Some safe) q = Ok s /\
    querydict reg (Some st) (Some (PB s)) mut = Ok q' /\
    forall k, map pchars (q_list k q') = map pchars (q_list k q).
Proof.
  intros reg st c q safe mut Hr Hc Henc HE Hu Hlim.
  destruct (pnonempty safe) eqn:En.
  2:{ destruct (C40_urlencode_roundtrip reg st c q mut Hr Hc Henc HE Hlim) as (s & q' & H1 & H2). exists s, q'. split; [|exact H2].
      unfold q_urlencode in *. rewrite En. exact H1. }
  pose proof (pairs_encodable c q HE) as Hp. destruct HE as (Hw & _).
  set (u := pchars safe) in *.
  assert (He : exists es, enc_pairs reg (q_enc q) (Some u) (q_pairs q) = Ok es).
  { rewrite Henc. induction Hp as [|[k v] l [[k0 [Hk0 Hk1]] Hv0] Hp IH]; [now exists []|].
    destruct IH as [es Hes]. cbn [fst snd] in *. subst k. cbn [enc_pairs]. unfold enc_pair, encode. rewrite Hr.
    destruct (c_enc c k0) as [kb|]; [|easy]. cbn [bind].
    rewrite (enc_value_ascii reg _ c v Hr Hc Hv0), Hes. cbn. eauto. }
  destruct He as [es He].
  assert (Hp1 : Forall (fun e => exists k, fst e = PU k) (q_pairs q)).
  { eapply Forall_impl; [|exact Hp]. intros a [(k & Ha & _) _]. eauto. }
  assert (Hp2 : Forall (fun e => ascii_only (pchars (snd e)) = true) (q_pairs q)).
  { eapply Forall_impl; [|exact Hp]. now intros a [_ Ha]. }
  pose proof He as He'. rewrite Henc in He'.
  destruct (safe_pairs_parse reg (qs_charset st) c u _ es Hu Hr Hc Hp1 Hp2 He') as (E1 & E2 & E3 & E4).
  set (s := join [amp] es).
  assert (Hs : ascii_only s = true).
  { unfold s. clear -E3. induction E3 as [|e es He HF IH]; [easy|]. destruct es as [|e' es]; [easy|].
    rewrite join_cons. rewrite !ascii_only_app, He, IH. easy. }
  exists s. unfold q_urlencode. rewrite En, Henc, (safe_bytes reg _ c safe Hr Hc (proj1 Hu)). cbn [bind]. fold u. rewrite He'. cbn [bind].
  assert (Ht : query_text reg (qs_charset st) (if pnonempty (PB s) then PB s else PB []) = Ok s).
  { unfold query_text, decode. destruct s as [|x s'] eqn:Es; cbn [pnonempty pchars nonempty]; rewrite Hr;
      now rewrite (cok_dec_ascii c Hc). }
  pose proof (querydict_spec reg st c s (Some (PB s)) mut Hr Hc Ht) as Hq.
  assert (Hparse : limited_parse_qsl reg s true (qs_charset st) (qs_limit st) =
                   Ok (map (fun e => (pchars (fst e), pchars (snd e))) (q_pairs q))).
  { unfold limited_parse_qsl. rewrite qsl_pairs_spec.
    assert (Hfs : qsl_loop reg (qs_charset st) true (fields_split None s) =
                  Ok (map (fun e => (pchars (fst e), pchars (snd e))) (q_pairs q))).
    { destruct es as [|e es].
      - destruct (q_pairs q); [easy|cbn in E1; lia].
      - unfold s. rewrite fields_split_join by easy. exact E4. }
    destruct (qs_limit st) as [z|]; [|exact Hfs]. destruct (Z.eqb_spec z 0) as [|Hz]; [exact Hfs|].
    destruct (Z.leb_spec z (Z.of_nat (separators s))) as [Hle|]; [|exact Hfs]. exfalso.
    destruct Hlim as [Hlim|Hlim]; [easy|]. rewrite <- q_pairs_length, <- E1 in Hlim.
    destruct es as [|e es].
    - unfold s in Hle. cbn in Hle, Hlim. lia.
    - pose proof (separators_join (e :: es) ltac:(easy) E2) as Hj. fold s in Hj. lia. }
  rewrite Hparse in Hq. destruct Hq as (q' & Hq & _ & _ & Hl & _).
  exists q'. split; [easy|]. split; [easy|]. intros k. rewrite Hl.
  rewrite map_map. cbn [pchars]. rewrite map_id. now apply values_of_pairs.
Qed.
Print Assumptions C153_roundtrip_partial.

(** safe characters, letters, digits and _ . - are left as they are *)
Definition stays (u : str) (x : char) : Prop := is_alnum x = true \/ In x !"_.-" \/ In x u.
Definition as_it_is (d : dict (list pystr)) : str :=
  join [38%N] (flat_map (fun e => map (fun v => fst e ++ [61%N] ++ pchars v) (snd e)) d).
Lemma quote_stays u s : (forall x, In x s -> stays u x) -> quote u s = s.
Proof.
  induction s as [|x s IH]; intros H; [reflexivity|]. unfold quote in *. cbn [flat_map]. rewrite IH by (intros y Hy; apply H; now right).
  unfold quote_byte. assert (E : always_safe x || mem x u = true).
  { apply orb_true_iff. destruct (H x (or_introl eq_refl)) as [Hx|[Hx|Hx]].
    - left. unfold always_safe. now rewrite Hx.
    - left. destruct Hx as [<-|[<-|[<-|[]]]]; reflexivity.
    - right. now apply mem_In. }
  now rewrite E.
Qed.
Lemma stays_ascii u s : ascii_only u = true -> (forall x, In x s -> stays u x) -> ascii_only s = true.
Proof.
  intros HA H. apply forallb_forall. intros x Hx. destruct (H x Hx) as [Hs|[Hs|Hs]].
  - apply N.ltb_lt. assert (E : always_safe x = true) by (unfold always_safe; now rewrite Hs). now apply always_safe_iff in E.
  - destruct Hs as [<-|[<-|[<-|[]]]]; reflexivity.
  - unfold ascii_only in HA. rewrite forallb_forall in HA. now apply HA.
Qed.
Theorem C153_left_alone :
  forall reg c q safe, reg (q_enc q) = Some c -> codec_ok c -> pchars safe <> [] -> ascii_only (pchars safe) = true ->
    (forall k l, In (k, l) (q_d q) -> (forall x, In x k -> stays (pchars safe) x) /\ (forall v x, In v l -> In x (pchars v) -> stays (pchars safe) x)) ->
    q_urlencode reg (Some safe) q = Ok (as_it_is (q_d q)).
Proof.
  intros reg c q safe Hr Hc Hn HA H. unfold q_urlencode.
  assert (En : pnonempty safe = true) by (destruct safe as [[|a b]|[|a b]]; easy).
  rewrite En, (safe_bytes reg _ c safe Hr Hc HA). cbn [bind]. set (u := pchars safe) in *. unfold as_it_is, q_pairs.
  assert (G : forall l, Forall (fun e => exists k, fst e = PU k /\ (forall x, In x k -> stays u x) /\ (forall x, In x (pchars (snd e)) -> stays u x)) l ->
    enc_pairs reg (q_enc q) (Some u) l = Ok (map (fun e => pchars (fst e) ++ [61%N] ++ pchars (snd e)) l)).
  { induction l as [|[k v] l IH]; intros HF; [reflexivity|]. inversion_clear HF as [|? ? (k0 & E & Hk & Hv) HF']. cbn [fst snd] in *. subst k.
    cbn [enc_pairs map fst snd pchars]. unfold enc_pair.
    rewrite (safe_bytes reg _ c (PU k0) Hr Hc) by exact (stays_ascii u k0 HA Hk). cbn [bind pchars].
    rewrite (enc_value_ascii reg _ c v Hr Hc) by exact (stays_ascii u _ HA Hv). cbn [bind]. rewrite (IH HF'). cbn [bind].
    now rewrite !quote_stays. }
  rewrite G.
  - cbn [bind]. change [amp] with [38%N]. do 2 f_equal. clear. induction (q_d q) as [|[k l] d IH]; [reflexivity|]. cbn [flat_map fst snd].
    now rewrite map_app, IH, map_map.
  - apply Forall_forall. intros [k v] Hin. apply in_flat_map in Hin as ([k0 l0] & Hin & Hin2). cbn in Hin2. apply in_map_iff in Hin2 as (v0 & [= <- <-] & Hv).
    destruct (H k0 l0 Hin) as [H1 H2]. exists k0. cbn [fst snd]. split; [reflexivity|]. split; [exact H1|]. intros x Hx. exact (H2 v0 x Hv Hx).
Qed.
Print Assumptions C153_left_alone.

(** a path that keeps its slashes *)
Definition ex_next : qdict := mkQD !"ISO-8859-1" true [(!"next", [PU !"/a&b/"; PU !"x y"]); ([233%N], [PB !"/"])].
Example C153_case :
  q_urlencode ex_reg (Some (PU !"/")) ex_next = Ok !"next=/a%26b/&next=x%20y&%E9=/" /\ encodable latin1 ex_next /\ harmless !"/" /\
  q_urlencode ex_reg (Some (PB !"/?")) (mkQD !"ISO-8859-1" false [(!"next", [PU !"/a/?"; PU !"b"])]) = Ok !"next=/a/?&next=b".
Proof.
  split; [vm_compute; reflexivity|]. split; [|split; [split; [reflexivity|intros x Hx [<-|[]]; cbn in Hx; repeat (destruct Hx as [Hx|Hx]; [discriminate Hx|]); exact Hx]|vm_compute; reflexivity]].
  unfold encodable, ex_next. cbn [q_d]. split.
  - repeat constructor; cbn; intuition discriminate.
  - split.
    + intros k l [[= <- <-]|[[= <- <-]|[]]]; easy.
    + intros k l v [[= <- <-]|[[= <- <-]|[]]]; cbn; intuition (subst; easy).
Qed.

(** a character with a meaning that is called safe takes that meaning: for each of the five *)
Theorem C153_special_refuted :
  forall x, In x query_special -> exists q s q', encodable latin1 q /\ q_enc q = qs_charset ex_st /\
    q_urlencode ex_reg (Some (PU [x])) q = Ok s /\ querydict ex_reg (Some ex_st) (Some (PB s)) true = Ok q' /\
    q_list (x :: !"41") q = [PU !"v"] /\ q_list (x :: !"41") q' = [].
Proof.
  intros x Hx. exists (mkQD !"ISO-8859-1" true [(x :: !"41", [PU !"v"])]).
  assert (HE : encodable latin1 (mkQD !"ISO-8859-1" true [(x :: !"41", [PU !"v"])])).
  { split; [repeat constructor; cbn; tauto|]. split.
    - intros k l [[= <- <-]|[]]. cbn in Hx. repeat (destruct Hx as [<-|Hx]; [vm_compute; discriminate|]). destruct Hx.
    - intros k l v [[= <- <-]|[]] [<-|[]]. reflexivity. }
  cbn in Hx. repeat (destruct Hx as [<-|Hx]; [eexists _, _; split; [exact HE|]; split; [reflexivity|]; split; [vm_compute; reflexivity|]; split; [vm_compute; reflexivity|];
    split; vm_compute; reflexivity|]). destruct Hx.
Qed.
Print Assumptions C153_special_refuted.
