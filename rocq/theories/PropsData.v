(** * Theorems about dictionaries, query strings, files and settings:
    C40-C42, C44-C48, C72, C73 *)
From Verif Require Import Py PyFacts PyDict CodecModel CodecFacts PercentModel QueryModel QuerySpec QueryFacts
  MVDModel MVDSpec MVDFacts ImmModel FileModel FileSpec FileFacts SettingsModel.

(** ** C40: query strings round-trip *)
(** the keys can be encoded and the values are ASCII *)
Definition encodable (c : codec) (q : qdict) : Prop :=
  wf (q_d q) /\ (forall k l, In (k, l) (q_d q) -> c_enc c k <> None) /\
  (forall k l v, In (k, l) (q_d q) -> In v l -> ascii_only (pchars v) = true).
Definition value_count (q : qdict) : nat := length (flat_map snd (q_d q)).

Lemma q_pairs_length q : length (q_pairs q) = value_count q.
Proof.
  unfold q_pairs, value_count. induction (q_d q) as [|[k l] d IH]; [easy|].
  cbn. rewrite !app_length, map_length. now rewrite IH.
Qed.

Theorem C40_urlencode_roundtrip :
  forall reg st c q mut, reg (qs_charset st) = Some c -> codec_ok c ->
  q_enc q = qs_charset st -> encodable c q ->
  match qs_limit st with Some z => (z = 0 \/ Z.of_nat (value_count q) <= z)%Z | None => True end ->
  exists s q', q_urlencode reg None q = Ok s /\
    querydict reg (Some st) (Some (PB s)) mut = Ok q' /\
    forall k, map pchars (q_list k q') = map pchars (q_list k q).
Proof.
  intros reg st c q mut Hr Hc Henc (Hw & Hk & Hv) Hlim.
  assert (Hp : Forall (fun e => (exists k, fst e = PU k /\ c_enc c k <> None) /\ ascii_only (pchars (snd e)) = true) (q_pairs q)).
  { apply Forall_forall. intros [k v] Hin. unfold q_pairs in Hin. apply in_flat_map in Hin.
    destruct Hin as ([k0 l0] & Hin & Hin2). cbn in Hin2. apply in_map_iff in Hin2. destruct Hin2 as (v0 & [= <- <-] & Hin2).
    cbn [fst snd]. split; [exists k0; split; [easy|]; now apply (Hk k0 l0)|now apply (Hv k0 l0)]. }
  assert (He : exists es, enc_pairs reg (q_enc q) None (q_pairs q) = Ok es).
  { rewrite Henc. induction Hp as [|[k v] l [[k0 [Hk0 Hk1]] Hv0] Hp IH]; [now exists []|].
    destruct IH as [es Hes]. cbn [fst snd] in *. subst k. cbn [enc_pairs]. unfold enc_pair, encode. rewrite Hr.
    destruct (c_enc c k0) as [kb|]; [|easy]. cbn [bind].
    assert (Hev : enc_value reg (qs_charset st) v = Ok (pchars v)).
    { unfold enc_value, to_native, encode. destruct v as [b|b]; cbn [pchars] in *; rewrite ?Hv0; cbn [bind]; rewrite Hr, Hv0;
        now rewrite (cok_enc_ascii c Hc b Hv0). }
    rewrite Hev, Hes. cbn. eauto. }
  destruct He as [es He].
  assert (Hp1 : Forall (fun e => exists k, fst e = PU k) (q_pairs q)).
  { eapply Forall_impl; [|exact Hp]. intros a [(k & Ha & _) _]. eauto. }
  assert (Hp2 : Forall (fun e => ascii_only (pchars (snd e)) = true) (q_pairs q)).
  { eapply Forall_impl; [|exact Hp]. now intros a [_ Ha]. }
  pose proof He as He'. rewrite Henc in He'.
  destruct (enc_pairs_parse reg (qs_charset st) c _ es Hr Hc Hp1 Hp2 He') as (E1 & E2 & E3 & E4).
  set (s := join [amp] es).
  assert (Hs : ascii_only s = true).
  { unfold s. clear -E3. induction E3 as [|e es He HF IH]; [easy|]. destruct es as [|e' es]; [easy|].
    rewrite join_cons. rewrite !ascii_only_app, He, IH. easy. }
  exists s. unfold q_urlencode. cbn [bind]. rewrite He. cbn [bind].
  assert (Ht : query_text reg (qs_charset st) (if pnonempty (PB s) then PB s else PB []) = Ok s).
  { unfold query_text, decode. destruct s as [|x s'] eqn:Es; cbn [pnonempty pchars nonempty]; rewrite Hr;
      now rewrite (cok_dec_ascii c Hc). }
  pose proof (querydict_spec reg st c s (Some (PB s)) mut Hr Hc Ht) as Hq.
  assert (Hparse : limited_parse_qsl reg s true (qs_charset st) (qs_limit st) =
                   Ok (map (fun e => (pchars (fst e), pchars (snd e))) (q_pairs q))).
  { unfold limited_parse_qsl. rewrite qsl_pairs_spec.
    assert (Hfs : qsl_loop reg (qs_charset st) true (fields_split None s) =
                  Ok (map (fun e => (pchars (fst e), pchars (snd e))) (q_pairs q))).
    { destruct es as [|e es].
      - destruct (q_pairs q); [easy|cbn in E1; lia].
      - unfold s. rewrite fields_split_join by easy. exact E4. }
    destruct (qs_limit st) as [z|]; [|exact Hfs]. destruct (Z.eqb_spec z 0) as [|Hz]; [exact Hfs|].
    destruct (Z.leb_spec z (Z.of_nat (separators s))) as [Hle|]; [|exact Hfs]. exfalso.
    destruct Hlim as [Hlim|Hlim]; [easy|]. rewrite <- q_pairs_length, <- E1 in Hlim.
    destruct es as [|e es].
    - unfold s in Hle. cbn in Hle, Hlim. lia.
    - pose proof (separators_join (e :: es) ltac:(easy) E2) as Hj. fold s in Hj. lia. }
  rewrite Hparse in Hq. destruct Hq as (q' & Hq & _ & _ & Hl & _).
  exists q'. split; [easy|]. split; [easy|]. intros k. rewrite Hl.
  rewrite map_map. cbn [pchars]. rewrite map_id. now apply values_of_pairs.
Qed.
Print Assumptions C40_urlencode_roundtrip.

(** a case meeting the hypotheses: charset ISO-8859-1, a repeated key, an empty
    key, a non-ASCII key and reserved characters in the values *)
Definition ex_reg : registry := fun n => if seqb n !"ISO-8859-1" then Some latin1
                                       else if seqb n !"utf-8" then Some (utf8 (fun s => s)) else None.
Definition ex_st : qsettings := mkQS !"ISO-8859-1" (Some 4096%Z).
Definition ex_q : qdict :=
  mkQD !"ISO-8859-1" true [(!"a b", [PU !"1"; PU !"x&y=z;"]); ([], [PU !"+"]); ([233%N], [PB []])].
Example C40_case : q_urlencode ex_reg None ex_q = Ok !"a+b=1&a+b=x%26y%3Dz%3B&=%2B&%E9=" /\ encodable latin1 ex_q.
Proof.
  split; [vm_compute; reflexivity|]. unfold encodable, ex_q. cbn [q_d]. split.
  - repeat constructor; cbn; intuition discriminate.
  - split.
    + intros k l [[= <- <-]|[[= <- <-]|[[= <- <-]|[]]]]; easy.
    + intros k l v [[= <- <-]|[[= <- <-]|[[= <- <-]|[]]]]; cbn; intuition (subst; easy).
Qed.

(** values outside ASCII are not covered: [urlencode] raises *)
Theorem C40_nonascii_values_raise :
  forall reg enc v k, ascii_only v = false -> (exists b, encode reg enc (PU k) = Ok b) ->
  enc_pair reg enc None (PU k) (PU v) = Err UnicodeEncodeError.
Proof.
  intros reg enc v k Hv [b Hb]. unfold enc_pair. rewrite Hb. cbn [bind]. unfold enc_value. cbn [to_native].
  now rewrite Hv.
Qed.
Print Assumptions C40_nonascii_values_raise.

(** ** C41: what is parsed *)
Theorem C41_parse_spec :
  forall reg enc c qs blank r, reg enc = Some c -> codec_ok c ->
  (limited_parse_qsl reg qs blank enc None = Ok r <->
   exists ps rs, pieces qs ps /\ Forall2 (field_pair c blank) ps rs /\ r = concat rs).
Proof.
  intros reg enc c qs blank r Hr Hc. unfold limited_parse_qsl. cbn [qsl_pairs bind].
  rewrite (qsl_loop_spec reg enc c blank _ r Hr Hc). split.
  - intros (rs & H1 & H2). exists (fields_split None qs), rs. split; [apply fields_split_pieces|easy].
  - intros (ps & rs & Hp & H1 & H2). apply pieces_unique in Hp. subst ps. eauto.
Qed.
Print Assumptions C41_parse_spec.

Theorem C41_parse_total :
  forall reg enc c qs blank, reg enc = Some c -> codec_ok c ->
  exists r, limited_parse_qsl reg qs blank enc None = Ok r.
Proof.
  intros reg enc c qs blank Hr Hc. unfold limited_parse_qsl. cbn. eapply qsl_loop_total; eauto.
Qed.
Print Assumptions C41_parse_total.

(** with keep_blank_values every non-empty piece yields exactly one pair, without
    it exactly the pieces with a non-empty value do *)
Theorem C41_pairs_per_piece :
  forall c blank p r, field_pair c blank p r ->
  (length r = 0 \/ length r = 1) /\
  (length r = 1 <-> p <> [] /\ (blank = true \/ exists n v, p = n ++ 61%N :: v /\ ~ In 61%N n /\ v <> [])).
Proof.
  intros c blank p r H. split; [destruct H; cbn; auto|].
  destruct H as [|n v n' v' H1 H2 H3 H4|n H1 H2|n n' H1 H2 H3 H4|n H1 H2 H3]; try subst blank; cbn [length];
    (split; [intros HH; try discriminate HH|intros [Hp Hq]; try reflexivity]).
  - now elim Hp.
  - split; [now destruct n|]. destruct H2 as [H2|H2]; [right; now exists n, v|now left].
  - destruct Hq as [Hq|(n1 & v1 & E & Hn1 & Hv1)]; [easy|]. exfalso.
    revert n1 E Hn1 H1. clear -Hv1. induction n as [|x n IH]; intros [|y n1] E Hn1 H1; cbn in E.
    + injection E as <-. easy.
    + injection E as _ E. now destruct n1.
    + injection E as E _. apply H1. now left.
    + injection E as _ E. eapply IH; [exact E| |]; intros HI; [apply Hn1|apply H1]; now right.
  - now split; [|left].
  - destruct Hq as [Hq|(n1 & v1 & -> & _)]; [easy|]. exfalso. apply H2. apply in_or_app. right. now left.
Qed.
Print Assumptions C41_pairs_per_piece.

(** the whole constructor: the QueryDict of a query string that its charset cannot decode is that of the
    string read as ISO-8859-1; it has exactly the keys of the pairs and, per key, exactly the values in order *)
Theorem C41_querydict :
  forall reg st c qs mut, reg (qs_charset st) = Some c -> codec_ok c ->
  match qs_limit st with Some z => (z = 0)%Z | None => True end ->
  exists q ps rs, querydict reg (Some st) (Some (PB qs)) mut = Ok q /\
    pieces (match c_dec c qs with Some u => u | None => qs end) ps /\ Forall2 (field_pair c true) ps rs /\
    q_mut q = mut /\ forall k,
      q_list k q = map PU (map snd (filter (fun e => seqb (fst e) k) (concat rs))) /\
      (dget k (q_d q) <> None <-> In k (map fst (concat rs))).
Proof.
  intros reg st c qs mut Hr Hc Hl. set (text := match c_dec c qs with Some u => u | None => qs end).
  assert (Ht : query_text reg (qs_charset st) (if pnonempty (PB qs) then PB qs else PB []) = Ok text).
  { unfold query_text, text, decode. destruct qs as [|x t]; cbn [pnonempty pchars nonempty]; rewrite Hr.
    - now rewrite (cok_dec_ascii c Hc []).
    - now destruct (c_dec c (x :: t)). }
  pose proof (querydict_spec reg st c text (Some (PB qs)) mut Hr Hc Ht) as Hq.
  destruct (C41_parse_total reg (qs_charset st) c text true Hr Hc) as [r Hp].
  assert (HL : limited_parse_qsl reg text true (qs_charset st) (qs_limit st) = Ok r).
  { destruct (qs_limit st) as [z|]; [|easy]. now subst z. }
  rewrite HL in Hq. destruct Hq as (q & H1 & H2 & _ & H3 & H4).
  apply (C41_parse_spec reg (qs_charset st) c text true r Hr Hc) in Hp as (ps & rs & P1 & P2 & ->).
  exists q, ps, rs. split; [easy|]. split; [easy|]. split; [easy|]. split; [easy|]. intros k. split; [apply H3|].
  rewrite H4. unfold values_of. clear. induction (concat rs) as [|[a b] l IH]; [cbn; tauto|]. cbn [filter map fst In].
  destruct (seqb a k) eqn:E.
  - apply seqb_eq in E. split; [now left|easy].
  - rewrite IH. split; [now right|]. intros [->|H]; [now rewrite seqb_refl in E|easy].
Qed.
Print Assumptions C41_querydict.
Example C41_querydict_case :
  (exists q, querydict ex_reg (Some (mkQS !"utf-8" None)) (Some (PB (!"a=" ++ [233%N] ++ !"&a=%C3%A9"))) false = Ok q /\
             q_list !"a" q = [PU [233%N]; PU [233%N]]).
Proof. eexists. vm_compute. split; reflexivity. Qed.

Example C41_case :
  limited_parse_qsl ex_reg !"a+b=%41%zz;;c&=d=e&f=" true !"utf-8" None =
    Ok [(!"a b", !"A%zz"); (!"c", []); ([], !"d=e"); (!"f", [])] /\
  limited_parse_qsl ex_reg !"a+b=%41%zz;;c&=d=e&f=" false !"utf-8" None =
    Ok [(!"a b", !"A%zz"); ([], !"d=e")].
Proof. split; vm_compute; reflexivity. Qed.

(** ** C42: the limit *)
Theorem C42_limit_exact :
  forall reg qs blank enc z, (0 < z)%Z ->
  (Z.of_nat (separators qs) >= z ->
     limited_parse_qsl reg qs blank enc (Some z) = Err TooManyFieldsSent)%Z /\
  (Z.of_nat (separators qs) < z ->
     limited_parse_qsl reg qs blank enc (Some z) = limited_parse_qsl reg qs blank enc None)%Z.
Proof.
  intros reg qs blank enc z Hz. unfold limited_parse_qsl. rewrite !qsl_pairs_spec.
  destruct (Z.eqb_spec z 0); [lia|].
  split; intros H; destruct (Z.leb_spec z (Z.of_nat (separators qs))); try lia; easy.
Qed.
Print Assumptions C42_limit_exact.

Theorem C42_unlimited :
  forall reg qs blank enc,
  limited_parse_qsl reg qs blank enc (Some 0%Z) = limited_parse_qsl reg qs blank enc None /\
  limited_parse_qsl reg qs blank enc None <> Err TooManyFieldsSent.
Proof.
  intros reg qs blank enc. split; [easy|]. unfold limited_parse_qsl. cbn [qsl_pairs bind].
  generalize (fields_split None qs). intros ps. induction ps as [|p ps IH]; [easy|].
  rewrite qsl_loop_cons. unfold field_res.
  assert (Hu : forall s, unquote reg enc s <> Err TooManyFieldsSent).
  { intros s. unfold unquote. destruct (mem percent s); [|easy]. now destruct (reg enc). }
  destruct (qsl_field blank p) as [[n v]|]; cbn [bind].
  - destruct (unquote reg enc (replacec plus 32%N n)) eqn:E1; cbn [bind]; [|intros H; apply (Hu (replacec plus 32%N n)); congruence].
    destruct (unquote reg enc (replacec plus 32%N v)) eqn:E2; cbn [bind]; [|intros H; apply (Hu (replacec plus 32%N v)); congruence].
    destruct (qsl_loop reg enc blank ps); cbn; congruence.
  - destruct (qsl_loop reg enc blank ps); cbn; congruence.
Qed.
Print Assumptions C42_unlimited.

(** the number of pieces is the number of separators plus one, so the limit counts fields *)
Theorem C42_separators_count_fields :
  forall qs ps, pieces qs ps -> length ps = S (separators qs).
Proof. intros qs ps H. apply pieces_unique in H. subst. apply fields_split_length. Qed.
Print Assumptions C42_separators_count_fields.

Example C42_case : separators !"a=1&b=2;c=3" = 2 /\
  limited_parse_qsl ex_reg !"a=1&b=2;c=3" true !"utf-8" (Some 2%Z) = Err TooManyFieldsSent /\
  limited_parse_qsl ex_reg !"a=1&b=2;c=3" true !"utf-8" (Some 3%Z) = Ok [(!"a", !"1"); (!"b", !"2"); (!"c", !"3")].
Proof. repeat split; vm_compute; reflexivity. Qed.

(** ** C44: immutable QueryDicts *)
Inductive qop :=
| QSetItem (k v : pystr) | QDelItem (k : pystr) | QSetList (k : pystr) (l : option (list pystr))
| QSetListDefault (k : pystr) (l : option (list pystr)) | QAppendList (k v : pystr)
| QUpdate (items : list (pystr * list pystr)) | QPop (k : pystr) (default : option (list pystr))
| QPopItem (k : str) | QClear | QSetDefault (k v : pystr).

Definition drop {A} (r : qres A) : res unit * qdict :=
  (match fst r with Ok _ => Ok tt | Err e => Err e end, snd r).
Definition qstep (reg : registry) (o : qop) (q : qdict) : res unit * qdict :=
  match o with
  | QSetItem k v => drop (q_setitem reg k v q)
  | QDelItem k => drop (q_delitem k q)
  | QSetList k l => drop (q_setlist reg k l q)
  | QSetListDefault k l => drop (q_setlistdefault reg k l q)
  | QAppendList k v => drop (q_appendlist reg k v q)
  | QUpdate items => drop (q_update reg items q)
  | QPop k d => drop (q_pop k d q)
  | QPopItem k => drop (q_popitem k q)
  | QClear => drop (q_clear q)
  | QSetDefault k v => drop (q_setdefault reg k v q)
  end.
Fixpoint qrun (reg : registry) (os : list qop) (q : qdict) : qdict :=
  match os with [] => q | o :: r => qrun reg r (snd (qstep reg o q)) end.

Theorem C44_immutable_unchanged :
  forall reg st qs q os, querydict reg st qs false = Ok q ->
  forall k, q_list k (qrun reg os q) = q_list k q.
Proof.
  intros reg st qs q os Hq.
  assert (Hm : q_mut q = false).
  { unfold querydict in Hq. destruct st as [st|]; [|easy].
    destruct (query_text _ _ _); [|easy]. cbn [bind] in Hq. destruct (limited_parse_qsl _ _ _ _ _); [|easy].
    cbn [bind] in Hq. destruct (q_fill _ _ _) as [[?|?] ?]; [|easy]. now injection Hq as <-. }
  assert (Hs : forall o, snd (qstep reg o q) = q).
  { intros o. destruct o as [k v|k|k l|k l|k v|items|k d|k| |k v]; cbn [qstep drop snd];
      unfold q_setitem, q_delitem, q_setlist, q_setlistdefault, q_appendlist, q_pop, q_popitem, q_clear, q_setdefault, q_assert;
      rewrite ?Hm; try reflexivity.
    destruct items as [|[k vs] items]; [reflexivity|]. cbn [q_update]. unfold q_extend, q_setlistdefault, q_assert.
    rewrite Hm. reflexivity. }
  intros k. replace (qrun reg os q) with q; [easy|]. induction os as [|o os IH]; [easy|]. cbn. now rewrite Hs.
Qed.
Print Assumptions C44_immutable_unchanged.

Definition thaw (q : qdict) : qdict := mkQD (q_enc q) true (q_d q).
Theorem C44_changing_calls_raise :
  forall reg o q, q_mut q = false ->
  fst (qstep reg o q) = Err AttributeError \/ q_d (snd (qstep reg o (thaw q))) = q_d q.
Proof.
  intros reg o q Hm.
  destruct o as [k v|k|k l|k l|k v|items|k d|k| |k v]; cbn [qstep drop fst];
      unfold q_setitem, q_delitem, q_setlist, q_setlistdefault, q_appendlist, q_pop, q_popitem, q_clear, q_setdefault, q_assert;
      rewrite ?Hm; try (left; reflexivity).
  destruct items as [|[k vs] items]; [right; reflexivity|]. left. cbn [q_update]. unfold q_extend, q_setlistdefault, q_assert.
  now rewrite Hm.
Qed.
Print Assumptions C44_changing_calls_raise.

(** the same calls do change a mutable QueryDict *)
Example C44_case :
  match querydict ex_reg (Some ex_st) (Some (PB !"a=1&b=2")) true with
  | Ok q => q_d (qrun ex_reg [QSetItem (PB !"a") (PU !"9"); QAppendList (PU !"b") (PB !"3"); QSetListDefault (PU !"c") None;
                    QUpdate [(PU !"a", [PU !"8"])]; QPop (PU !"c") None] q)
            = [(!"a", [PU !"9"; PU !"8"]); (!"b", [PU !"2"; PB !"3"])]
  | Err _ => False
  end.
Proof. vm_compute. reflexivity. Qed.

(** ** C45: copies of a QueryDict.  The property is false: no copy can be made. *)
Theorem C45_copy_refuted : forall reg q, q_copy reg q = Err AttributeError.
Proof. reflexivity. Qed.
Print Assumptions C45_copy_refuted.
Theorem C45_fromkeys_refuted : forall reg keys v mut, q_fromkeys reg keys v mut = Err AttributeError.
Proof. reflexivity. Qed.
Print Assumptions C45_fromkeys_refuted.

(** ** C46 and C47: MultiValueDict is a map from keys to lists *)
Theorem C46_refines_plain_map :
  forall os,
  match run os empty_world, srun os empty_sworld with
  | Some (w, outs), Some (s, outs') => outs = outs' /\ same_view w s
  | None, None => True
  | _, _ => False
  end.
Proof.
  intros os. pose proof (sim_run os empty_world empty_sworld sim_empty) as H.
  destruct (run os empty_world) as [[w outs]|], (srun os empty_sworld) as [[s outs']|]; try easy.
  destruct H as [[_ H] ->]. easy.
Qed.
Print Assumptions C46_refines_plain_map.

(** the reading methods: keys, lists(), items() and dict(), values() *)
Theorem C46_reading_methods :
  forall os w outs i d, run os empty_world = Some (w, outs) -> nth_error (w_dicts w) i = Some d ->
  exists m, (forall s outs', srun os empty_sworld = Some (s, outs') -> nth_error (s_dicts s) i = Some m) /\
    NoDup (dkeys d) /\ (forall k, In k (dkeys d) <-> m k <> None) /\
    (forall k l, In (k, l) (mv_lists (w_heap w) d) <-> m k = Some l) /\
    (forall k v, In (k, v) (mv_items (w_heap w) d) <-> m k <> None /\ get_last m k = OutVal v) /\
    mv_values (w_heap w) d = map snd (mv_items (w_heap w) d).
Proof.
  intros os w outs i d Hrun Hd. pose proof (sim_run os empty_world empty_sworld sim_empty) as H. rewrite Hrun in H.
  destruct (srun os empty_sworld) as [[s outs']|]; [|easy]. destruct H as [Hsim _].
  destruct (sim_nth_some w s i d Hsim Hd) as (m & Hm & Hv). exists m.
  pose proof (inv_wf _ (proj1 Hsim) _ _ Hd) as Hw.
  split. { intros s0 o0 [= <- <-]. exact Hm. }
  split; [exact Hw|]. split.
  { intros k. rewrite <- dmem_In, (dmem_view k (w_heap w)), Hv. destruct (m k); split; congruence. }
  assert (Hin : forall k a, In (k, a) d <-> dget k d = Some a).
  { intros k a. split; [now apply dget_In|apply dget_Some_In]. }
  split.
  { intros k l. unfold mv_lists. rewrite in_map_iff, <- Hv. unfold view. split.
    - intros ([k0 a] & [= <- <-] & H). apply Hin in H. cbn [fst snd]. now rewrite H.
    - destruct (dget k d) as [a|] eqn:E; [|easy]. intros [= <-]. exists (k, a). now rewrite Hin. }
  split.
  { intros k v. unfold mv_items. rewrite in_map_iff. unfold get_last. rewrite <- Hv. unfold view. split.
    - intros ([k0 a] & [= <- <-] & H). apply Hin in H. cbn [fst snd]. rewrite H. cbn [option_map]. split; [easy|].
      destruct (hget (w_heap w) a) eqn:E; [easy|]. now rewrite last_val_last.
    - destruct (dget k d) as [a|] eqn:E; [|easy]. cbn [option_map]. intros [_ Hl]. exists (k, a). rewrite Hin.
      split; [|easy]. cbn [fst snd]. f_equal. destruct (hget (w_heap w) a) eqn:E2.
      + cbn. congruence.
      + rewrite last_val_last by easy. congruence. }
  unfold mv_values, mv_items. rewrite map_map. easy.
Qed.
Print Assumptions C46_reading_methods.

Example C46_case :
  option_map snd (run [NewDict; SetItem 0 !"a" (VAtom !"1"); AppendList 0 !"a" (VAtom !"2"); GetItem 0 !"a";
       NewDict; SetList 1 !"a" (POne (VAtom !"3")); SetListDefault 1 !"b" PNone; UpdateMVD 0 1; GetList 0 !"a";
       UpdateMVD 0 0; GetList 0 !"a"; Get 0 !"b" (VAtom !"dflt"); Pop 0 !"a"; GetItem 0 !"a"] empty_world)
  = Some [OutNone; OutNone; OutNone; OutVal (VAtom !"2"); OutNone; OutNone; OutList []; OutNone;
          OutList [VAtom !"1"; VAtom !"2"; VAtom !"3"]; OutNone;
          OutList [VAtom !"1"; VAtom !"2"; VAtom !"3"; VAtom !"1"; VAtom !"2"; VAtom !"3"];
          OutVal (VAtom !"dflt");
          OutList [VAtom !"1"; VAtom !"2"; VAtom !"3"; VAtom !"1"; VAtom !"2"; VAtom !"3"]; OutErr KeyError].
Proof. vm_compute. reflexivity. Qed.

(** C47: whatever the caller does to lists it holds, no dictionary changes *)
Theorem C47_list_mutation_invisible :
  forall os w outs j f w' x i d, run os empty_world = Some (w, outs) -> step (Mutate j f) w = Some (w', x) ->
  nth_error (w_dicts w) i = Some d ->
  nth_error (w_dicts w') i = Some d /\
  forall k, option_map (hget (w_heap w')) (dget k d) = option_map (hget (w_heap w)) (dget k d).
Proof.
  intros os w outs j f w' x i d Hrun Hstep Hd.
  pose proof (sim_run os empty_world empty_sworld sim_empty) as H. rewrite Hrun in H.
  destruct (srun os empty_sworld) as [[s outs']|]; [|easy]. destruct H as [[Hinv _] _].
  cbn [step] in Hstep. destruct (nth_error (w_vars w) j) as [a|] eqn:Ej; [|easy]. injection Hstep as <- <-.
  cbn [w_dicts w_heap]. split; [easy|]. intros k. destruct (dget k d) as [b|] eqn:E; [|easy]. cbn. f_equal.
  apply hget_hset_other. intros ->.
  assert (PD i k = PV j); [|easy]. eapply (inv_inj _ Hinv); cbn; [rewrite Hd; exact E|easy].
Qed.
Print Assumptions C47_list_mutation_invisible.

(** a change of one dictionary is never visible in another one, in particular
    not between a dictionary and its copy *)
Theorem C47_dictionaries_independent :
  forall os w outs o w' x i d, run os empty_world = Some (w, outs) -> step o w = Some (w', x) ->
  nth_error (w_dicts w) i = Some d ->
  (match o with
   | SetItem i' _ _ | SetList i' _ _ | AppendList i' _ _ | SetDefault i' _ _ | SetListDefault i' _ _
   | UpdateMVD i' _ | UpdateDict i' _ | Pop i' _ | DelItem i' _ | Clear i' => i' <> i
   | _ => True
   end) ->
  exists d', nth_error (w_dicts w') i = Some d' /\
  forall k, option_map (hget (w_heap w')) (dget k d') = option_map (hget (w_heap w)) (dget k d).
Proof.
  intros os w outs o w' x i d Hrun Hstep Hd Ho.
  pose proof (sim_run os empty_world empty_sworld sim_empty) as H. rewrite Hrun in H.
  destruct (srun os empty_sworld) as [[s outs']|]; [|easy]. destruct H as [Hsim _].
  destruct (sim_nth_some w s i d Hsim Hd) as (m & Hm & Hv).
  pose proof (sim_step o w s Hsim) as H2. rewrite Hstep in H2.
  destruct (sstep o s) as [[s' x']|] eqn:Es; [|easy]. destruct H2 as [Hsim' _].
  assert (Hm' : nth_error (s_dicts s') i = Some m).
  { assert (Happ : forall l, nth_error (s_dicts s ++ l) i = Some m).
    { intros l. rewrite nth_error_app1; [easy|]. eapply nth_some_lt; eauto. }
    destruct o as [|i0|i0 k v|i0 k p|i0 k|i0 k v|i0 k v|i0 k p|i0 i1|i0 l|i0 k|i0 k|i0|i0 k|i0 k v|l|j f];
      cbn [sstep] in Es; try (destruct (nth_error (s_dicts s) i0) as [m0|]; [|easy]);
      try (destruct (sarg_of p s); [|easy]); try (destruct (m0 k));
      try (destruct (nth_error (s_dicts s) i1) as [m1|]; [|easy]);
      try (destruct (nth_error (s_vars s) j); [|easy]);
      injection Es as <- <-; cbn [s_dicts sput]; rewrite ?Happ; try easy; now rewrite nth_set_other. }
  assert (Hlt : i < length (w_dicts w')).
  { destruct Hsim' as [_ (L & _)]. rewrite L. eapply nth_some_lt; eauto. }
  destruct (nth_some_ex (w_dicts w') i Hlt) as [d' Hd']. exists d'. split; [easy|]. intros k.
  destruct (sim_nth_some w' s' i d' Hsim' Hd') as (m2 & Hm2 & Hv2).
  rewrite Hm' in Hm2. injection Hm2 as <-. specialize (Hv k). specialize (Hv2 k). unfold view in *. congruence.
Qed.
Print Assumptions C47_dictionaries_independent.

Example C47_case :
  option_map snd (run [NewDict; NewList [VAtom !"1"]; SetList 0 !"a" (PVar 0); Mutate 0 (fun l => VNone :: l);
       GetList 0 !"a"; Mutate 1 (fun _ => []); CopyDict 0; AppendList 1 !"a" VNone; GetList 0 !"a"; GetList 1 !"a"] empty_world)
  = Some [OutNone; OutNone; OutNone; OutNone; OutList [VAtom !"1"]; OutNone; OutNone; OutNone;
          OutList [VAtom !"1"]; OutList [VAtom !"1"; VNone]].
Proof. vm_compute. reflexivity. Qed.

(** ** C48: ImmutableMultiValueDict *)
(** the overridden methods are refused, and leave the dictionary as it was *)
Theorem C48_setters_refused_partial :
  forall s o, im_mut s = false ->
  match o with IPop _ | IPopItem _ | IClear | IMutable _ => False | _ => True end ->
  istep o s = (Err AttributeError, s).
Proof. intros s o Hm Ho. destruct o; cbn in *; unfold i_assert; rewrite ?Hm; easy. Qed.
Print Assumptions C48_setters_refused_partial.

(** what is missing: pop, popitem and clear change an immutable dictionary *)
Theorem C48_immutable_refuted :
  exists s, im_mut s = false /\
    im_d (snd (istep (IPop !"Host") s)) <> im_d s /\
    im_d (snd (istep (IPopItem !"Host") s)) <> im_d s /\
    im_d (snd (istep IClear s)) <> im_d s.
Proof. exists (mkImm false [(!"Host", [VAtom !"h"])]). repeat split; vm_compute; congruence. Qed.
Print Assumptions C48_immutable_refuted.

(** what setlist and setlistdefault keep of their argument *)
Definition stored (p : ilarg) : list val :=
  match p with
  | IlNone | IlOne VNone => []
  | IlList l | IlOne (VList l) => l
  | IlOne v => [v]
  end.
Lemma il_stored p : il_list p = stored p.
Proof. now destruct p as [|l|[|  |]]. Qed.
(** once mutable, setlist, del, pop and clear behave as those of MultiValueDict *)
Theorem C48_mutable_partial :
  forall s k p, im_mut s = true -> wf (im_d s) ->
  (istep (ISetList k p) s = (Ok None, mkImm true (dset k (stored p) (im_d s)))) /\
  (forall l, dget k (im_d s) = Some l ->
     istep (IDelItem k) s = (Ok None, mkImm true (ddel k (im_d s))) /\
     istep (IPop k) s = (Ok (Some l), mkImm true (ddel k (im_d s)))) /\
  (dget k (im_d s) = None -> istep (IDelItem k) s = (Err KeyError, s) /\ istep (IPop k) s = (Err KeyError, s)) /\
  istep IClear s = (Ok None, mkImm true []).
Proof.
  intros s k p Hm Hw. unfold istep, i_assert, im_set, im_del, dmem. rewrite Hm, il_stored. split; [easy|].
  split; [intros l Hl; rewrite Hl; easy|]. split; [intros Hl; rewrite Hl; easy|easy].
Qed.
Print Assumptions C48_mutable_partial.

(** setdefault and setlistdefault keep an existing entry; setlistdefault adds a missing one *)
Theorem C48_mutable_defaults_partial :
  forall s k v p, im_mut s = true ->
  (forall l, dget k (im_d s) = Some l ->
     snd (istep (ISetDefault k v) s) = s /\ snd (istep (ISetListDefault k p) s) = s /\
     snd (istep (IAppendList k v) s) = s) /\
  (dget k (im_d s) = None ->
     dget k (im_d (snd (istep (ISetListDefault k p) s))) = Some (stored p) /\
     dget k (im_d (snd (istep (ISetDefault k v) s))) = Some [VList [v]]).
Proof.
  intros s k v p Hm. unfold istep, i_assert, im_set, dmem. rewrite Hm. split.
  - intros l Hl. rewrite Hl. easy.
  - intros Hl. rewrite Hl. cbn. rewrite il_stored. now rewrite !dget_dset_same.
Qed.
Print Assumptions C48_mutable_defaults_partial.

(** no method changes the entries of other keys (clear has no key) or the flag *)
Definition iop_key (o : iop) : option str :=
  match o with
  | ISetItem k _ | IDelItem k | ISetList k _ | ISetDefault k _ | ISetListDefault k _ | IAppendList k _
  | IPop k | IPopItem k => Some k
  | _ => None
  end.
Theorem C48_other_keys_kept :
  forall s o k k', iop_key o = Some k -> k' <> k ->
  dget k' (im_d (snd (istep o s))) = dget k' (im_d s) /\ im_mut (snd (istep o s)) = im_mut s.
Proof.
  intros s o k k' Ho Hk.
  assert (HS : forall l, dget k' (dset k l (im_d s)) = dget k' (im_d s)) by (intros l; now apply dget_dset_other).
  assert (HD : dget k' (ddel k (im_d s)) = dget k' (im_d s)) by (now apply dget_ddel_other).
  destruct o; cbn in Ho; try easy; injection Ho as ->; unfold istep, i_assert, im_set, im_del; destruct (im_mut s) eqn:Hm; cbn;
    try (destruct (dmem k (im_d s)); cbn); try (destruct (dget k (im_d s)); cbn); rewrite ?HS, ?HD, ?Hm; easy.
Qed.
Print Assumptions C48_other_keys_kept.

(** but item assignment stores a nested list, setdefault and appendlist do too or
    raise, and update always raises *)
Theorem C48_mutable_refuted :
  forall s k v items, im_mut s = true ->
  dget k (im_d (snd (istep (ISetItem k v) s))) = Some [VList [v]] /\
  fst (istep (IAppendList k v) s) = Err AttributeError /\
  fst (istep (IUpdate items) s) = Err TypeError /\
  fst (istep (ISetDefault k v) s) = Ok None /\
  fst (istep (ISetListDefault k IlNone) s) = Ok None.
Proof.
  intros s k v items Hm. unfold istep, i_assert, im_set. rewrite Hm. cbn. now rewrite dget_dset_same.
Qed.
Print Assumptions C48_mutable_refuted.

(** ** C72: files *)
Theorem C72_file_lines :
  forall f, is_lines (fo_data f) (file_iter f) /\ file_iter f = splitlines (fo_data f) /\
            concat (file_iter f) = fo_data f.
Proof.
  intros f. rewrite file_iter_eq. pose proof (splitlines_is_lines (fo_data f)) as H.
  split; [exact H|]. split; [easy|]. now apply is_lines_concat.
Qed.
Print Assumptions C72_file_lines.

(** for every way of cutting the content into chunks, in particular for in-memory files *)
Theorem C72_any_chunking :
  forall cs L, is_lines (concat cs) L -> file_iter_chunks cs = L.
Proof.
  intros cs L H. apply is_lines_splitlines in H. rewrite H. apply is_lines_splitlines. apply file_iter_chunks_spec.
Qed.
Print Assumptions C72_any_chunking.
Theorem C72_memory_lines : forall f, is_lines (fo_data f) (mem_iter f).
Proof. intros f. rewrite mem_iter_eq. apply splitlines_is_lines. Qed.
Print Assumptions C72_memory_lines.

Theorem C72_chunks :
  forall f n, concat (fst (file_chunks n f)) = fo_data f /\
  (match n with Some z => (0 < z)%Z | None => True end ->
   blocks (match n with Some z => Z.to_nat z | None => Z.to_nat (64 * 2 ^ 10) end) (fst (file_chunks n f))).
Proof.
  intros f n. split; [apply file_chunks_concat|]. intros Hn.
  assert (Hz : chunk_size_of n = match n with Some z => z | None => (64 * 2 ^ 10)%Z end).
  { unfold chunk_size_of. destruct n as [z|]; [|easy]. destruct (Z.eqb_spec z 0); [lia|easy]. }
  pose proof (file_chunks_blocks n f) as Hb. rewrite Hz in Hb. destruct n as [z|]; apply Hb; lia.
Qed.
Print Assumptions C72_chunks.

Example C72_case :
  file_iter_chunks [!"ab" ++ [13%N]; [10%N] ++ !"c"; !"d" ++ [13%N]; !"e" ++ [10%N; 10%N]] =
  [!"ab" ++ [13%N; 10%N]; !"cd" ++ [13%N]; !"e" ++ [10%N]; [10%N]] /\
  fst (file_chunks (Some 2%Z) (mkFile !"abcde" 4)) = [!"ab"; !"cd"; !"e"].
Proof. split; vm_compute; reflexivity. Qed.

(** ** C73: settings *)
(** the options: key in the dictionary, attribute, default *)
Definition options : list (str * str * sval) :=
  [(!"MAX_HEADER_SIZE", !"MAX_HEADER_SIZE", SvInt 16);
   (!"FILE_UPLOAD_MAX_MEMORY", !"FILE_UPLOAD_MAX_MEMORY_SIZE", SvInt 31457280);
   (!"DATA_UPLOAD_MAX_MEMORY", !"DATA_UPLOAD_MAX_MEMORY_SIZE", SvInt 5242880);
   (!"DATA_UPLOAD_MAX_FIELDS", !"DATA_UPLOAD_MAX_NUMBER_FIELDS", SvInt 4096);
   (!"DEFAULT_CHARSET", !"DEFAULT_CHARSET", SvStr !"ISO-8859-1")].

Theorem C73_settings_overlay_partial :
  forall fs d check dir, d <> [] -> fs (SvStr !"files/file_uploads") check = Ok dir ->
  (forall v, dget !"FILE_UPLOAD_TEMP_DIR" d = Some v -> exists v', fs v true = Ok v') ->
  exists s, settings_init fs (SaDict d) check = Ok s /\
    (forall key attr dflt, In (key, attr, dflt) options ->
       dget attr s = Some (match dget key d with Some v => v | None => dflt end)) /\
    exists dv, dget !"FILE_UPLOAD_TEMP_DIR" s = Some dv /\
       match dget !"FILE_UPLOAD_TEMP_DIR" d with Some v => fs v true = Ok dv | None => dv = dir end.
Proof.
  intros fs d check dir Hd Hdir Hv.
  assert (Hinit : settings_init fs (SaDict d) check =
      let* dflt := settings_default fs check in
      let* s := match dget K_DIR d with
                | Some v => let* v' := fs v true in Ok (dset A_DIR v' (dset A_DIR v []))
                | None => s_option K_DIR A_DIR [] dflt []
                end in
      let* s := s_option K_HDR A_HDR d dflt s in
      let* s := s_option K_FMEM A_FMEM d dflt s in
      let* s := s_option K_DMEM A_DMEM d dflt s in
      let* s := s_option K_DNUM A_DNUM d dflt s in
      s_option K_CHARSET A_CHARSET d dflt s) by (destruct d; easy).
  rewrite Hinit.
  assert (E : settings_default fs check = Ok [(A_DIR, dir); (A_HDR, SvInt 16); (A_FMEM, SvInt 31457280);
     (A_DMEM, SvInt 5242880); (A_DNUM, SvInt 4096); (A_CHARSET, SvStr !"ISO-8859-1")]).
  { vm_compute in Hdir. vm_compute. rewrite Hdir. reflexivity. }
  rewrite E. cbn [bind]. clear E.
  assert (Hsopt : forall key attr dflt s v0, dget attr dflt = Some v0 ->
     s_option key attr d dflt s = Ok (dset attr (match dget key d with Some v => v | None => v0 end) s)).
  { intros key attr dflt s v0 H. unfold s_option, s_attr. destruct (dget key d); [easy|]. now rewrite H. }
  assert (Hs0 : exists dv s0, match dget K_DIR d with
                | Some v => let* v' := fs v true in Ok (dset A_DIR v' (dset A_DIR v []))
                | None => s_option K_DIR A_DIR [] [(A_DIR, dir); (A_HDR, SvInt 16); (A_FMEM, SvInt 31457280);
     (A_DMEM, SvInt 5242880); (A_DNUM, SvInt 4096); (A_CHARSET, SvStr !"ISO-8859-1")] []
                end = Ok s0 /\ dget A_DIR s0 = Some dv /\
       match dget !"FILE_UPLOAD_TEMP_DIR" d with Some v => fs v true = Ok dv | None => dv = dir end).
  { change (dget !"FILE_UPLOAD_TEMP_DIR" d) with (dget K_DIR d) in *.
    destruct (dget K_DIR d) as [v|] eqn:Ev.
    - destruct (Hv v eq_refl) as [v' Hv']. rewrite Hv'. cbn [bind]. exists v'. eexists. split; [reflexivity|].
      split; [apply dget_dset_same|easy].
    - exists dir. eexists. split; [reflexivity|]. split; [reflexivity|easy]. }
  destruct Hs0 as (dv & s0 & -> & Hdv & Hdv2). cbn [bind].
  erewrite (Hsopt K_HDR A_HDR) by reflexivity. cbn [bind].
  erewrite (Hsopt K_FMEM A_FMEM) by reflexivity. cbn [bind].
  erewrite (Hsopt K_DMEM A_DMEM) by reflexivity. cbn [bind].
  erewrite (Hsopt K_DNUM A_DNUM) by reflexivity. cbn [bind].
  erewrite (Hsopt K_CHARSET A_CHARSET) by reflexivity.
  eexists. split; [reflexivity|]. split.
  - intros key attr dflt [[= <- <- <-]|[[= <- <- <-]|[[= <- <- <-]|[[= <- <- <-]|[[= <- <- <-]|[]]]]]];
      repeat (rewrite dget_dset_other by (vm_compute; congruence)); apply dget_dset_same.
  - exists dv. split; [|easy]. change (lit "FILE_UPLOAD_TEMP_DIR") with A_DIR.
    repeat (rewrite dget_dset_other by (vm_compute; congruence)). easy.
Qed.
Print Assumptions C73_settings_overlay_partial.

(** what is missing: the empty dictionary (and no argument) gives an object
    without any of the options *)
Theorem C73_empty_settings_refuted :
  forall fs check attr, settings_init fs (SaDict []) check = Ok [] /\ settings_init fs SaNone check = Ok [] /\
    s_attr attr [] = Err AttributeError.
Proof. repeat split. Qed.
Print Assumptions C73_empty_settings_refuted.

Example C73_case :
  let fs := fun v (_ : bool) => match v with SvStr s => Ok (SvStr (!"/r/" ++ s)) | _ => Err TypeError end in
  settings_init fs (SaDict [(!"DATA_UPLOAD_MAX_FIELDS", SvInt 7); (!"other", SvNone)]) false =
  Ok [(!"FILE_UPLOAD_TEMP_DIR", SvStr !"/r/files/file_uploads"); (!"MAX_HEADER_SIZE", SvInt 16);
      (!"FILE_UPLOAD_MAX_MEMORY_SIZE", SvInt 31457280); (!"DATA_UPLOAD_MAX_MEMORY_SIZE", SvInt 5242880);
      (!"DATA_UPLOAD_MAX_NUMBER_FIELDS", SvInt 7); (!"DEFAULT_CHARSET", SvStr !"ISO-8859-1")].
Proof. vm_compute. reflexivity. Qed.
