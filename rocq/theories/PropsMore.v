(** * Refutations that hold in general, and exact conditions: C14, C19, C48, C77, C87, C88 *)
From Coq Require Import ZifyBool ZifyN ZifyNat.
From Verif Require Import Py Spec HeadSpec PyFacts PyDict StreamModel CodecModel PercentModel QueryModel HeadModel HeadFacts UrlFacts HeaderModel HeaderSpec HeaderFacts
  MVDModel ImmModel PropsData PropsPart PropsHead RequestModel RequestSpec HeaderRun BodyRun RequestRel UriModel PropsRequest PropsBody PropsEnd PropsUri.

(** ** C19.  A quoted value survives exactly if no ';' in it follows an odd number of double quotes *)
Definition semis_safe (v : str) : Prop := forall a b, v = a ++ [59%N] ++ b -> Nat.even (quotes_before a) = true.

Definition semis (s : str) : nat := countc 59%N s.
Lemma semis_app a b : semis (a ++ b) = semis a + semis b.
Proof. unfold semis, countc. apply count_occ_app. Qed.
Lemma semis_cons c s : semis (c :: s) = (if N.eqb c 59 then 1 else 0) + semis s.
Proof.
  unfold semis, countc. cbn [count_occ]. destruct (N.eq_dec c 59) as [->|H]; [reflexivity|].
  destruct (N.eqb_spec c 59); easy.
Qed.
Lemma semis_notin s : ~ In 59%N s -> semis s = 0.
Proof. intros H. unfold semis, countc. now apply (count_occ_not_In N.eq_dec). Qed.
Lemma semis_escape v : semis (escape v) = semis v.
Proof.
  induction v as [|c v IH]; [reflexivity|]. change (escape (c :: v)) with ((if N.eqb c 92 || N.eqb c 34 then [92%N; c] else [c]) ++ escape v).
  rewrite semis_app, IH, (semis_cons c v). destruct (N.eqb_spec c 92) as [->|]; [reflexivity|].
  destruct (N.eqb_spec c 34) as [->|]; [reflexivity|]. cbn [orb]. now rewrite semis_cons, Nat.add_0_r.
Qed.
Lemma semis_replace2 p1 p2 r s : p1 <> 59%N -> p2 <> 59%N -> semis r = 0 -> semis (replace2 p1 p2 r s) = semis s.
Proof.
  intros H1 H2 Hr. enough (H : forall n s, length s <= n -> semis (replace2 p1 p2 r s) = semis s) by (apply (H (length s)); lia).
  clear s. induction n as [|n IH]; intros s Hs; [destruct s; [reflexivity|cbn in Hs; lia]|].
  destruct s as [|c s]; [reflexivity|]. cbn [replace2]. destruct s as [|d s]; [reflexivity|]. cbn [length] in Hs.
  destruct (N.eqb_spec c p1) as [->|Hc]; cbn [andb].
  - destruct (N.eqb_spec d p2) as [->|Hd].
    + rewrite semis_app, Hr, IH, !semis_cons by lia.
      destruct (N.eqb_spec p1 59); [easy|]. destruct (N.eqb_spec p2 59); [easy|]. reflexivity.
    + rewrite !(semis_cons p1). f_equal. apply IH. cbn [length]. lia.
  - rewrite !(semis_cons c). f_equal. apply IH. cbn [length]. lia.
Qed.
Lemma semis_sub a b c : semis b <= semis (a ++ b ++ c).
Proof. rewrite !semis_app. lia. Qed.
Lemma semis_tl s : semis (tl s) <= semis s.
Proof. destruct s as [|c s]; [easy|]. rewrite semis_cons. cbn [tl]. lia. Qed.
Lemma semis_removelast s : semis (removelast s) <= semis s.
Proof.
  destruct s as [|c s] using rev_ind; [easy|]. rewrite removelast_last, semis_app. lia.
Qed.
Lemma semis_unquote v : semis (unquote_value v) <= semis v.
Proof.
  unfold unquote_value. destruct (_ && _); [|lia]. rewrite !semis_replace2 by (reflexivity || discriminate).
  pose proof (semis_removelast (tl v)). pose proof (semis_tl v). lia.
Qed.
Lemma semis_firstn n s : semis (firstn n s) <= semis s.
Proof. pose proof (f_equal semis (firstn_skipn n s)) as H. rewrite semis_app in H. lia. Qed.
Lemma semis_skipn n s : semis (skipn n s) <= semis s.
Proof. pose proof (f_equal semis (firstn_skipn n s)) as H. rewrite semis_app in H. lia. Qed.
Lemma semis_strip s : semis (strip s) <= semis s.
Proof. destruct (strip_by_spec is_ws s) as (u & v & H & _). fold (strip s) in H. rewrite H at 2. apply semis_sub. Qed.
Lemma qsplit_semis : forall s inq, list_sum (map semis (qsplit inq s)) + length (qsplit inq s) = S (semis s).
Proof.
  induction s as [|c s IH]; intros inq; [reflexivity|]. cbn [qsplit]. rewrite semis_cons.
  destruct (N.eqb c 59 && negb inq) eqn:E.
  - apply andb_true_iff in E as [-> _]. specialize (IH inq). rewrite map_cons. unfold list_sum in *. cbn [fold_right length].
    assert (Z0 : semis [] = 0) by reflexivity. unfold str in *. lia.
  - set (i := if N.eqb c 34 then _ else _). specialize (IH i). pose proof (qsplit_nonnil i s) as HN.
    destruct (qsplit i s) as [|p ps]; [easy|]. rewrite map_cons in *. unfold list_sum in *. cbn [fold_right length] in *. rewrite semis_cons.
    destruct (N.eqb_spec c 59) as [->|]; [|unfold str in *; lia]. unfold str in *. lia.
Qed.
Lemma semis_pieces s p : 1 < length (qsplit false s) -> In p (qsplit false s) -> semis p < semis s.
Proof.
  intros H1 H2. pose proof (qsplit_semis s false) as H. apply in_split in H2 as (l1 & l2 & E). rewrite E in *.
  rewrite map_app, map_cons, list_sum_app in H. rewrite app_length in *. unfold list_sum in *. cbn [fold_right length] in *. lia.
Qed.
Lemma parse_param_semis reg p n v : parse_param reg p = Ok (Some (n, PB v)) -> semis v <= semis p.
Proof.
  unfold parse_param. destruct (findc hequal p) as [i|]; [|easy]. destruct (decode_ascii _) as [m|e]; [|easy]. cbn [bind].
  set (val := strip (skipn (S i) p)). assert (Hv : semis val <= semis p).
  { pose proof (semis_strip (skipn (S i) p)). pose proof (semis_skipn (S i) p). subst val. lia. }
  destruct (endswith m [hstar] && _).
  - destruct (splitc htick val) as [|a [|b [|c [|d l]]]]; try easy. destruct (decode_ascii c); [|easy]. cbn [bind].
    destruct (decode_ascii a); [|easy]. cbn [bind]. now destruct (unquote _ _ _).
  - cbn [bind pmap]. intros [= _ <-]. pose proof (semis_unquote val). lia.
Qed.
Lemma parse_params_values reg v : forall l d d', (forall n, dget n d <> Some (PB v)) ->
  (forall p n, In p l -> parse_param reg p <> Ok (Some (n, PB v))) ->
  parse_params reg l d = Ok d' -> forall n, dget n d' <> Some (PB v).
Proof.
  induction l as [|p l IH]; intros d d' Hd Hl H n; cbn [parse_params] in H; [injection H as <-; apply Hd|].
  destruct (parse_param reg p) as [[[m x]|]|e] eqn:E; cbn [bind] in H; try easy.
  - revert H n. apply IH; [|intros q k Hq; apply Hl; now right]. intros n. rewrite dget_dset. destruct (seqb n m); [|apply Hd].
    intros [= ->]. now apply (Hl p m (or_introl eq_refl)).
  - revert H n. apply IH; [exact Hd|intros q k Hq; apply Hl; now right].
Qed.

Fixpoint safeb (o : bool) (v : str) : bool :=
  match v with
  | [] => true
  | c :: r => if N.eqb c 34 then safeb (negb o) r else if N.eqb c 59 then negb o && safeb o r else safeb o r
  end.
Lemma safeb_qend v : forall o, safeb o v = true <-> qend (negb o) (escape v ++ [34%N]) = None.
Proof.
  induction v as [|c v IH]; intros o; [now destruct o|]. cbn [safeb].
  change (escape (c :: v)) with ((if N.eqb c 92 || N.eqb c 34 then [92%N; c] else [c]) ++ escape v). rewrite <- app_assoc.
  destruct (N.eqb_spec c 34) as [->|H34].
  - rewrite IH. change (if N.eqb 34 92 || true then [92%N; 34%N] else [34%N]) with [92%N; 34%N]. cbn [app qend].
    change (N.eqb 92 59) with false. change (N.eqb 92 34) with false. change (N.eqb 34 59) with false. change (N.eqb 34 34) with true. cbn [andb].
    now destruct (qend (negb (negb o)) _).
  - destruct (N.eqb_spec c 92) as [->|H92]; cbn [orb app qend].
    + change (N.eqb 92 59) with false. change (N.eqb 92 34) with false. cbn [andb]. rewrite IH. now destruct (qend _ _).
    + destruct (N.eqb_spec c 59) as [->|H59]; cbn [andb].
      * change (N.eqb 59 34) with false. cbv iota. destruct o; cbn [negb andb]; [easy|]. rewrite IH. cbn [negb]. now destruct (qend _ _).
      * destruct (N.eqb_spec c 34); [easy|]. rewrite IH. now destruct (qend _ _).
Qed.
Lemma safeb_spec v : forall o, safeb o v = true <-> forall a b, v = a ++ [59%N] ++ b -> xorb o (qodd a) = false.
Proof.
  induction v as [|c v IH]; intros o; cbn [safeb].
  - split; [|easy]. intros _ a b H. now destruct a.
  - assert (HR : forall P : str -> Prop, (forall a b, c :: v = a ++ [59%N] ++ b -> P a) <-> (c = 59%N -> P []) /\ (forall a b, v = a ++ [59%N] ++ b -> P (c :: a))).
    { intros P. split.
      - intros H. split; [intros ->; now apply (H [] v)|intros a b ->; now apply (H (c :: a) b)].
      - intros [H1 H2] a b E. destruct a as [|x a]; [injection E as -> _; now apply H1|injection E as <- ->; now apply (H2 a b)]. }
    rewrite HR. change (qodd []) with false. destruct (N.eqb_spec c 34) as [->|H34]; [|destruct (N.eqb_spec c 59) as [->|H59]].
    + rewrite IH. split.
      * intros H. split; [easy|]. intros a b E. rewrite qodd_cons. change (N.eqb 34 34) with true. cbv iota. specialize (H a b E). now destruct o, (qodd a).
      * intros [_ H] a b E. specialize (H a b E). rewrite qodd_cons in H. change (N.eqb 34 34) with true in H. cbv iota in H. now destruct o, (qodd a).
    + rewrite andb_true_iff, negb_true_iff, IH, xorb_false_r. split.
      * intros [-> H]. split; [easy|]. intros a b E. rewrite qodd_cons. exact (H a b E).
      * intros [H1 H]. split; [now apply H1|]. intros a b E. specialize (H a b E). now rewrite qodd_cons in H.
    + rewrite IH. split.
      * intros H. split; [easy|]. intros a b E. rewrite qodd_cons. destruct (N.eqb_spec c 34); [easy|]. exact (H a b E).
      * intros [_ H] a b E. specialize (H a b E). rewrite qodd_cons in H. now destruct (N.eqb_spec c 34).
Qed.
Lemma semis_safe_iff v : semis_safe v <-> safeb false v = true.
Proof.
  rewrite safeb_spec. unfold semis_safe, quotes_before, qodd. change hquote with 34%N. split; intros H a b E; specialize (H a b E).
  - rewrite <- Nat.negb_odd, negb_true_iff in H. now rewrite H.
  - rewrite <- Nat.negb_odd, negb_true_iff. now rewrite xorb_false_l in H.
Qed.

(** the last parameter, whatever quotes its value contains *)
Lemma parse_param_quoted reg n v : pname_ok n = true ->
  parse_param reg (strip (piece_of (n, Quo v))) = Ok (Some (lower n, PB v)).
Proof.
  intros Hn. apply andb_true_iff in Hn as [Hn Hs]. set (w := [34%N] ++ escape v ++ [34%N]).
  assert (HT : tight n = true).
  { apply tight_by_all. intros c Hc. pose proof (token_all (fun c => negb (is_ws c)) n eq_refl Hn) as HA.
    rewrite forallb_forall in HA. apply negb_true_iff, HA, Hc. }
  assert (HW : tight w = true).
  { unfold tight, tight_by, w. cbn [app]. change (34%N :: escape v ++ [34%N]) with ((34%N :: escape v) ++ [34%N]). now rewrite last_last. }
  assert (Enb : strip (piece_of (n, Quo v)) = n ++ hequal :: w).
  { unfold piece_of. cbn [fst snd render_val]. pose proof (strip_by_pad is_ws [32%N] (n ++ hequal :: w) []) as HP.
    rewrite app_nil_r in HP. apply HP; try easy; [|now destruct n]. unfold tight, tight_by in *.
    pose proof (token_nonempty n Hn) as Hne. destruct n as [|x n]; [easy|]. cbn [app].
    replace (x :: n ++ hequal :: w) with ((x :: n ++ hequal :: 34%N :: escape v) ++ [34%N])
      by (unfold w; cbn [app]; now rewrite <- app_assoc).
    rewrite last_last. apply andb_true_iff in HT as [HT1 _]. now rewrite HT1. }
  rewrite Enb. unfold parse_param. rewrite findc_app by now apply token_notin. rewrite firstn_app_exact.
  assert (HSn : strip n = n) by now apply strip_by_tight. rewrite HSn, decode_ascii_token by easy.
  cbn [bind]. destruct (endswith (lower n) [hstar]) eqn:ES.
  { exfalso. apply negb_true_iff in Hs. rewrite endswith1 in Hs; try easy.
    intros x Hx. unfold lowerc in Hx. destruct (N.leb 65 x && N.leb x 90) eqn:EU; [|easy]. unfold hstar in Hx. lia. }
  cbn [andb]. replace (skipn (S (length n)) (n ++ hequal :: w)) with w.
  2:{ change (hequal :: w) with ([hequal] ++ w). rewrite app_assoc.
      replace (S (length n)) with (length (n ++ [hequal])) by (rewrite app_length; cbn; lia). now rewrite skipn_app_exact. }
  cbn [bind pmap]. rewrite (strip_by_tight is_ws) by exact HW. unfold w. now rewrite unquote_value_quoted.
Qed.
Lemma piece_qend n v : is_token n = true -> qend false (piece_of (n, Quo v)) = None <-> safeb false v = true.
Proof.
  intros Hn. rewrite safeb_qend. set (u := 32%N :: n ++ !"=").
  assert (HS : ~ In hsemi u) by (intros [H|H]; [easy|]; apply in_app_or in H as [H|[H|[]]]; [|easy]; now apply (token_notin hsemi n)).
  assert (HQ : ~ In hquote u) by (intros [H|H]; [easy|]; apply in_app_or in H as [H|[H|[]]]; [|easy]; now apply (token_notin hquote n)).
  assert (E : piece_of (n, Quo v) = u ++ 34%N :: escape v ++ [34%N]) by (unfold piece_of, u; cbn [fst snd render_val app]; now rewrite <- app_assoc).
  rewrite E, qend_app, (qodd_notin _ HQ) by now apply qend_none. cbn [xorb qend]. change (N.eqb 34 59) with false. change (N.eqb 34 34) with true.
  cbn [andb negb]. now destruct (qend true _).
Qed.

Theorem C19_quoted_value_exact :
  forall reg main n v, ascii_only main = true -> ~ In 59%N main -> ~ In 34%N main -> is_token n = true -> endswith n !"*" = false ->
    (semis_safe v -> exists d, parse_header reg (render main [(n, Quo v)]) = Ok (lower (strip main), d) /\
                               forall m, dget m d = if seqb m (lower n) then Some (PB v) else None) /\
    (~ semis_safe v -> forall k d, parse_header reg (render main [(n, Quo v)]) = Ok (k, d) -> forall m, dget m d <> Some (PB v)).
Proof.
  intros reg main n v H1 H2 H3 Hn Hs.
  assert (Hpn : pname_ok n = true) by (unfold pname_ok; change [hstar] with !"*"; now rewrite Hn, Hs).
  assert (EQ : qsplit false (render main [(n, Quo v)]) = main :: qsplit false (piece_of (n, Quo v))).
  { unfold render. cbn [flat_map]. rewrite app_nil_r.
    change (render_param (n, Quo v)) with (hsemi :: piece_of (n, Quo v)). apply qsplit_piece; [now apply qend_none|now apply qodd_notin]. }
  unfold parse_header. rewrite parse_header_params_spec, EQ. cbn [map]. unfold decode_ascii at 1 2. rewrite lower_ascii by now apply strip_ascii. cbn [bind].
  split; intros Hv.
  - apply semis_safe_iff, (piece_qend n v Hn) in Hv. rewrite qsplit_single by exact Hv. cbn [map parse_params].
    rewrite parse_param_quoted by exact Hpn. cbn [bind]. eexists. split; [reflexivity|]. intros m. now rewrite dget_dset.
  - intros k d H. destruct (parse_params reg _ []) as [d'|e] eqn:EP; [|easy]. cbn [bind] in H. injection H as _ <-.
    revert EP. apply parse_params_values; [easy|]. intros p m (q & <- & Hq)%in_map_iff Hp.
    assert (HL : 1 < length (qsplit false (piece_of (n, Quo v)))).
    { rewrite qsplit_end. destruct (qend false (piece_of (n, Quo v))) as [e|] eqn:E.
      - cbn [length]. pose proof (qsplit_nonnil false (skipn (S e) (piece_of (n, Quo v)))). destruct (qsplit false (skipn _ _)); [easy|]. cbn. lia.
      - exfalso. apply Hv, semis_safe_iff. now apply (piece_qend n v Hn). }
    pose proof (semis_pieces _ _ HL Hq) as HP. apply parse_param_semis in Hp. pose proof (semis_strip q).
    enough (semis (piece_of (n, Quo v)) = semis v) by lia. unfold piece_of. cbn [fst snd render_val].
    rewrite semis_cons, !semis_app, semis_escape. change (semis [34%N]) with 0. change (semis !"=") with 0. change (N.eqb 32 59) with false.
    rewrite (semis_notin n) by now apply token_notin. lia.
Qed.
Print Assumptions C19_quoted_value_exact.
Example C19_exact_case :
  semis_safe !"a""b" /\ ~ semis_safe !"a"";b" /\ semis_safe !"""a"";b".
Proof.
  rewrite !semis_safe_iff. vm_compute. repeat split; discriminate.
Qed.

(** ** C14.  Only the exact name 'Content-Type' counts: a request whose content type is named in any
    other way is parsed as one without a content type *)
Theorem C14_exact_content_type_refuted :
  forall reg st s r w st1 r1, request_init reg st s = Ok r -> delivers s w -> max_ok (s_hdr st) ->
    (forall n v, In (n, v) (w_fields w) -> n <> !"Content-Type") ->
    parse_request_header reg (st, r) = (Ok tt, (st1, r1)) ->
    a_ctype (r_attrs r1) = Some None /\ st1 = st.
Proof.
  intros reg st s r w st1 r1 Hi Hd Hm HN HP.
  destruct (header_known _ _ _ _ _ _ _ Hi Hd Hm HP) as (l & host & h & c & ch & g & _ & Ea & _ & Hg & Hc & -> & _).
  assert (E : header !"Content-Type" h = None).
  { unfold header. rewrite Hg by discriminate. replace (values_named !"Content-Type" (w_fields w)) with (@nil str); [reflexivity|].
    clear - HN. induction (w_fields w) as [|[a b] fs IH]; [reflexivity|]. cbn [values_named].
    destruct (seqb !"Content-Type" a) eqn:E; [|apply IH; intros n v Hin; apply (HN n v); now right].
    apply seqb_eq in E. subst a. elim (HN !"Content-Type" b (or_introl eq_refl) eq_refl). }
  unfold ctype_of in Hc. rewrite E in Hc. injection Hc as <- <-. now rewrite Ea.
Qed.
Print Assumptions C14_exact_content_type_refuted.
Example C14_exact_content_type_case :
  let '(x, (st, r)) := run hdr ex_set (req [!"POST / HTTP/1.1"; !"Host: a"; !"CONTENT-TYPE: text/plain; charset=ascii"] []) in
  x = Ok tt /\ a_ctype (r_attrs r) = Some None /\ st = ex_set.
Proof. vm_compute. repeat split. Qed.

(** ** C48.  Every immutable dictionary with a key can be changed by pop(), popitem() and clear() *)
Theorem C48_every_dictionary_refuted :
  forall s k l, im_mut s = false -> wf (im_d s) -> dget k (im_d s) = Some l ->
    istep (IPop k) s = (Ok (Some l), mkImm false (ddel k (im_d s))) /\ dget k (ddel k (im_d s)) = None /\
    istep (IPopItem k) s = istep (IPop k) s /\
    istep IClear s = (Ok None, mkImm false []).
Proof.
  intros s k l Hm Hw Hk. unfold istep, im_del. rewrite Hk, Hm. repeat split. now apply dget_ddel_same.
Qed.
Print Assumptions C48_every_dictionary_refuted.
Example C48_every_dictionary_case :
  dget !"Host" (im_d (mkImm false [(!"Host", [VAtom !"h"])])) = Some [VAtom !"h"].
Proof. reflexivity. Qed.

(** ** C77.  GET of every request without a query is mutable *)
Theorem C77_no_query_refuted :
  forall reg st s r w m url v u st1 r1, request_init reg st s = Ok r -> delivers s w -> max_ok (s_hdr st) ->
    request_line w m url v -> target url u -> parse_request_header reg (st, r) = (Ok tt, (st1, r1)) -> up_query u = [] ->
    exists g, r_get r1 = Some g /\ q_mut g = true.
Proof.
  intros reg st s r w m url v u st1 r1 Hi Hd Hm HL HT HP Hq.
  destruct (header_known _ _ _ _ _ _ _ Hi Hd Hm HP) as (l & host & h & ct & ch & g & El & _ & _ & _ & _ & _ & Eg & Er).
  destruct (line_parts _ _ _ _ _ _ HL HT El) as (_ & _ & _ & _ & _ & Eq). rewrite Eq, Hq in Eg. exists g. split; [exact Er|].
  unfold query_of in Eg. cbn [nonempty] in Eg. unfold querydict in Eg.
  destruct (query_text _ _ _) as [tx|e]; [|easy]. cbn [bind] in Eg. destruct (limited_parse_qsl _ _ _ _ _) as [ps|e]; [|easy]. cbn [bind] in Eg.
  destruct (q_fill reg ps _) as [[u0|e] q0]; [|easy]. now injection Eg as <-.
Qed.
Print Assumptions C77_no_query_refuted.

(** ** C87.  A request to a path, with a Host header that names no port, has the port '65536' *)
Theorem C87_no_port_refuted :
  forall reg st s r w m url v u host st1 r1, request_init reg st s = Ok r -> delivers s w -> max_ok (s_hdr st) ->
    request_line w m url v -> target url u -> up_scheme u = [] -> up_netloc u = [] ->
    RequestSpec.last_value !"Host" w host -> snd (split_domain_port host) = [] ->
    parse_request_header reg (st, r) = (Ok tt, (st1, r1)) ->
    get_port r1 = Ok !"65536".
Proof.
  intros reg st s r w m url v u host st1 r1 Hi Hd Hm HL HT Hs Hn Hh Hp HP.
  destruct (header_known _ _ _ _ _ _ _ Hi Hd Hm HP) as (l & _ & _ & _ & _ & _ & El & _).
  destruct (line_parts _ _ _ _ _ _ HL HT El) as (_ & _ & Es & En & _ & _).
  destruct (C87_get_port reg st s r w l Hi Hd Hm El st1 r1 HP) as (a & Ha & E).
  assert (a = host).
  { unfold authority in Ha. rewrite En, Hn in Ha. destruct Ha as [[Ha _]|[_ Ha]]; [easy|].
    destruct Ha as [p1 E1], Hh as [p2 E2]. rewrite E1 in E2. now apply app_inj_tail in E2 as [_ ->]. }
  subst a. rewrite Hp, Es, Hs in E. exact E.
Qed.
Print Assumptions C87_no_port_refuted.

(** ** C88.  Every character of the method is printed as it is: control characters too *)
Theorem C88_method_verbatim_refuted :
  forall r m p, a_method (r_attrs r) = Some (Some m) -> get_full_path false r = Ok p -> p <> [] ->
    exists rest, request_repr r = Ok (!"<HttpRequest: " ++ m ++ rest).
Proof.
  intros r m p Hm Hp Hne. unfold request_repr, attr. rewrite Hm. cbn [bind]. rewrite Hp. cbn [bind].
  destruct p as [|c p]; [easy|]. cbn [nonempty]. eexists. reflexivity.
Qed.
Print Assumptions C88_method_verbatim_refuted.
Example C88_method_verbatim_case :
  let '(x, (_, r)) := run hdr ex_set (req [!"GE" ++ [LF] ++ !"T /p HTTP/1.1"; !"Host: a"] []) in
  x = Ok tt /\ a_method (r_attrs r) = Some (Some (!"GE" ++ [LF] ++ !"T")) /\ get_full_path false r = Ok !"/p" /\ get_port r = Ok !"65536".
Proof. vm_compute. repeat split. Qed.

(** ** C56.  A charset named in one request is used for every later request with the same Settings object *)
Theorem C56_charset_stays_refuted :
  forall reg st sa a wa v ct ps cs st1 a1 sb b wb m url vr u st2 b1,
    request_init reg st sa = Ok a -> delivers sa wa -> max_ok (s_hdr st) ->
    RequestSpec.last_value !"Content-Type" wa v -> parse_header reg v = Ok (ct, ps) -> dget !"charset" ps = Some cs ->
    parse_request_header reg (st, a) = (Ok tt, (st1, a1)) ->
    request_init reg st1 sb = Ok b -> delivers sb wb -> request_line wb m url vr -> target url u -> up_query u <> [] ->
    (forall n x, In (n, x) (w_fields wb) -> n <> !"Content-Type") ->
    parse_request_header reg (st1, b) = (Ok tt, (st2, b1)) ->
    exists g, r_get b1 = Some g /\ querydict reg (Some (mkQS (pchars cs) (s_dnum st))) (Some (PB (up_query u))) false = Ok g.
Proof.
  intros reg st sa a wa v ct ps cs st1 a1 sb b wb m url vr u st2 b1 Hia Hda Hm Hv Hp Hcs HPa Hib Hdb HL HT Hq HN HPb.
  destruct (header_known _ _ _ _ _ _ _ Hia Hda Hm HPa) as (l & host & h & c & ch & g & _ & _ & _ & Hg & Hc & E1 & _).
  unfold ctype_of in Hc. rewrite (values_header _ _ _ _ (Hg !"Content-Type" ltac:(discriminate)) Hv), Hp in Hc. cbn [bind fst snd] in Hc.
  injection Hc as _ <-. rewrite Hcs in E1. cbn [charset_after] in E1.
  assert (Hm1 : max_ok (s_hdr st1)) by (now rewrite E1).
  destruct (C14_exact_content_type_refuted _ _ _ _ _ _ _ Hib Hdb Hm1 HN HPb) as [_ ->].
  destruct (header_known _ _ _ _ _ _ _ Hib Hdb Hm1 HPb) as (l' & _ & _ & _ & _ & g' & El & _ & _ & _ & _ & _ & Eg & Er).
  destruct (line_parts _ _ _ _ _ _ HL HT El) as (_ & _ & _ & _ & _ & Eq). rewrite Eq in Eg.
  exists g'. split; [exact Er|]. unfold query_of in Eg. destruct (up_query u) as [|x t]; [easy|]. cbn [nonempty] in Eg.
  rewrite E1 in Eg. exact Eg.
Qed.
Print Assumptions C56_charset_stays_refuted.

(** ** C78.  After parse() the raw bytes of every other body are gone: body() is the decoded text, before it was the bytes *)
Theorem C78_text_not_bytes_refuted :
  forall reg n2 mk st s r w st1 r1 c t q, request_init reg st s = Ok r -> delivers s w -> max_ok (s_hdr st) ->
    parse_request_header reg (st, r) = (Ok tt, (st1, r1)) -> a_ctype (r_attrs r1) = Some c ->
    c <> Some !"application/x-www-form-urlencoded" -> c <> Some !"multipart/form-data" ->
    w_body w <> [] -> fits (length (w_body w)) (s_dmem st) ->
    querydict reg (Some (mkQS (s_charset st1) (s_dnum st))) None false = Ok q ->
    decode reg (s_charset st1) (w_body w) = Ok t ->
    fst (body reg (st1, r1)) = Ok (PB (w_body w)) /\
    exists r2, parse reg n2 mk (st, r) = (Ok tt, (st1, r2)) /\ fst (body reg (st1, r2)) = Ok (PU t).
Proof.
  intros reg n2 mk st s r w st1 r1 c t q Hi Hd Hm HP Hc Hc1 Hc2 Hb Hf Hq Ht. split.
  - pose proof (C49_body_exact reg n2 mk st s r w st1 r1 [] Hi Hd Hm HP ltac:(constructor)) as [H _].
    cbv zeta in H. cbn [map fold_right] in H. unfold after in H. cbn [fold_left] in H.
    destruct H as (w2 & H & _); [exact Hf|]. now rewrite H.
  - destruct (C78_text_body reg n2 mk st s r w st1 r1 c t q Hi Hd Hm HP Hc Hc1 Hc2 Hb Hf Hq Ht) as (r2 & E & _ & _ & E2).
    exists r2. split; [exact E|]. now rewrite E2.
Qed.
Print Assumptions C78_text_not_bytes_refuted.
