(** * C147: a form is the sequence of its fields *)
From Coq Require Import Permutation ZifyBool ZifyN ZifyNat.
From Verif Require Import Py Spec HeadSpec PyFacts PyDict StreamModel StreamSpec StreamFacts StreamCalm CodecModel CodecFacts PercentModel
  HeadModel HeadFacts UrlFacts HeaderModel BoundaryModel UploadModel MultipartModel FormSpec FormFacts ReaderSim
  RequestModel RequestSpec HeaderRun BodyRun ParseRun RequestRel RequestMulti TwinFacts QuerySpec QueryModel QueryFacts
  PropsData PropsHead PropsPart PropsMultipart PropsRequest PropsBody PropsEnd PropsSame PropsForm PropsOrder PropsList PropsLine PropsCharset PropsSetup PropsChoice PropsSpell.

(** ** Joining two queries *)
Lemma pieces_join c : separator c -> forall s l t m, QuerySpec.pieces s l -> QuerySpec.pieces t m -> QuerySpec.pieces (s ++ c :: t) (l ++ m).
Proof.
  intros Hc s l t m H Ht. induction H as [s Hs|u x s l Hu Hx H IH]; [now apply pieces_cons|]. rewrite <- app_assoc. cbn [app]. now apply pieces_cons.
Qed.
Lemma separators_join c : separator c -> forall s t, separators (s ++ c :: t) = S (separators s + separators t).
Proof.
  intros Hc s t. induction s as [|x s IH]; cbn [app separators]; [destruct Hc as [->| ->]; reflexivity|]. rewrite IH. lia.
Qed.
Theorem C147_joined :
  forall reg enc blank sep q1 q2 r, known_charset reg enc -> separator sep ->
  (limited_parse_qsl reg (q1 ++ sep :: q2) blank enc None = Ok r <->
   exists r1 r2, limited_parse_qsl reg q1 blank enc None = Ok r1 /\ limited_parse_qsl reg q2 blank enc None = Ok r2 /\ r = r1 ++ r2).
Proof.
  intros reg enc blank sep q1 q2 r (c & Hc & Hok) Hs.
  assert (HX : exists r1 r2, limited_parse_qsl reg q1 blank enc None = Ok r1 /\ limited_parse_qsl reg q2 blank enc None = Ok r2 /\
                 limited_parse_qsl reg (q1 ++ sep :: q2) blank enc None = Ok (r1 ++ r2)).
  { destruct (C41_parse_total reg enc c q1 blank Hc Hok) as [r1 E1]. destruct (C41_parse_total reg enc c q2 blank Hc Hok) as [r2 E2].
    exists r1, r2. split; [exact E1|]. split; [exact E2|].
    apply (C41_parse_spec reg enc c q1 blank r1 Hc Hok) in E1 as (p1 & s1 & A1 & A2 & ->). apply (C41_parse_spec reg enc c q2 blank r2 Hc Hok) in E2 as (p2 & s2 & B1 & B2 & ->).
    apply (C41_parse_spec reg enc c _ blank _ Hc Hok). exists (p1 ++ p2), (s1 ++ s2). split; [now apply pieces_join|]. split; [now apply Forall2_app|now rewrite concat_app]. }
  destruct HX as (r1 & r2 & E1 & E2 & E3). rewrite E3. split.
  - intros [= <-]. now exists r1, r2.
  - intros (r1' & r2' & F1 & F2 & ->). congruence.
Qed.
Print Assumptions C147_joined.
(** under any limit: what is accepted joined has been accepted apart *)
Theorem C147_joined_limit :
  forall reg enc blank limit sep q1 q2 r, known_charset reg enc -> separator sep -> match limit with Some z => (0 <= z)%Z | None => True end ->
  limited_parse_qsl reg (q1 ++ sep :: q2) blank enc limit = Ok r ->
  exists r1 r2, limited_parse_qsl reg q1 blank enc limit = Ok r1 /\ limited_parse_qsl reg q2 blank enc limit = Ok r2 /\ r = r1 ++ r2.
Proof.
  intros reg enc blank limit sep q1 q2 r HK Hs Hl. destruct limit as [z|]; [|now apply C147_joined].
  destruct (Z.eqb_spec z 0) as [->|Hz]; [rewrite !(proj1 (C42_unlimited reg _ blank enc)); now apply C147_joined|].
  destruct (C42_limit_exact reg (q1 ++ sep :: q2) blank enc z ltac:(lia)) as [A1 A2].
  destruct (C42_limit_exact reg q1 blank enc z ltac:(lia)) as [_ B2]. destruct (C42_limit_exact reg q2 blank enc z ltac:(lia)) as [_ D2].
  rewrite (separators_join sep Hs) in A1, A2. destruct (Z_lt_ge_dec (Z.of_nat (S (separators q1 + separators q2))) z) as [HL|HL].
  - rewrite A2, B2, D2 by lia. now apply C147_joined.
  - rewrite A1 by lia. discriminate.
Qed.
Print Assumptions C147_joined_limit.

(** ** The order of the fields *)
(** two fields with the same name, written in whatever way *)
Definition same_name (c : codec) (a b : str) : Prop :=
  exists k v w, field_pair c true a [(k, v)] /\ field_pair c true b [(k, w)].
(** the same fields, those with the same name in the same order *)
Inductive rearranged (c : codec) : list str -> list str -> Prop :=
| re_nil : rearranged c [] []
| re_skip a l m : rearranged c l m -> rearranged c (a :: l) (a :: m)
| re_swap a b l : ~ same_name c a b -> rearranged c (a :: b :: l) (b :: a :: l)
| re_trans l m n : rearranged c l m -> rearranged c m n -> rearranged c l n.
Lemma rearranged_perm c l m : rearranged c l m -> Permutation l m.
Proof. induction 1; eauto using Permutation. Qed.
Lemma pair_blank c blank p k v : field_pair c blank p [(k, v)] -> field_pair c true p [(k, v)].
Proof.
  intros H. remember [(k, v)] as r eqn:E. destruct H as [|n v0 n' v' H1 H2 H3 H4|n H1 H2|n n' H1 H2 H3 H4|n H1 H2 H3]; try discriminate E.
  - injection E as <- <-. apply fp_value; auto.
  - injection E as <- <-. now apply fp_name.
Qed.
Lemma pair_one c blank p r : field_pair c blank p r -> r = [] \/ exists k v, r = [(k, v)].
Proof. intros []; eauto. Qed.
Notation vals := QueryFacts.values_of.
Lemma vals_app k a b : vals k (a ++ b) = vals k a ++ vals k b.
Proof. unfold vals. now rewrite filter_app, map_app. Qed.
Lemma order_pairs c blank ps ps' : rearranged c ps ps' -> forall rs, Forall2 (field_pair c blank) ps rs ->
  exists rs', Forall2 (field_pair c blank) ps' rs' /\ forall k, vals k (concat rs) = vals k (concat rs').
Proof.
  induction 1 as [|a l m H IH|a b l Hn|l m n H1 IH1 H2 IH2]; intros rs HF.
  - exists rs. now split.
  - inversion HF as [|x y xs ys Hx Hy]; subst. destruct (IH _ Hy) as (rs' & I1 & I2). exists (y :: rs'). split; [now constructor|].
    intros k. cbn [concat]. now rewrite !vals_app, I2.
  - inversion HF as [|x y xs ys Hx Hy]; subst. inversion Hy as [|x2 y2 xs2 ys2 Hx2 Hy2]; subst. exists (y2 :: y :: ys2). split; [now repeat constructor|].
    intros k. cbn [concat]. rewrite !vals_app, !app_assoc. f_equal.
    destruct (pair_one _ _ _ _ Hx) as [->|(k1 & v1 & ->)]; [now rewrite app_nil_r|]. destruct (pair_one _ _ _ _ Hx2) as [->|(k2 & v2 & ->)]; [now rewrite app_nil_r|].
    unfold vals. cbn [filter fst]. destruct (seqb k1 k) eqn:E1, (seqb k2 k) eqn:E2; try reflexivity.
    apply seqb_eq in E1, E2. subst. exfalso. apply Hn. exists k, v1, v2. split; now apply (pair_blank c blank).
  - destruct (IH1 _ HF) as (r1 & A1 & A2). destruct (IH2 _ A1) as (r2 & B1 & B2). exists r2. split; [exact B1|]. intros k. now rewrite A2.
Qed.
Definition like_pairs (x y : res (list (str * str))) : Prop :=
  match x, y with Ok r, Ok r' => forall k, vals k r = vals k r' | Err e, Err e' => e = e' | _, _ => False end.
Theorem C147_order :
  forall reg enc c blank limit qs qs' ps ps', reg enc = Some c -> codec_ok c ->
  QuerySpec.pieces qs ps -> QuerySpec.pieces qs' ps' -> rearranged c ps ps' ->
  match limited_parse_qsl reg qs blank enc limit, limited_parse_qsl reg qs' blank enc limit with
  | Ok r, Ok r' => forall k, map snd (filter (fun e => seqb (fst e) k) r) = map snd (filter (fun e => seqb (fst e) k) r')
  | Err e, Err e' => e = e'
  | _, _ => False
  end.
Proof.
  intros reg enc c blank limit qs qs' ps ps' Hc Hok Hp Hp' HR.
  assert (HN : like_pairs (limited_parse_qsl reg qs blank enc None) (limited_parse_qsl reg qs' blank enc None)).
  { destruct (C41_parse_total reg enc c qs blank Hc Hok) as [r E]. rewrite E. apply (C41_parse_spec reg enc c qs blank r Hc Hok) in E as (p1 & s1 & A1 & A2 & ->).
    apply pieces_unique in Hp, A1. subst p1. rewrite <- Hp in A2. destruct (order_pairs c blank ps ps' HR _ A2) as (rs' & B1 & B2).
    assert (E' : limited_parse_qsl reg qs' blank enc None = Ok (concat rs')) by (apply (C41_parse_spec reg enc c qs' blank _ Hc Hok); now exists ps', rs').
    now rewrite E'. }
  change (like_pairs (limited_parse_qsl reg qs blank enc limit) (limited_parse_qsl reg qs' blank enc limit)).
  assert (HS : separators qs = separators qs').
  { pose proof (C42_separators_count_fields _ _ Hp) as L1. pose proof (C42_separators_count_fields _ _ Hp') as L2.
    pose proof (Permutation_length (rearranged_perm _ _ _ HR)). lia. }
  unfold limited_parse_qsl in *. rewrite !qsl_pairs_spec in *. rewrite <- HS. destruct limit as [z|]; [|exact HN].
  destruct (Z.eqb z 0); [exact HN|]. destruct (Z.leb z _); [reflexivity|exact HN].
Qed.
Print Assumptions C147_order.

(** the same lists under the same keys *)
Definition same_lists (q q' : qdict) : Prop :=
  q_mut q = q_mut q' /\ q_enc q = q_enc q' /\ (forall k, q_list k q = q_list k q') /\ (forall k, dget k (q_d q) = None <-> dget k (q_d q') = None).
Lemma pieces_nil ps : QuerySpec.pieces [] ps -> ps = [[]].
Proof. intros H. apply pieces_unique in H. exact H. Qed.
Lemma querydict_order reg st c qs qs' ps ps' mut : reg (qs_charset st) = Some c -> codec_ok c -> ascii_only qs = true -> ascii_only qs' = true ->
  QuerySpec.pieces qs ps -> QuerySpec.pieces qs' ps' -> rearranged c ps ps' ->
  match querydict reg (Some st) (Some (PB qs)) mut, querydict reg (Some st) (Some (PB qs')) mut with
  | Ok q, Ok q' => same_lists q q' | Err e, Err e' => e = e' | _, _ => False end.
Proof.
  intros Hc Hok A A' Hp Hp' HR.
  assert (HT : forall s, ascii_only s = true -> query_text reg (qs_charset st) (match Some (PB s) with Some p => if pnonempty p then p else PB [] | None => PB [] end) = Ok s).
  { intros s As. destruct s as [|x s]; unfold query_text, decode; cbn [pnonempty pchars nonempty]; rewrite Hc.
    - now rewrite (cok_dec_ascii c Hok []).
    - now rewrite (cok_dec_ascii c Hok _ As). }
  pose proof (querydict_spec reg st c qs (Some (PB qs)) mut Hc Hok (HT _ A)) as Q. pose proof (querydict_spec reg st c qs' (Some (PB qs')) mut Hc Hok (HT _ A')) as Q'.
  pose proof (C147_order reg (qs_charset st) c true (qs_limit st) qs qs' ps ps' Hc Hok Hp Hp' HR) as HO.
  destruct (limited_parse_qsl reg qs true (qs_charset st) (qs_limit st)) as [r|e], (limited_parse_qsl reg qs' true (qs_charset st) (qs_limit st)) as [r'|e']; try easy.
  - destruct Q as (q & -> & Q1 & Q2 & Q3 & Q4), Q' as (q' & -> & R1 & R2 & R3 & R4). split; [congruence|]. split; [congruence|].
    assert (HV : forall k, vals k r = vals k r') by exact HO. split; intros k; [now rewrite Q3, R3, HV|now rewrite Q4, R4, HV].
  - subst e'. now rewrite Q, Q'.
Qed.
(** the form in the body of a request *)
Definition same_post (p p' : option postv) : Prop :=
  match p, p' with
  | Some (PQuery q), Some (PQuery q') => same_lists q q'
  | None, None => True
  | _, _ => False
  end.
Theorem C147_form :
  forall reg n2 mk st s s' r r' w w' st1 r1 w1' c ps ps',
    request_init reg st s = Ok r -> request_init reg st s' = Ok r' -> delivers s w -> delivers s' w' -> max_ok (s_hdr st) -> ascii_codecs reg ->
    agree_on [!"Content-Type"] w w' -> ascii_only (w_body w) = true -> ascii_only (w_body w') = true ->
    QuerySpec.pieces (w_body w) ps -> QuerySpec.pieces (w_body w') ps' -> reg (s_charset st1) = Some c -> rearranged c ps ps' ->
    parse_request_header reg (st, r) = (Ok tt, (st1, r1)) -> parse_request_header reg (st, r') = (Ok tt, w1') ->
    a_ctype (r_attrs r1) = Some (Some !"application/x-www-form-urlencoded") ->
    PropsBody.fits (length (w_body w)) (s_dmem st) -> PropsBody.fits (length (w_body w')) (s_dmem st) ->
    let '(x, (st2, r2)) := parse reg n2 mk (st, r) in let '(x', (st2', r2')) := parse reg n2 mk (st, r') in
    x = x' /\ st2 = st2' /\ same_post (r_post r2) (r_post r2') /\ r_files r2 = r_files r2'.
Proof.
  intros reg n2 mk st s s' r r' w w' st1 r1 [st1' r1'] co ps ps' Hi Hi' Hd Hd' Hm HR HA As As' Hps Hps' Eco HRe HP HP' Hc Hf Hf'.
  destruct (header_known _ _ _ _ _ _ _ Hi Hd Hm HP) as (l1 & host & h & c & ch & g & El & Ea & Eme & Eh & Ec & Es & Eg & Er).
  destruct (header_known _ _ _ _ _ _ _ Hi' Hd' Hm HP') as (l1' & host' & h' & c' & ch' & g' & El' & Ea' & Eme' & Eh' & Ec' & Es' & Eg' & Er').
  assert (HCT : header !"Content-Type" h = header !"Content-Type" h').
  { apply (header_agree !"Content-Type" h h' w w' [!"Content-Type"] (or_introl eq_refl) HA); [apply Eh; discriminate|apply Eh'; discriminate]. }
  unfold ctype_of in Ec, Ec'. rewrite <- HCT, Ec in Ec'. injection Ec' as <- <-. rewrite Ea in Hc. cbn [line_attrs a_ctype] in Hc. injection Hc as ->.
  pose proof (header_ready _ _ _ _ _ _ _ Hi Hd Hm HP) as R. pose proof (header_ready _ _ _ _ _ _ _ Hi' Hd' Hm HP') as R'.
  destruct (ready_set _ _ _ _ _ R) as (_ & Hdm & _ & Hdn & _). assert (st1' = st1) as -> by congruence.
  assert (EC : a_ctype (r_attrs r1) = Some (Some CT_FORM)) by (rewrite Ea; reflexivity).
  assert (EC' : a_ctype (r_attrs r1') = Some (Some CT_FORM)) by (rewrite Ea'; reflexivity).
  destruct R as [a1 a2 a3 a4 a5 (q & a6 & a7) _ _], R' as [b1 b2 b3 b4 b5 (q' & b6 & b7) _ _]. assert (q' = q) as -> by congruence.
  unfold parse, mbind. rewrite HP, HP'. clear HP HP'.
  unfold PropsBody.fits in Hf, Hf'. destruct (s_dmem st) as [m|] eqn:Em; [|easy].
  assert (Hok : codec_ok co) by exact (HR _ _ Eco).
  assert (HN : w_body w = [] <-> w_body w' = []).
  { pose proof (Permutation_length (rearranged_perm _ _ _ HRe)) as HL. pose proof (rearranged_perm _ _ _ HRe) as HPe.
    assert (HE : forall q l, QuerySpec.pieces q l -> (q = [] <-> l = [[]])).
    { intros q0 l H. split; [intros ->; exact (pieces_nil _ H)|]. intros ->. inversion H; [reflexivity|]. match goal with HH : QuerySpec.pieces _ [] |- _ => inversion HH end. }
    rewrite (HE _ _ Hps), (HE _ _ Hps'). split; intros ->; [now apply Permutation_length_1_inv|]. apply Permutation_sym in HPe. now apply Permutation_length_1_inv. }
  destruct (w_body w) as [|x b] eqn:EB, (w_body w') as [|x' b'] eqn:EB'; try (exfalso; destruct HN as [HN1 HN2]; (discriminate (HN1 eq_refl) || discriminate (HN2 eq_refl))).
  - destruct (parse_body_none reg n2 mk 3 st1 r1 a3 a2 a1 ltac:(lia)) as (s2 & _ & ->).
    destruct (parse_body_none reg n2 mk 3 st1 r1' b3 b2 b1 ltac:(lia)) as (s3 & _ & ->).
    destruct (querydict reg (Some (s_query st1)) None false) as [q1|e]; cbn; rewrite a7, b7; now repeat split; congruence.
  - destruct (parse_body_some reg n2 mk 3 st1 r1 _ a3 a2 a1 ltac:(lia) ltac:(discriminate)) as (s2 & A2 & ->).
    destruct (parse_body_some reg n2 mk 3 st1 r1' _ b3 b2 b1 ltac:(lia) ltac:(discriminate)) as (s3 & A3 & ->).
    destruct (finish_form reg n2 mk 5 st1 (set_stream s2 (at_body st1 r1)) (x :: b) m) as (s4 & _ & F1); try assumption; try lia.
    destruct (finish_form reg n2 mk 5 st1 (set_stream s3 (at_body st1 r1')) (x' :: b') m) as (s5 & _ & F2); try assumption; try lia.
    cbn zeta in F1, F2. rewrite F1, F2. clear F1 F2.
    pose proof (querydict_order reg (s_query st1) co (x :: b) (x' :: b') ps ps' false Eco Hok As As' Hps Hps' HRe) as HQ.
    destruct (querydict reg (Some (s_query st1)) (Some (PB (x :: b))) false) as [q1|e], (querydict reg (Some (s_query st1)) (Some (PB (x' :: b'))) false) as [q2|e']; try contradiction.
    2:{ subst e'. cbn. rewrite a7, b7. now repeat split; congruence. }
    unfold decode. rewrite Eco, (cok_dec_ascii co Hok _ As), (cok_dec_ascii co Hok _ As'). cbn. now split.
Qed.
Print Assumptions C147_form.

(** ** Multipart: the order of the parts and the boundary *)
Inductive moved : list part -> list part -> Prop :=
| mv_nil : moved [] []
| mv_skip p l m : moved l m -> moved (p :: l) (p :: m)
| mv_swap p q l : pt_name p <> pt_name q \/ is_field p <> is_field q -> moved (p :: q :: l) (q :: p :: l)
| mv_trans l m n : moved l m -> moved m n -> moved l n.
Lemma moved_perm l m : moved l m -> Permutation l m.
Proof. induction 1; eauto using Permutation. Qed.
Lemma moved_named l m : moved l m -> forall k, fields_named k l = fields_named k m /\ files_named k l = files_named k m.
Proof.
  induction 1 as [|p l m H IH|p q l Hn|l m n H1 IH1 H2 IH2]; intros k; [easy| | |].
  - destruct (IH k) as [I1 I2]. unfold fields_named, files_named in *. cbn [filter]. now rewrite I1, I2.
  - unfold fields_named, files_named. cbn [filter]. unfold is_field in Hn. destruct (pt_file p), (pt_file q); try easy.
    + split; [reflexivity|]. destruct (seqb k (pt_name p)) eqn:E1, (seqb k (pt_name q)) eqn:E2; try reflexivity. apply seqb_eq in E1, E2.
      destruct Hn as [Hn|Hn]; [|now elim Hn]. elim Hn. congruence.
    + split; [|reflexivity]. destruct (seqb k (pt_name p)) eqn:E1, (seqb k (pt_name q)) eqn:E2; try reflexivity. apply seqb_eq in E1, E2.
      destruct Hn as [Hn|Hn]; [|now elim Hn]. elim Hn. congruence.
  - destruct (IH1 k) as [A1 A2], (IH2 k) as [B1 B2]. split; congruence.
Qed.
Lemma perm_filter {A} (f : A -> bool) l m : Permutation l m -> Permutation (filter f l) (filter f m).
Proof.
  induction 1 as [|x l m H IH|x y l|l m n H1 IH1 H2 IH2]; cbn [filter]; [constructor| | |now transitivity (filter f m)].
  - destruct (f x); [now constructor|exact IH].
  - destruct (f x), (f y); try reflexivity. apply perm_swap.
Qed.
Lemma perm_sum l m : Permutation l m -> list_sum l = list_sum m.
Proof. unfold list_sum. induction 1; cbn [fold_right]; lia. Qed.
Lemma moved_within st l m : moved l m -> within st l -> within st m.
Proof.
  intros H. apply moved_perm in H. unfold within, field_count, field_bytes.
  rewrite (Permutation_length (perm_filter is_field _ _ H)).
  now rewrite (perm_sum _ _ (Permutation_map (fun p => length (pt_raw p) + length (pt_name p) + 2) (perm_filter is_field _ _ H))).
Qed.
(** the same data of a field, and of a file *)
Definition same_entry (e e' : entry) : Prop :=
  en_data e = en_data e' /\ en_ctype e = en_ctype e' /\ en_tenc e = en_tenc e' /\ forall n, dget n (en_extra e) = dget n (en_extra e').
Definition same_upload (f f' : ufile) : Prop :=
  uf_name f = uf_name f' /\ uf_content f = uf_content f' /\ uf_size f = uf_size f' /\ uf_ctype f = uf_ctype f' /\ uf_charset f = uf_charset f' /\
  uf_tenc f = uf_tenc f' /\ forall n, dget n (uf_extra f) = dget n (uf_extra f').
Lemma entries_same l l' ps : Forall2 entry_for l ps -> Forall2 entry_for l' ps -> Forall2 same_entry l l'.
Proof.
  intros H. revert l'. induction H as [|e p l ps He HF IH]; intros l' H'; inversion H' as [|e' p' l1 ps1 He' HF']; subst; constructor; [|now apply IH].
  destruct He as (A1 & A2 & A3 & A4), He' as (B1 & B2 & B3 & B4). repeat split; try congruence.
Qed.
Lemma files_same l l' ps : Forall2 file_for l ps -> Forall2 file_for l' ps -> Forall2 same_upload l l'.
Proof.
  intros H. revert l'. induction H as [|e p l ps He HF IH]; intros l' H'; inversion H' as [|e' p' l1 ps1 He' HF']; subst; constructor; [|now apply IH].
  destruct He as (A1 & A2 & A3 & A4 & A5 & A6 & A7), He' as (B1 & B2 & B3 & B4 & B5 & B6 & B7). repeat split; try congruence.
Qed.
Theorem C147_multipart :
  forall reg n2 mk st s s' r r' w w' st1 st1' r1 r1' ps ps' b b' clen clen' z z' m d fs fs',
    request_init reg st s = Ok r -> request_init reg st s' = Ok r' -> delivers s w -> delivers s' w' -> max_ok (s_hdr st) ->
    parse_request_header reg (st, r) = (Ok tt, (st1, r1)) -> parse_request_header reg (st, r') = (Ok tt, (st1', r1')) ->
    multipart_wire w ps b clen z -> multipart_wire w' ps' b' clen' z' -> (0 < z)%Z -> (0 < z')%Z ->
    setup z m (s_handlers st) -> setup z' m (s_handlers st) -> settings_ok reg (s_multi st1) m -> settings_ok reg (s_multi st1') m ->
    s_dmem st = Some d -> (0 <= d)%Z -> can_create mk ->
    w_body w = render_form (!"--" ++ b) fs -> w_body w' = render_form (!"--" ++ b') fs' -> moved fs fs' ->
    Forall (part_ok (!"--" ++ b)) fs -> Forall (part_ok (!"--" ++ b')) fs' -> within (s_multi st1) fs ->
    exists st2 r2 post files st2' r2' post' files',
      parse reg n2 mk (st, r) = (Ok tt, (st2, r2)) /\ r_post r2 = Some (PForm post) /\ r_files r2 = Some files /\
      parse reg n2 mk (st, r') = (Ok tt, (st2', r2')) /\ r_post r2' = Some (PForm post') /\ r_files r2' = Some files' /\
      (forall k, Forall2 same_entry (getl k post) (getl k post')) /\ (forall k, Forall2 same_upload (getl k files) (getl k files')).
Proof.
  intros reg n2 mk st s s' r r' w w' st1 st1' r1 r1' ps ps' b b' clen clen' z z' m d fs fs' Hi Hi' Hd Hd' Hm HP HP' HW HW' Hz Hz' HS HS' Hset Hset' Hdm Hd0 Hmk Hb Hb' HM HF HF' Hin.
  assert (Hin' : within (s_multi st1') fs').
  { destruct (ready_set _ _ _ _ _ (header_ready _ _ _ _ _ _ _ Hi Hd Hm HP)) as (_ & E1 & _ & E2 & _).
    destruct (ready_set _ _ _ _ _ (header_ready _ _ _ _ _ _ _ Hi' Hd' Hm HP')) as (_ & E1' & _ & E2' & _).
    apply (moved_within _ _ _ HM) in Hin. revert Hin. unfold within, s_multi. cbn [ms_dnum ms_dmem]. now rewrite E1, E2, E1', E2'. }
  destruct (C79_any_handlers reg n2 mk st s r w st1 r1 ps b clen z m d fs Hi Hd Hm HP HW Hz HS Hset Hdm Hd0 Hmk Hb HF Hin) as (st2 & r2 & post & files & A1 & A2 & A3 & A4 & A5).
  destruct (C79_any_handlers reg n2 mk st s' r' w' st1' r1' ps' b' clen' z' m d fs' Hi' Hd' Hm HP' HW' Hz' HS' Hset' Hdm Hd0 Hmk Hb' HF' Hin') as (st2' & r2' & post' & files' & B1 & B2 & B3 & B4 & B5).
  exists st2, r2, post, files, st2', r2', post', files'. do 6 (split; [assumption|]). split; intros k; destruct (moved_named _ _ HM k) as [E1 E2].
  - apply (entries_same _ _ (fields_named k fs) (A4 k)). rewrite E1. apply B4.
  - apply (files_same _ _ (files_named k fs) (A5 k)). rewrite E2. apply B5.
Qed.
Print Assumptions C147_multipart.

(** the fields of two queries, and the same ones in another order *)
Lemma pair_parsed reg enc c p k v : reg enc = Some c -> codec_ok c -> no_separator p -> field_pair c true p [(k, v)] -> limited_parse_qsl reg p true enc None = Ok [(k, v)].
Proof. intros Hc Hok Hp H. apply (C41_parse_spec reg enc c p true _ Hc Hok). exists [p], [[(k, v)]]. split; [now apply pieces_one|]. split; [now repeat constructor|reflexivity]. Qed.
Definition utf147 : codec := utf8 (fun s => s).
Definition form147 (b : str) :=
  let '(x, (_, r)) := run (parse ex_reg no_cp ok_temp) ex_set
    (req ((!"POST /p HTTP/1.1") :: map field [(!"Host", !"h"); (!"Content-Type", !"application/x-www-form-urlencoded")]) b) in
  (x, option_map (fun p => match p with PQuery q => (q_list !"a" q, q_list !"b" q) | PForm d => ([], []) end) (r_post r)).
Example C147_case :
  QuerySpec.pieces !"a=1&b=2;%61=3" [!"a=1"; !"b=2"; !"%61=3"] /\ QuerySpec.pieces !"b=2&a=1&%61=3" [!"b=2"; !"a=1"; !"%61=3"] /\
  rearranged utf147 [!"a=1"; !"b=2"; !"%61=3"] [!"b=2"; !"a=1"; !"%61=3"] /\ same_name utf147 !"a=1" !"%61=3" /\
  limited_parse_qsl ex_reg !"a=1&b=2;%61=3" true !"utf-8" None = Ok ([(!"a", !"1")] ++ [(!"b", !"2"); (!"a", !"3")]) /\
  form147 !"a=1&b=2;%61=3" = (Ok tt, Some ([PU !"1"; PU !"3"], [PU !"2"])) /\ form147 !"b=2&a=1&%61=3" = form147 !"a=1&b=2;%61=3".
Proof.
  assert (HU : ex_reg !"utf-8" = Some utf147) by reflexivity. assert (Hok : codec_ok utf147) by apply utf8_ok.
  assert (HPc : forall q ps, fields_split None q = ps -> QuerySpec.pieces q ps) by (intros q ps <-; apply fields_split_pieces).
  split; [apply HPc; reflexivity|]. split; [apply HPc; reflexivity|]. split.
  { apply re_swap. intros (k & v & u & H1 & H2).
    apply (pair_parsed ex_reg !"utf-8" utf147) in H1; [|exact HU|exact Hok|]. apply (pair_parsed ex_reg !"utf-8" utf147) in H2; [|exact HU|exact Hok|].
    vm_compute in H1, H2. congruence.
    all: intros x Hx; cbn in Hx; repeat (destruct Hx as [<-|Hx]; [intros [E|E]; discriminate E|]); destruct Hx. }
  split.
  { assert (HG : forall p k v, limited_parse_qsl ex_reg p true !"utf-8" None = Ok [(k, v)] -> fields_split None p = [p] -> field_pair utf147 true p [(k, v)]).
    { intros p k v H E. apply (C41_parse_spec ex_reg !"utf-8" utf147 p true _ HU Hok) in H as (l & rs & A1 & A2 & A3). apply pieces_unique in A1. rewrite E in A1. subst l.
      inversion A2 as [|x y xs ys B1 B2]; subst. inversion B2; subst. cbn in A3. rewrite app_nil_r in A3. now rewrite A3. }
    exists !"a", !"1", !"3". split; apply HG; reflexivity. }
  split; [vm_compute; reflexivity|]. split; vm_compute; reflexivity.
Qed.

(** two parts changed round, and another boundary *)
Definition parts147 : list part := [ex_file; ex_field; ex_b64].
Definition multi147 (b : str) (fs : list part) :=
  let '(x, (_, r)) := run (parse ex_reg no_cp ok_temp) (exm_set (Some 1000%Z))
    (req ((!"POST /p HTTP/1.1") :: map field [(!"Host", !"h"); (!"Content-Type", !"multipart/form-data; boundary=" ++ b); (!"Content-Length", !"400")])
       (render_form (!"--" ++ b) fs)) in
  (x, option_map (fun p => match p with PForm d => map en_data (getl !"a b" d) | PQuery _ => [] end) (r_post r),
   option_map (fun d => map (fun f => (uf_name f, uf_content f)) (getl !"f" d)) (r_files r)).
Example C147_multipart_case :
  moved ex_parts parts147 /\ Forall (part_ok !"--X") ex_parts /\ Forall (part_ok !"--y9") parts147 /\
  multi147 !"X" ex_parts = (Ok tt, Some [!"v1" ++ crlf ++ !"--"], Some [(!"x;1.txt", [0; 255; 13; 10]%N); (!"y", !"abc")]) /\
  multi147 !"y9" parts147 = multi147 !"X" ex_parts.
Proof.
  split; [apply mv_swap; left; discriminate|]. split; [apply ex_parts_ok|]. split.
  { assert (HO : forall p, find !"--y9" (render_part p) = None -> ~ occurs !"--y9" (render_part p)) by (intros p; apply find_None).
    repeat constructor; try (now apply HO); quot. }
  split; vm_compute; reflexivity.
Qed.
