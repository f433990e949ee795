(** * C139: the order of the header lines; C111 for multipart requests *)
From Coq Require Import ZifyBool ZifyN ZifyNat.
From Verif Require Import Py Spec HeadSpec PyFacts PyDict StreamModel StreamSpec StreamFacts StreamCalm CodecModel PercentModel
  QueryModel HeadModel HeadFacts UrlFacts HeaderModel BoundaryModel UploadModel MultipartModel ReaderSim
  RequestModel RequestSpec HeaderRun BodyRun ParseRun RequestMulti TwinFacts DateSpec PropsDate PropsHead PropsPart PropsRequest PropsBody PropsEnd PropsSame.

(** ** C139 *)
(** every name has the same values, in the same order *)
Definition same_fields (w w' : wire) : Prop := forall n, values_named n (w_fields w) = values_named n (w_fields w').
(** the headers in META, one name at a time: [META['REQUEST_HEADERS'].getlist(n)] *)
Definition sent (n : str) (r : request) : option (option (list str)) :=
  match r_meta r with Some m => option_map (dget n) (m_headers m) | None => None end.
Definition same_lookups (r r' : request) : Prop := same_results r r' /\ forall n, sent n r = sent n r'.

Lemma fields_dget w w' d d' : same_fields w w' -> fields_of w d -> fields_of w' d' -> forall n, dget n d = dget n d'.
Proof. intros HS Hd Hd' n. now rewrite Hd, Hd', HS. Qed.
Lemma dget_header (d d' : headers) : (forall n, dget n d = dget n d') -> forall n, header n d = header n d'.
Proof. intros H n. unfold header. now rewrite H. Qed.

Theorem C139_order_of_header_lines :
  forall reg n2 mk st s s' r r' w w',
    request_init reg st s = Ok r -> request_init reg st s' = Ok r' -> delivers s w -> delivers s' w' -> max_ok (s_hdr st) ->
    w_line w = w_line w' -> w_body w = w_body w' -> same_fields w w' ->
    same_outcome same_lookups (parse reg n2 mk (st, r)) (parse reg n2 mk (st, r')).
Proof.
  intros reg n2 mk st s s' r r' w w' Hi Hi' Hw Hw' Hm HL HB HS.
  apply (same_heads_rel same_lookups (fun h h' => forall n, dget n h = dget n h') true reg n2 mk st s s' r r' w w' Hi Hi' Hw Hw' Hm HL HB).
  - intros mu l d d' Wd Wd' Hd Hd' Hc. pose proof (fields_dget w w' d d' HS Hd Hd') as HG. pose proof (dget_header d d' HG) as HH.
    unfold heads_like. unfold pick_host in *. destruct (nonempty (rl_domain l)).
    + split; [reflexivity|]. split; [exact HG|]. split; [unfold ctype_of; now rewrite HH|]. intros Hmu c ch. exact (Hc Hmu _ _ c ch eq_refl).
    + rewrite <- HH. destruct (header !"Host" d) as [v|]; [|reflexivity]. split; [reflexivity|]. split; [|split].
      * intros n. destruct (seqb n !"Host") eqn:Q.
        -- apply seqb_eq in Q. subst n. now rewrite !dget_ddel_same.
        -- assert (n <> !"Host") by (intros ->; now rewrite (proj2 (seqb_eq _ _) eq_refl) in Q). rewrite !dget_ddel_other by assumption. apply HG.
      * unfold ctype_of. rewrite !header_ddel by discriminate. now rewrite HH.
      * intros Hmu c ch. exact (Hc Hmu _ _ c ch eq_refl).
  - intros _ h h' Hh. apply like_init_eq. now rewrite !(dget_header h h' Hh).
  - easy.
  - intros mu k r1 r2 HT. split; [eapply twin_results; exact HT|]. intros n. destruct HT. unfold sent, meta_like in *.
    destruct (r_meta r1) as [m|], (r_meta r2) as [m'|]; try easy. destruct tw_meta as [_ Hh]. unfold simo in Hh.
    destruct (m_headers m), (m_headers m'); try easy. cbn. now rewrite Hh.
Qed.
Print Assumptions C139_order_of_header_lines.

Definition f139 : list (str * str) :=
  [(!"Host", !"c"); (!"X-One", !"1"); (!"Content-Type", !"text/plain"); (!"X-One", !"2"); (!"Host", !"a")].
Definition f139' : list (str * str) :=
  [(!"X-One", !"1"); (!"X-One", !"2"); (!"Content-Type", !"text/plain"); (!"Host", !"c"); (!"Host", !"a")].
Lemma values_named_other n fs : ~ In n (map fst fs) -> values_named n fs = [].
Proof.
  induction fs as [|[m v] fs IH]; intros Hn; [reflexivity|]. cbn [values_named map fst] in *. destruct (seqb n m) eqn:Q.
  - apply seqb_eq in Q. subst m. exfalso. apply Hn. now left.
  - apply IH. intros HI. apply Hn. now right.
Qed.
Example C139_case :
  delivers (ex110 f139 !"hello") (wire110 f139 !"hello") /\ delivers (ex110 f139' !"hello") (wire110 f139' !"hello") /\
  same_fields (wire110 f139 !"hello") (wire110 f139' !"hello") /\ f139 <> f139' /\
  (let '(x, (st, r)) := run (parse ex_reg no_cp ok_temp) ex_set (ex110 f139' !"hello") in
   x = Ok tt /\ sent !"X-One" r = Some (Some [!"1"; !"2"]) /\ sent !"Host" r = Some None /\ a_host (r_attrs r) = Some (Some !"a")).
Proof.
  split; [apply delivers_msg; reflexivity || discriminate|]. split; [apply delivers_msg; reflexivity || discriminate|].
  split; [|split; [discriminate|vm_compute; repeat split]].
  intros n. cbn [w_fields wire110].
  destruct (in_dec (list_eq_dec N.eq_dec) n [!"Host"; !"X-One"; !"Content-Type"]) as [[<-|[<-|[<-|[]]]]|Hn]; try reflexivity.
  rewrite !values_named_other; [reflexivity| |]; intros HI; apply Hn; cbn in HI |- *; tauto.
Qed.

(** ** C111 for multipart requests *)
(** a decimal number other than zero *)
Definition positive_number (v : str) : Prop := decimal v /\ exists c, In c v /\ c <> 48%N.
Lemma positive_value v : positive_number v -> exists z, py_int 10 v = Some z /\ (0 < z)%Z.
Proof.
  intros (Hd & c & Hc & Hne). exists (value v). split; [apply py_int_value; [exact Hd|now intros ->]|].
  apply in_split in Hc as (a & b & ->). unfold value. rewrite fold_left_app. cbn [fold_left].
  assert (Ha : decimal a) by (intros x Hx; apply Hd; apply in_app_iff; now left).
  assert (Hb : decimal b) by (intros x Hx; apply Hd; apply in_app_iff; right; now right).
  assert (Hcc : (48 <= c <= 57)%N) by (apply Hd; apply in_app_iff; right; now left).
  pose proof (value_nonneg a Ha 0 ltac:(lia)) as H1.
  assert (G : forall l z, decimal l -> (0 < z)%Z -> (0 < fold_left (fun a c => 10 * a + (Z.of_N c - 48)) l z)%Z).
  { induction l as [|x l IH]; intros z Hl Hz; [exact Hz|]. cbn [fold_left]. apply IH; [intros y Hy; apply Hl; now right|].
    pose proof (Hl x ltac:(now left)). lia. }
  apply G; [exact Hb|]. lia.
Qed.

(** Unless MemoryFileUploadHandler is among the handlers, the length announced for a multipart request is not used
    either: it only has to be there and must not be zero.  A body that is shorter or longer is not noticed. *)
Theorem C111_multipart_length_unused_refuted :
  forall reg n2 mk st s s' r r' w w' v v',
    request_init reg st s = Ok r -> request_init reg st s' = Ok r' -> delivers s w -> delivers s' w' -> max_ok (s_hdr st) ->
    w_line w = w_line w' -> w_body w = w_body w' -> ~ In KMem (s_handlers st) ->
    agree_on [!"Host"; !"Content-Type"] w w' ->
    RequestSpec.last_value !"Content-Length" w v -> positive_number v ->
    RequestSpec.last_value !"Content-Length" w' v' -> positive_number v' ->
    same_outcome same_results (parse reg n2 mk (st, r)) (parse reg n2 mk (st, r')).
Proof.
  intros reg n2 mk st s s' r r' w w' v v' Hi Hi' Hw Hw' Hm HL HB HK HA HV HP HV' HP'.
  set (H := fun h h' : headers => header !"Content-Type" h = header !"Content-Type" h' /\
                                  header !"Content-Length" h = Some v /\ header !"Content-Length" h' = Some v').
  apply (same_heads_rel same_results H true reg n2 mk st s s' r r' w w' Hi Hi' Hw Hw' Hm HL HB).
  - intros mu l d d' _ _ Hd Hd' Hc.
    assert (H1 : header !"Host" d = header !"Host" d') by (eapply header_agree; [|exact HA|apply Hd|apply Hd']; cbn; auto).
    assert (H2 : header !"Content-Type" d = header !"Content-Type" d') by (eapply header_agree; [|exact HA|apply Hd|apply Hd']; cbn; auto).
    assert (H3 : header !"Content-Length" d = Some v) by (now apply (header_last _ d w (Hd _))).
    assert (H4 : header !"Content-Length" d' = Some v') by (now apply (header_last _ d' w' (Hd' _))).
    unfold heads_like. unfold pick_host in *. destruct (nonempty (rl_domain l)).
    + split; [reflexivity|]. split; [exact (conj H2 (conj H3 H4))|]. split; [unfold ctype_of; now rewrite H2|]. intros Hmu c ch. exact (Hc Hmu _ _ c ch eq_refl).
    + rewrite <- H1. destruct (header !"Host" d) as [x|]; [|reflexivity]. split; [reflexivity|]. split; [|split].
      * unfold H. rewrite !header_ddel by discriminate. exact (conj H2 (conj H3 H4)).
      * unfold ctype_of. rewrite !header_ddel by discriminate. now rewrite H2.
      * intros Hmu c ch. exact (Hc Hmu _ _ c ch eq_refl).
  - intros _ h h' (E1 & E2 & E3). rewrite <- E1, E2, E3. destruct (positive_value v HP) as (z & Ez & Pz), (positive_value v' HP') as (z' & Ez' & Pz').
    unfold mp_init. destruct (negb _); [reflexivity|]. destruct (negb _); [reflexivity|].
    destruct (parse_header reg _) as [p|e]; [|reflexivity]. cbn [bind].
    match goal with |- like_init _ (let* b := ?x in _) _ => destruct x as [b|e]; [|reflexivity] end. cbn [bind]. rewrite Ez, Ez'.
    replace (Z.ltb z 0) with false by lia. replace (Z.ltb z' 0) with false by lia. cbn [like_init].
    split; [reflexivity|]. right. split; [lia|]. split; [lia|exact HK].
  - easy.
  - intros mu k r1 r2. apply twin_results.
Qed.
Print Assumptions C111_multipart_length_unused_refuted.

Definition ex111_fields (v : str) : list (str * str) :=
  [(!"Host", !"b"); (!"Content-Type", !"multipart/form-data; boundary=X"); (!"Content-Length", v)].
Definition ex111_body : str :=
  !"--X" ++ crlf ++ !"Content-Disposition: form-data; name=a" ++ crlf ++ crlf ++ !"v" ++ crlf ++ !"--X--" ++ crlf.
Example C111_multipart_case :
  delivers (ex110 (ex111_fields !"1") ex111_body) (wire110 (ex111_fields !"1") ex111_body) /\
  delivers (ex110 (ex111_fields !"99999") ex111_body) (wire110 (ex111_fields !"99999") ex111_body) /\
  positive_number !"1" /\ positive_number !"99999" /\ ~ In KMem (s_handlers ex_set) /\
  (let '(x, (st, r)) := run (parse ex_reg no_cp ok_temp) ex_set (ex110 (ex111_fields !"1") ex111_body) in
   x = Ok tt /\ option_map (fun p => match p with PQuery q => [] | PForm d => map fst d end) (r_post r) = Some [!"a"]).
Proof.
  split; [apply delivers_msg; reflexivity || discriminate|]. split; [apply delivers_msg; reflexivity || discriminate|].
  split; [split; [now apply decimal_iff|exists 49%N; split; [now left|discriminate]]|].
  split; [split; [now apply decimal_iff|exists 57%N; split; [now left|discriminate]]|].
  split; [intros [|[]]; discriminate|]. vm_compute. repeat split.
Qed.

(** ** C14: a header whose name is written in other letters *)
(** For every request: 'host', 'CONTENT-TYPE', 'content-length' and all other spellings but one are headers without a meaning;
    the request is parsed as if they were not there. *)
Theorem C14_recased_refuted :
  forall reg n2 mk st s s' r r' w w' pre post n v,
    request_init reg st s = Ok r -> request_init reg st s' = Ok r' -> delivers s w -> delivers s' w' -> max_ok (s_hdr st) ->
    w_line w' = w_line w -> w_body w' = w_body w -> w_fields w = pre ++ post -> w_fields w' = pre ++ (n, v) :: post ->
    In (lower n) [!"host"; !"content-type"; !"content-length"] -> ~ In n [!"Host"; !"Content-Type"; !"Content-Length"] ->
    same_outcome same_results (parse reg n2 mk (st, r)) (parse reg n2 mk (st, r')).
Proof.
  intros reg n2 mk st s s' r r' w w' pre post n v Hi Hi' Hw Hw' Hm HL HB HF HF' _ Hn.
  eapply C110_only_three_headers_matter; try eassumption; try (symmetry; assumption).
  intros m x Hin. unfold RequestSpec.last_value. rewrite HF, HF'.
  assert (Hne : seqb m n = false) by (destruct (seqb m n) eqn:Q; [|reflexivity]; apply seqb_eq in Q; subst m; contradiction).
  assert (E : values_named m (pre ++ (n, v) :: post) = values_named m (pre ++ post)).
  { clear HF HF'. induction pre as [|[a b] pre IH]; cbn [values_named app]; [now rewrite Hne|]. destruct (seqb m a); now rewrite IH. }
  rewrite E. reflexivity.
Qed.
Print Assumptions C14_recased_refuted.
Example C14_recased_all_case :
  let fs := [(!"Host", !"a"); (!"Content-type", !"text/plain")] in
  delivers (ex110 fs !"x") (wire110 fs !"x") /\ In (lower !"Content-type") [!"host"; !"content-type"; !"content-length"] /\
  ~ In !"Content-type" [!"Host"; !"Content-Type"; !"Content-Length"] /\
  (let '(x, (st, r)) := run (parse ex_reg no_cp ok_temp) ex_set (ex110 fs !"x") in x = Ok tt /\ a_ctype (r_attrs r) = Some None).
Proof.
  split; [apply delivers_msg; reflexivity || discriminate|]. split; [right; now left|].
  split; [intros [E|[E|[E|[]]]]; discriminate E|]. vm_compute. now split.
Qed.
