(** * C143: absolute-form and origin-form requests *)
From Coq Require Import ZifyBool ZifyN ZifyNat.
From Verif Require Import Py Spec HeadSpec PyFacts PyDict StreamModel StreamSpec StreamFacts StreamCalm CodecModel PercentModel
  QueryModel HeadModel HeadFacts UrlFacts HeaderModel BoundaryModel UploadModel MultipartModel ReaderSim
  RequestModel RequestSpec HeaderRun BodyRun ParseRun RequestRel RequestMulti TwinFacts DateSpec PropsDate PropsHead PropsPart PropsRequest PropsBody PropsEnd PropsSame PropsOrder PropsLine.

(** ** C143.  "M http://host/path?query V" with any Host headers or none, and "M /path?query V" with "Host: host", are parsed alike.  The scheme is
    another one, and with it the port if none is written. *)
Definition same_but_scheme (r r' : request) : Prop :=
  same_body r r' /\ r_get r = r_get r' /\ option_map m_query (r_meta r) = option_map m_query (r_meta r') /\
  a_method (r_attrs r) = a_method (r_attrs r') /\ a_host (r_attrs r) = a_host (r_attrs r') /\ a_path (r_attrs r) = a_path (r_attrs r') /\
  a_proto (r_attrs r) = a_proto (r_attrs r') /\
  (forall p, a_port (r_attrs r) = Some (Some (PortStr p)) <-> a_port (r_attrs r') = Some (Some (PortStr p))).
(** the path with the query, as it is written in a request *)
Definition origin_form (u : parse_result) : str := up_path u ++ with_delim !"?" (up_query u) ++ with_delim !"#" (up_fragment u).

Lemma header_still h d n w : n <> !"Host" -> (forall n, dget n d = match values_named n (w_fields w) with [] => None | vs => Some vs end) ->
  h = d \/ h = ddel !"Host" d -> dget n h = match values_named n (w_fields w) with [] => None | vs => Some vs end.
Proof. intros Hn Hd [->| ->]; [apply Hd|]. rewrite <- Hd. now apply ddel_get_other. Qed.
Lemma line_ok w m url v u : request_line w m url v -> target url u -> exists l, parse_request_line (w_line w) = Ok l.
Proof.
  intros (Hl & H1 & H2 & H3) HT. pose proof (C11_method_and_version_verbatim m url v H1 H2 H3) as HL.
  rewrite (target_parse _ _ HT), <- Hl in HL. destruct (parse_request_line (w_line w)) as [l|e]; [now exists l|discriminate HL].
Qed.
Lemma port_spelled p sc sc' x : Some (Some (pick_port p sc)) = Some (Some (PortStr x)) <-> Some (Some (pick_port p sc')) = Some (Some (PortStr x)).
Proof.
  unfold pick_port. destruct (nonempty p); [reflexivity|]. split; intros E; exfalso; revert E.
  - destruct (seqb (lower sc) _); [discriminate|]. destruct (seqb (lower sc) _); discriminate.
  - destruct (seqb (lower sc') _); [discriminate|]. destruct (seqb (lower sc') _); discriminate.
Qed.
Theorem C143_absolute_and_origin_form :
  forall reg n2 mk st s s' r r' w w' m v u,
    request_init reg st s = Ok r -> request_init reg st s' = Ok r' -> delivers s w -> delivers s' w' -> max_ok (s_hdr st) ->
    request_line w m (compose u) v -> request_line w' m (origin_form u) v ->
    target (compose u) u -> target (origin_form u) (mkParse [] [] (up_path u) [] (up_query u) (up_fragment u)) ->
    up_netloc u <> [] -> RequestSpec.last_value !"Host" w' (up_netloc u) ->
    w_body w = w_body w' -> agree_on [!"Content-Type"; !"Content-Length"] w w' ->
    same_outcome same_but_scheme (parse reg n2 mk (st, r)) (parse reg n2 mk (st, r')).
Proof.
  intros reg n2 mk st s s' r r' w w' m v u Hi Hi' Hd Hd' Hm HL HL' HT HT' HN HH HB HA.
  destruct (parse_wire reg st s r w Hi Hd Hm) as (q & s1 & d & Er & Hs1 & Wd & Hg & HP).
  destruct (parse_wire reg st s' r' w' Hi' Hd' Hm) as (q' & t1 & d' & Er' & Ht1 & Wd' & Hg' & HP').
  assert (q' = q) as ->. { rewrite init_eq in Hi, Hi'. destruct (querydict reg (Some (s_query st)) None true); [|easy].
    apply (f_equal (fun x => match x with Ok r => r_get r | Err _ => None end)) in Hi, Hi'. subst r r'. cbn in Hi, Hi'. congruence. }
  destruct (line_ok _ _ _ _ _ HL HT) as (l & El). destruct (line_ok _ _ _ _ _ HL' HT') as (l' & El').
  destruct (line_parts _ _ _ _ _ _ HL HT El) as (L1 & L2 & L3 & L4 & L5 & L6).
  destruct (line_parts _ _ _ _ _ _ HL' HT' El') as (L1' & L2' & L3' & L4' & L5' & L6'). cbn [up_scheme up_netloc up_path up_query] in *.
  assert (HR : held 3 s1 t1) by (rewrite <- HB in Ht1; now exists (w_body w)).
  assert (EP : pick_host l d = Ok (up_netloc u, d)).
  { unfold pick_host. rewrite L4. now destruct (up_netloc u). }
  assert (EP' : pick_host l' d' = Ok (up_netloc u, ddel !"Host" d')).
  { unfold pick_host. rewrite L4'. cbn [nonempty]. apply (header_last !"Host" d' w' (Hg' _)) in HH. now rewrite HH. }
  assert (HC : ctype_of reg (ddel !"Host" d') = ctype_of reg d).
  { unfold HeaderRun.ctype_of. rewrite header_ddel by discriminate.
    rewrite (header_agree !"Content-Type" d d' w w' [!"Content-Type"; !"Content-Length"] (or_introl eq_refl) HA (Hg _) (Hg' _)). reflexivity. }
  assert (HQ : rl_query l' = rl_query l) by congruence.
  pose proof HP as HX. cbn zeta in HX. rewrite El, populate_eq, EP in HX.
  pose proof HP' as HX'. cbn zeta in HX'. rewrite El', populate_eq, EP', HC, HQ in HX'.
  clear HP HP'. cbn [r_meta set_flags set_stream fresh] in HX, HX'.
  destruct (ctype_of reg d) as [[c ch]|e] eqn:EC.
  2:{ unfold parse, mbind. rewrite HX, HX'. split; [reflexivity|]. split; [reflexivity|]. cbn [snd fst r_stream set_attrs set_flags set_stream].
      split; [|intros ns; now apply (held_reads 3); [lia|]].
      unfold same_but_scheme, same_body. cbn. rewrite L1, L1', L2, L2', L5, L5'. repeat split; apply port_spelled. }
  destruct (query_of reg (charset_after ch st) (rl_query l)) as [g|e] eqn:EQ.
  - pose proof (C142_line_does_not_matter reg n2 mk st s s' r r' w w' _ _ Hi Hi' Hd Hd' Hm HB HA HX HX') as (A1 & A2 & A3 & A4).
    split; [exact A1|]. split; [exact A2|]. split; [|exact A4]. split; [exact A3|].
    unfold parse, mbind. rewrite HX, HX'. clear A1 A2 A3 A4.
    match type of HX with _ = (_, ?W) => pose proof (still_parse_body reg n2 mk W) as S end.
    match type of HX' with _ = (_, ?W) => pose proof (still_parse_body reg n2 mk W) as S' end.
    destruct S as (_ & _ & S1 & S2 & S3); [now destruct ch|]. destruct S' as (_ & _ & S1' & S2' & S3'); [now destruct ch|].
    rewrite S1, S1', S2, S2', S3, S3'. destruct ch; cbn; rewrite L1, L1', L2, L2', L5, L5'; repeat split; apply port_spelled.
  - unfold parse, mbind. rewrite HX, HX'. split; [reflexivity|]. split; [reflexivity|]. cbn [snd fst].
    split; [|intros ns; destruct ch; now apply (held_reads 3); [lia|]].
    unfold same_but_scheme, same_body. destruct ch; cbn; rewrite L1, L1', L2, L2', L5, L5'; repeat split; apply port_spelled.
Qed.
Print Assumptions C143_absolute_and_origin_form.

(** The scheme is never the same, and without a written port the port of the origin form is 65536 *)
Theorem C143_port_refuted :
  forall reg st s s' r r' w w' m v u st1 r1 st1' r1',
    request_init reg st s = Ok r -> request_init reg st s' = Ok r' -> delivers s w -> delivers s' w' -> max_ok (s_hdr st) ->
    request_line w m (compose u) v -> request_line w' m (origin_form u) v ->
    target (compose u) u -> target (origin_form u) (mkParse [] [] (up_path u) [] (up_query u) (up_fragment u)) -> In (up_scheme u) [!"http"; !"https"] ->
    parse_request_header reg (st, r) = (Ok tt, (st1, r1)) -> parse_request_header reg (st, r') = (Ok tt, (st1', r1')) ->
    a_scheme (r_attrs r1) = Some (Some (up_scheme u)) /\ a_scheme (r_attrs r1') = Some (Some !"UNKNOWN") /\
    ((forall p, a_port (r_attrs r1') <> Some (Some (PortStr p))) -> a_port (r_attrs r1') = Some (Some (PortInt 65536))).
Proof.
  intros reg st s s' r r' w w' m v u st1 r1 st1' r1' Hi Hi' Hd Hd' Hm HL HL' HT HT' HS HP HP'.
  pose proof (C77_line_attributes _ _ _ _ _ _ _ _ _ _ _ Hi Hd Hm HL HT HP) as (_ & _ & _ & E & _).
  pose proof (C77_line_attributes _ _ _ _ _ _ _ _ _ _ _ Hi' Hd' Hm HL' HT' HP') as (_ & _ & _ & E' & _). cbn in E'.
  rewrite E, E'. split; [now destruct HS as [<-|[<-|[]]]|]. split; [reflexivity|].
  destruct (header_known _ _ _ _ _ _ _ Hi' Hd' Hm HP') as (l & host & h & c & ch & g & El & Ea & _).
  destruct (line_parts _ _ _ _ _ _ HL' HT' El) as (_ & _ & Es & _). cbn [up_scheme] in Es. rewrite Ea. cbn [line_attrs a_port]. rewrite Es.
  unfold pick_port. destruct (nonempty (snd (split_domain_port host))); [|reflexivity]. intros Hp. exfalso. exact (Hp _ eq_refl).
Qed.
Print Assumptions C143_port_refuted.

Definition u143 : parse_result := mkParse !"http" !"D.org:81" !"/b" [] !"x=1&y=%41" [].
Definition l143 : str := !"PUT http://D.org:81/b?x=1&y=%41 HTTP/1.1".
Definition l143' : str := !"PUT /b?x=1&y=%41 HTTP/1.1".
Definition f143 : list (str * str) := [(!"Content-Type", !"application/x-www-form-urlencoded"); (!"Host", !"elsewhere")].
Definition f143' : list (str * str) := [(!"Host", !"D.org:81"); (!"Content-Type", !"application/x-www-form-urlencoded"); (!"X-One", !"1")].
Example C143_case :
  let w := mkWire l143 (map field f143) f143 !"a=1&b=2" in
  let w' := mkWire l143' (map field f143') f143' !"a=1&b=2" in
  delivers (req (l143 :: map field f143) !"a=1&b=2") w /\ delivers (req (l143' :: map field f143') !"a=1&b=2") w' /\
  request_line w !"PUT" (compose u143) !"HTTP/1.1" /\ request_line w' !"PUT" (origin_form u143) !"HTTP/1.1" /\
  target (compose u143) u143 /\ target (origin_form u143) (mkParse [] [] (up_path u143) [] (up_query u143) (up_fragment u143)) /\
  RequestSpec.last_value !"Host" w' (up_netloc u143) /\ agree_on [!"Content-Type"; !"Content-Length"] w w' /\
  (let '(x, (st, r)) := run (parse ex_reg no_cp ok_temp) ex_set (req (l143 :: map field f143) !"a=1&b=2") in
   x = Ok tt /\ a_host (r_attrs r) = Some (Some !"d.org") /\ a_port (r_attrs r) = Some (Some (PortStr !"81"))) /\
  (let '(x, (st, r)) := run (parse ex_reg no_cp ok_temp) ex_set (req (l143' :: map field f143') !"a=1&b=2") in
   x = Ok tt /\ a_host (r_attrs r) = Some (Some !"d.org") /\ a_port (r_attrs r) = Some (Some (PortStr !"81"))).
Proof.
  cbn zeta. split; [apply delivers_msg; reflexivity || discriminate|]. split; [apply delivers_msg; reflexivity || discriminate|].
  assert (HS : forall c (s : str), existsb (N.eqb c) s = false -> ~ In c s).
  { intros c s E HI. rewrite <- not_true_iff_false in E. apply E. apply existsb_exists. exists c. split; [exact HI|apply N.eqb_refl]. }
  assert (HL : forall w m u v, w_line w = m ++ [32%N] ++ u ++ [32%N] ++ v -> existsb (N.eqb 32) m = false -> existsb (N.eqb 32) u = false -> existsb (N.eqb 32) v = false ->
    request_line w m u v) by (intros; split; [assumption|split; [now apply HS|split; now apply HS]]).
  split; [apply HL; reflexivity|]. split; [apply HL; reflexivity|].
  split.
  { apply target_absolute; [reflexivity|apply ascii_text_iff; reflexivity|]. constructor.
    - split; [discriminate|]. split; [apply scheme_text_iff; reflexivity|reflexivity].
    - intros c H. apply netloc_end_false. cbn in H. repeat (destruct H as [<-|H]; [reflexivity|]). destruct H.
    - reflexivity.
    - right. now eexists.
    - intros c H. cbn in H. repeat (destruct H as [<-|H]; [now split|]). destruct H.
    - intros c [].
    - intros _. left. exists [], !"b". split; [reflexivity|]. split; apply HS; reflexivity.
    - now right.
    - apply HS; reflexivity. }
  split.
  { eapply target_origin; [reflexivity|reflexivity|apply ascii_text_iff; reflexivity|eexists; split; reflexivity| |apply HS; reflexivity].
    intros c H. cbn in H. repeat (destruct H as [<-|H]; [repeat split; discriminate|]). destruct H. }
  split; [now exists []|]. split; [|vm_compute; repeat split]. intros n v [<-|[<-|[]]]; reflexivity.
Qed.
