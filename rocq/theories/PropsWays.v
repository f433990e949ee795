(** * C124: a form gives the same data however it is encoded *)
From Coq Require Import ZifyBool ZifyN ZifyNat.
From Verif Require Import Py Spec HeadSpec PyFacts PyDict StreamModel StreamFacts CodecModel CodecFacts Base64Model PercentModel
  QueryModel QuerySpec QueryFacts HeadModel HeadFacts HeaderModel HeaderSpec HeaderFacts UploadModel MultipartModel FormSpec FormFacts
  RequestModel RequestSpec BodyRun HeaderRun ParseRun PropsData PropsPart PropsMultipart PropsRequest PropsBody PropsEnd.

(** ** How a form is written in application/x-www-form-urlencoded *)
(** [form_written e b]: [e] stands for the bytes [b]; a byte is written as itself or as %XY, a blank also as '+' *)
Inductive form_written : str -> str -> Prop :=
| fw_nil : form_written [] []
| fw_plain c s t : (c < 128)%N -> ~ In c !"%+&;=" -> form_written s t -> form_written (c :: s) (c :: t)
| fw_blank s t : form_written s t -> form_written (43%N :: s) (32%N :: t)
| fw_hex a b x y s t : hex_value a x -> hex_value b y -> form_written s t ->
    form_written (37%N :: a :: b :: s) (N.of_nat (x * 16 + y) :: t).
Definition url_field (u : str * str) : str := let (n, v) := u in n ++ !"=" ++ v.
Definition url_body (us : list (str * str)) : str := join !"&" (map url_field us).
(** the same form, written in both ways: pairs of written names and values, and the parts of a multipart body *)
Definition same_form (us : list (str * str)) (fs : list part) : Prop :=
  Forall2 (fun u p => pt_file p = None /\ form_written (fst u) (pt_name p) /\ form_written (snd u) (pt_data p)) us fs.

(** ** Proof *)
Lemma hex_ascii a x : hex_value a x -> (a < 128)%N /\ is_alnum a = true.
Proof. intros [H|H]; apply nth_error_In in H; cbn in H; repeat (destruct H as [<-|H]; [now split|]); easy. Qed.
Lemma written_chars e b : form_written e b -> ascii_only e = true /\ ~ In 38%N e /\ ~ In 59%N e /\ ~ In 61%N e.
Proof.
  induction 1 as [|c s t H1 H2 _ (I1 & I2 & I3 & I4)|s t _ (I1 & I2 & I3 & I4)|a b x y s t Ha Hb _ (I1 & I2 & I3 & I4)].
  - repeat split; intros [].
  - split; [unfold ascii_only in *; cbn [forallb]; rewrite I1; unfold is_ascii; lia|].
    repeat split; intros [->|Hin]; try easy; apply H2; cbn; tauto.
  - split; [exact I1|]. repeat split; intros [H|Hin]; easy.
  - apply hex_ascii in Ha as [Ha Ha'], Hb as [Hb Hb'].
    split; [unfold ascii_only in *; cbn [forallb]; rewrite I1; unfold is_ascii; lia|].
    repeat split; intros [H|[H|[H|Hin]]]; subst; easy.
Qed.
Lemma written_bytes e b : form_written e b -> unquote_to_bytes (replacec plus 32%N e) = b.
Proof.
  intros H. symmetry. apply pct_decodes_unquote.
  induction H as [|c s t H1 H2 _ IH|s t _ IH|a b x y s t Ha Hb _ IH]; unfold replacec in *; cbn [map].
  - constructor.
  - assert (c <> plus) by (intros ->; apply H2; cbn; tauto). destruct (N.eqb_spec c plus); [easy|].
    apply pct_plain; [|exact IH]. intros ->. elim H2. cbn. tauto.
  - change (N.eqb 43 plus) with true. cbn iota. now apply pct_plain.
  - change (N.eqb 37 plus) with false. cbn iota.
    assert (N.eqb a plus = false /\ N.eqb b plus = false) as [-> ->].
    { apply hex_ascii in Ha as [_ Ha], Hb as [_ Hb]. split; apply N.eqb_neq; intros ->; discriminate. }
    now apply pct_hex.
Qed.
Lemma replacec_is_ascii s : ascii_only s = true -> ascii_only (replacec plus 32%N s) = true.
Proof.
  intros Hs. apply forallb_forall. intros x Hx. apply in_map_iff in Hx as (y & <- & Hy).
  destruct (N.eqb y plus); [easy|]. unfold ascii_only in Hs. rewrite forallb_forall in Hs. now apply Hs.
Qed.
Lemma written_unquote reg enc c e b : reg enc = Some c -> codec_ok c -> form_written e b ->
  unquote reg enc (replacec plus 32%N e) = Ok (c_rep c b).
Proof.
  intros Hr Hc H. destruct (written_chars e b H) as (Ha & _). rewrite (unquote_ascii reg enc c) by (try easy; now apply replacec_is_ascii).
  now rewrite (written_bytes e b H).
Qed.
Lemma written_field reg enc c u nb vb : reg enc = Some c -> codec_ok c -> form_written (fst u) nb -> form_written (snd u) vb ->
  no_separator (url_field u) /\ ascii_only (url_field u) = true /\
  field_res reg enc (qsl_field true (url_field u)) = Ok [(c_rep c nb, c_rep c vb)].
Proof.
  destruct u as [n v]. unfold url_field. cbn [fst snd]. intros Hr Hc Hn Hv. destruct (written_chars n nb Hn) as (N1 & N2 & N3 & N4). destruct (written_chars v vb Hv) as (V1 & V2 & V3 & V4).
  split; [|split].
  - intros x Hx [->| ->]; rewrite !in_app_iff in Hx; destruct Hx as [Hx|[[Hx|[]]|Hx]]; easy.
  - rewrite !ascii_only_app, N1, V1. reflexivity.
  - change (n ++ !"=" ++ v) with (n ++ equal :: v). rewrite qsl_field_value by easy. rewrite orb_true_r. cbn [field_res].
    rewrite (written_unquote reg enc c n nb Hr Hc Hn), (written_unquote reg enc c v vb Hr Hc Hv). reflexivity.
Qed.
Lemma ascii_only_join es : Forall (fun e => ascii_only e = true) es -> ascii_only (join !"&" es) = true.
Proof.
  induction 1 as [|e es He HF IH]; [easy|]. destruct es as [|e' es]; [easy|]. rewrite join_cons. rewrite !ascii_only_app, He, IH. easy.
Qed.
Definition written_pair (u b : str * str) : Prop := form_written (fst u) (fst b) /\ form_written (snd u) (snd b).
Lemma written_loop reg enc c us bs : reg enc = Some c -> codec_ok c -> Forall2 written_pair us bs ->
  let es := map url_field us in
  Forall no_separator es /\ Forall (fun e => ascii_only e = true) es /\
  qsl_loop reg enc true es = Ok (map (fun b => (c_rep c (fst b), c_rep c (snd b))) bs).
Proof.
  intros Hr Hc. cbv zeta. induction 1 as [|u b us bs [Hn Hv] HF (I1 & I2 & I3)]; cbn [map]; [repeat constructor|].
  destruct (written_field reg enc c u _ _ Hr Hc Hn Hv) as (F1 & F2 & F3).
  split; [now constructor|]. split; [now constructor|]. rewrite qsl_loop_cons, F3. cbn [bind]. rewrite I3. reflexivity.
Qed.
Lemma written_querydict reg st c us bs mut : reg (qs_charset st) = Some c -> codec_ok c -> Forall2 written_pair us bs -> us <> [] ->
  match qs_limit st with Some z => (z = 0 \/ Z.of_nat (length us) <= z)%Z | None => True end ->
  decode reg (qs_charset st) (url_body us) = Ok (url_body us) /\
  exists q, querydict reg (Some st) (Some (PB (url_body us))) mut = Ok q /\ q_mut q = mut /\
    forall k, q_list k q = map (fun b => PU (c_rep c (snd b))) (filter (fun b => seqb (c_rep c (fst b)) k) bs).
Proof.
  intros Hr Hc HF Hne Hlim. destruct (written_loop reg _ c us bs Hr Hc HF) as (H1 & H2 & H3). cbv zeta in H1, H2, H3.
  pose proof (ascii_only_join _ H2) as HA. fold (url_body us) in HA.
  assert (HD : decode reg (qs_charset st) (url_body us) = Ok (url_body us)).
  { unfold decode. rewrite Hr. now rewrite (cok_dec_ascii c Hc). }
  split; [exact HD|].
  assert (Hes : map url_field us <> []) by (destruct us; easy).
  assert (HP : limited_parse_qsl reg (url_body us) true (qs_charset st) (qs_limit st)
    = Ok (map (fun b => (c_rep c (fst b), c_rep c (snd b))) bs)).
  { unfold limited_parse_qsl. rewrite qsl_pairs_spec.
    assert (HS : S (separators (url_body us)) = length us) by (unfold url_body; change !"&" with [amp]; rewrite separators_join by easy; apply map_length).
    assert (HX : fields_split None (url_body us) = map url_field us) by now apply fields_split_join.
    destruct (qs_limit st) as [z|]; [|cbn [bind]; rewrite HX; exact H3].
    destruct (Z.eqb_spec z 0); [cbn [bind]; rewrite HX; exact H3|]. destruct (Z.leb_spec z (Z.of_nat (separators (url_body us)))); [lia|].
    cbn [bind]. rewrite HX. exact H3. }
  assert (HT : query_text reg (qs_charset st) (if pnonempty (PB (url_body us)) then PB (url_body us) else PB []) = Ok (url_body us)).
  { unfold query_text. destruct (pnonempty (PB (url_body us))) eqn:E; [now rewrite HD|].
    destruct (url_body us); [|easy]. unfold decode. rewrite Hr. now rewrite (cok_dec_ascii c Hc). }
  pose proof (querydict_spec reg st c (url_body us) (Some (PB (url_body us))) mut Hr Hc HT) as HQ. cbv iota in HQ. rewrite HP in HQ.
  destruct HQ as (q & E1 & E2 & _ & E3 & _). exists q. split; [exact E1|]. split; [exact E2|].
  intros k. rewrite E3. unfold QueryFacts.values_of. clear. induction bs as [|b bs IH]; [reflexivity|]. cbn [map filter fst].
  destruct (seqb (c_rep c (fst b)) k); cbn [map snd]; now rewrite IH.
Qed.

Lemma same_pairs us fs : same_form us fs -> Forall2 written_pair us (map (fun p => (pt_name p, pt_data p)) fs).
Proof. induction 1 as [|u p us fs (_ & H1 & H2) HF IH]; cbn [map]; constructor; easy. Qed.
Lemma same_fields us fs : same_form us fs -> length us = length fs /\ field_count fs = length fs /\ forall k, files_named k fs = [].
Proof.
  induction 1 as [|u p us fs (H & _) HF (I1 & I2 & I3)]; [now repeat split|]. unfold field_count, is_field, files_named in *. cbn [length filter].
  rewrite H. cbn [length]. rewrite I1, I2. now repeat split.
Qed.
Lemma seqb_comm a b : seqb a b = seqb b a.
Proof.
  destruct (seqb a b) eqn:E; [apply seqb_eq in E; subst; symmetry; now apply seqb_eq|].
  destruct (seqb b a) eqn:E'; [|easy]. apply seqb_eq in E'. subst. now rewrite seqb_refl in E.
Qed.
Lemma ascii_rep c s : codec_ok c -> ascii_only s = true -> c_rep c s = s.
Proof. intros Hc Hs. apply (cok_rep c Hc). now apply (cok_dec_ascii c Hc). Qed.

(** one form, two requests with the same settings: [wu] carries it urlencoded, [wm] as multipart/form-data *)
Record two_requests (reg : registry) (mk : str -> res unit) (st : sett) (c : codec) (us : list (str * str)) (fs : list part)
    (ru : request) (stu : sett) (rm : request) (stm : sett) : Prop := {
  tw_fields : same_form us fs /\ fs <> [];
  tw_url : exists s w r1, request_init reg st s = Ok ru /\ delivers s w /\ parse_request_header reg (st, ru) = (Ok tt, (stu, r1)) /\
    a_ctype (r_attrs r1) = Some (Some !"application/x-www-form-urlencoded") /\ w_body w = url_body us;
  tw_codec : reg (s_charset stu) = Some c /\ codec_ok c;
  tw_multi : exists s w r1 ps b clen z, request_init reg st s = Ok rm /\ delivers s w /\ parse_request_header reg (st, rm) = (Ok tt, (stm, r1)) /\
    multipart_wire w ps b clen z /\ (0 < z)%Z /\ w_body w = render_form (!"--" ++ b) fs /\ Forall (part_ok (!"--" ++ b)) fs;
  tw_settings : max_ok (s_hdr st) /\ s_handlers st = [KConv] /\ (exists m, settings_ok reg (s_multi stm) m) /\ can_create mk;
  tw_limits : (exists d, s_dmem st = Some d /\ (Z.of_nat (length (url_body us)) <= d)%Z) /\
    match s_dnum st with Some n => (Z.of_nat (length fs) <= n)%Z | None => True end /\ within (s_multi stm) fs }.

(** *** Both requests are accepted; the values of the one are the values of the other, decoded.
    The values of the multipart form stay bytes, those of the urlencoded one are text *)
Theorem C124_both_ways_partial :
  forall reg n2 mk st c us fs ru stu rm stm, two_requests reg mk st c us fs ru stu rm stm ->
    exists ru2 q rm2 post files,
      parse reg n2 mk (st, ru) = (Ok tt, (stu, ru2)) /\ r_post ru2 = Some (PQuery q) /\ r_files ru2 = Some [] /\
      parse reg n2 mk (st, rm) = (Ok tt, (stm, rm2)) /\ r_post rm2 = Some (PForm post) /\ r_files rm2 = Some files /\
      (forall k, getl k files = []) /\
      forall k, map en_data (getl k post) = map pt_data (fields_named k fs) /\
                q_list k q = map (fun v => PU (c_rep c v)) (map en_data (getl k post)).
Proof.
  intros reg n2 mk st c us fs ru stu rm stm [[HS Hne] (su & wu & ru1 & Hiu & Hdu & HPu & Hcu & Hbu) [Hr Hc]
    (sm & wm & rm1 & ps & b & clen & z & Him & Hdm & HPm & HW & Hz & Hbm & Hok) (Hm & Hh & [m Hset] & Hmk) ((d & Hd & Hfit) & Hnum & Hwin)].
  destruct (same_fields us fs HS) as (HL & HFC & HNF).
  destruct (C79_multipart_request reg n2 mk st sm rm wm stm rm1 ps b clen z m d fs Him Hdm Hm HPm HW Hz Hh Hset Hd ltac:(lia) Hmk Hbm Hok Hwin)
    as (rm2 & post & files & Em & Emp & Emf & HE & HFi).
  assert (Hus : us <> []) by (destruct us; [destruct fs; easy|easy]).
  destruct (written_querydict reg (mkQS (s_charset stu) (s_dnum st)) c us _ false Hr Hc (same_pairs us fs HS) Hus) as (HD & q & Eq & _ & Hq).
  { cbn [qs_limit]. destruct (s_dnum st); [right|easy]. rewrite HL. exact Hnum. }
  cbn [qs_charset] in HD.
  assert (Hb : w_body wu <> []).
  { rewrite Hbu. destruct us as [|[n v] us]; [easy|]. unfold url_body. cbn [map url_field]. destruct us as [|u us]; cbn [map join]; [now destruct n|].
    intros E. apply app_eq_nil in E as [E _]. now destruct n. }
  rewrite <- Hbu in Eq, HD.
  destruct (C53_urlencoded_partial reg n2 mk st su ru wu stu ru1 q (w_body wu) Hiu Hdu Hm HPu Hcu Hb) as (ru2 & Eu & Eup & Euf & _).
  { unfold fits. rewrite Hd, Hbu. exact Hfit. }
  { exact Eq. } { rewrite HD. now rewrite Hbu. }
  exists ru2, q, rm2, post, files. do 6 (split; [easy|]). split.
  - intros k. specialize (HFi k). rewrite HNF in HFi. now inversion HFi.
  - intros k. specialize (HE k). specialize (Hq k).
    assert (HX : map en_data (getl k post) = map pt_data (fields_named k fs)).
    { clear -HE. induction HE as [|e p es qs (H & _) HF IH]; [reflexivity|]. cbn [map]. now rewrite H, IH. }
    split; [exact HX|]. rewrite HX, Hq.
    assert (HA : Forall (fun p => pt_file p = None /\ ascii_only (pt_name p) = true) fs).
    { clear -HS Hok. induction HS as [|u p us fs (H & _) HF IH]; [constructor|]. inversion Hok as [|? ? Hp Hok']; subst. constructor; [|now apply IH].
      split; [exact H|]. destruct Hp as (_ & Hp & _). rewrite H in Hp. apply Hp. }
    clear -HA Hc. induction HA as [|p fs [H1 H2] HF IH]; [reflexivity|]. unfold fields_named in *. cbn [map filter fst].
    rewrite H1, (ascii_rep c _ Hc H2), (seqb_comm k). destruct (seqb (pt_name p) k); cbn [map snd]; now rewrite IH.
Qed.
Print Assumptions C124_both_ways_partial.

(** for values in ASCII the data are the same *)
Theorem C124_ascii_partial :
  forall reg n2 mk st c us fs ru stu rm stm, two_requests reg mk st c us fs ru stu rm stm ->
    Forall (fun p => ascii_only (pt_data p) = true) fs ->
    exists ru2 q rm2 post,
      parse reg n2 mk (st, ru) = (Ok tt, (stu, ru2)) /\ r_post ru2 = Some (PQuery q) /\
      parse reg n2 mk (st, rm) = (Ok tt, (stm, rm2)) /\ r_post rm2 = Some (PForm post) /\
      forall k, map pchars (q_list k q) = map en_data (getl k post).
Proof.
  intros reg n2 mk st c us fs ru stu rm stm H HA.
  destruct (C124_both_ways_partial reg n2 mk st c us fs ru stu rm stm H) as (ru2 & q & rm2 & post & files & E1 & E2 & _ & E3 & E4 & _ & _ & E5).
  exists ru2, q, rm2, post. do 4 (split; [easy|]). intros k. destruct (E5 k) as [H1 H2]. rewrite H2, map_map. cbn [pchars].
  rewrite H1. rewrite map_map. apply map_ext_in. intros p Hp. unfold fields_named in Hp. apply filter_In in Hp as [Hp _].
  rewrite Forall_forall in HA. apply ascii_rep; [apply (tw_codec _ _ _ _ _ _ _ _ _ _ H)|now apply HA].
Qed.
Print Assumptions C124_ascii_partial.

(** *** but not for other values: whenever the bytes of a value are not the text they stand for, the two differ *)
Theorem C124_nonascii_refuted :
  forall reg n2 mk st c us fs ru stu rm stm p, two_requests reg mk st c us fs ru stu rm stm ->
    In p fs -> c_rep c (pt_data p) <> pt_data p ->
    exists ru2 q rm2 post,
      parse reg n2 mk (st, ru) = (Ok tt, (stu, ru2)) /\ r_post ru2 = Some (PQuery q) /\
      parse reg n2 mk (st, rm) = (Ok tt, (stm, rm2)) /\ r_post rm2 = Some (PForm post) /\
      map pchars (q_list (pt_name p) q) <> map en_data (getl (pt_name p) post).
Proof.
  intros reg n2 mk st c us fs ru stu rm stm p H Hp Hd.
  destruct (C124_both_ways_partial reg n2 mk st c us fs ru stu rm stm H) as (ru2 & q & rm2 & post & files & E1 & E2 & _ & E3 & E4 & _ & _ & E5).
  exists ru2, q, rm2, post. do 4 (split; [easy|]). destruct (E5 (pt_name p)) as [H1 H2]. rewrite H2, H1, !map_map. cbn [pchars].
  assert (Hf : In p (fields_named (pt_name p) fs)).
  { apply filter_In. split; [exact Hp|]. destruct H as [[HS _] _ _ _ _ _]. clear -HS Hp.
    induction HS as [|u p' us fs (H & _) HF IH]; [easy|]. destruct Hp as [->|Hp]; [rewrite H; apply seqb_refl|now apply IH]. }
  clear -Hf Hd. induction (fields_named (pt_name p) fs) as [|x l IH]; [easy|]. cbn [map]. intros [= E F].
  destruct Hf as [->|Hf]; [now apply Hd|]. now apply IH.
Qed.
Print Assumptions C124_nonascii_refuted.

(** an example: a name with a blank, a value with an ampersand and e-acute *)
Definition ex_us : list (str * str) := [(!"a+b", !"x%26%c3%A9"); (!"c", []); (!"a%20b", !"2")].
Definition ex_fs : list part :=
  [mkPart !"a b" None None false (!"x&" ++ [195; 169]%N) (!"x&" ++ [195; 169]%N); mkPart !"c" None None false [] [];
   mkPart !"a b" None None false !"2" !"2"].
Definition exu_fields : list (str * str) := [(!"Host", !"a"); (!"Content-Type", !"application/x-www-form-urlencoded")].
Definition exu_src : src := req (ex_line :: map field exu_fields) (url_body ex_us).
Definition exu_wire : wire := mkWire ex_line (map field exu_fields) exu_fields (url_body ex_us).
Definition exv_src : src := req (ex_line :: map field exm_fields') (render_form !"--X" ex_fs).
Definition exv_wire : wire := mkWire ex_line (map field exm_fields') exm_fields' (render_form !"--X" ex_fs).
Definition ex_st : sett := exm_set (Some 1000%Z).
Lemma ex_same : same_form ex_us ex_fs.
Proof.
  assert (HP : forall c s t, (c <? 128)%N && negb (mem c !"%+&;=") = true -> form_written s t -> form_written (c :: s) (c :: t)).
  { intros c s t [H1 H2]%andb_true_iff H. apply fw_plain; [lia| |exact H]. intros Hin. apply mem_In in Hin. now rewrite Hin in H2. }
  repeat apply Forall2_cons; try apply Forall2_nil; (split; [reflexivity|split]); cbn [fst snd pt_name pt_data].
  - apply HP; [reflexivity|]. apply fw_blank. apply HP; [reflexivity|]. apply fw_nil.
  - apply HP; [reflexivity|]. apply (fw_hex 50 54 2 6)%N; [now left|now left|]. apply (fw_hex 99 51 12 3)%N; [now right|now left|].
    apply (fw_hex 65 57 10 9)%N; [now left|now left|]. apply fw_nil.
  - apply HP; [reflexivity|]. apply fw_nil.
  - apply fw_nil.
  - apply HP; [reflexivity|]. apply (fw_hex 50 48 2 0)%N; [now left|now left|]. apply HP; [reflexivity|]. apply fw_nil.
  - apply HP; [reflexivity|]. apply fw_nil.
Qed.
Lemma ex_fs_ok : Forall (part_ok !"--X") ex_fs.
Proof.
  assert (HO : forall p, find !"--X" (render_part p) = None -> ~ occurs !"--X" (render_part p)) by (intros p; apply find_None).
  repeat constructor; try (now apply HO); quot.
Qed.
Lemma wire_fields w w' ps b clen z : w_fields w = w_fields w' -> multipart_wire w ps b clen z -> multipart_wire w' ps b clen z.
Proof. unfold multipart_wire, RequestSpec.last_value. intros <-. exact (fun H => H). Qed.
Example C124_case :
  two_requests ex_reg ok_temp ex_st (utf8 (fun s => s)) ex_us ex_fs (ex_req ex_st exu_src) (fst (ex_ready ex_st exu_src))
    (ex_req ex_st exv_src) (fst (ex_ready ex_st exv_src)) /\
  url_body ex_us = !"a+b=x%26%c3%A9&c=&a%20b=2".
Proof.
  split; [|reflexivity].
  assert (Hm : s_multi (fst (ex_ready ex_st exv_src)) = mkMS !"utf-8" (Some 100%Z) (Some 1000%Z) (Some 10%Z)) by (vm_compute; reflexivity).
  split.
  - split; [apply ex_same|discriminate].
  - exists exu_src, exu_wire, (snd (ex_ready ex_st exu_src)). split; [apply ex_req_ok; vm_compute; reflexivity|].
    split; [apply delivers_msg; reflexivity || discriminate|]. split; [apply ex_ready_ok; vm_compute; reflexivity|]. split; [vm_compute; reflexivity|reflexivity].
  - assert (Hc : s_charset (fst (ex_ready ex_st exu_src)) = !"utf-8") by (vm_compute; reflexivity). rewrite Hc. split; [reflexivity|apply utf8_ok].
  - exists exv_src, exv_wire, (snd (ex_ready ex_st exv_src)), exm_params, !"X", !"0400", 400%Z. split; [apply ex_req_ok; vm_compute; reflexivity|].
    split; [apply delivers_msg; reflexivity || discriminate|]. split; [apply ex_ready_ok; vm_compute; reflexivity|].
    split; [|split; [lia|split; [reflexivity|apply ex_fs_ok]]].
    apply (wire_fields exm_wire); [reflexivity|].
    destruct (exm_in (Some 1000%Z) (or_introl eq_refl)) as (? & ? & ? & _ & _ & _ & _ & HW). exact HW.
  - rewrite Hm. split; [discriminate|]. split; [reflexivity|]. split; [exists 100%Z; apply exm_settings|]. intros s. now exists tt.
  - rewrite Hm. split; [exists 1000%Z; split; [reflexivity|vm_compute; discriminate]|]. split; [vm_compute; discriminate|]. split; vm_compute; discriminate.
Qed.
