(** * Theorem C133 for multipart requests: what of the list is left when the input and the disk do not fail *)
From Verif Require Import Py Spec HeadSpec PyFacts PyDict StreamModel StreamSpec StreamFacts StreamCalm CodecModel QueryModel HeadModel HeadFacts HeaderModel
  HeaderFacts UploadModel MultipartModel MultipartSem MultipartFacts MultipartSpec PartFacts MultipartInv HeadLineFacts RequestModel RequestSpec HeaderRun BodyRun ParseRun RequestMulti
  ExnFacts PropsPart PropsMultipart PropsRequest PropsEnd PropsExn.
Local Arguments querydict : simpl never.
Local Arguments decode : simpl never.

(** [mp_init] *)
Lemma mp_init_err reg ct cl e : mp_init reg ct cl = Err e ->
  In e [MultiPartParserError; UnicodeDecodeError; UnicodeEncodeError; LookupError; ValueError; AttributeError].
Proof.
  unfold mp_init. cbv zeta. set (v := match ct with Some v => v | None => [] end). clearbody v.
  destruct (negb (startswith v _)); [intros H; injection H as <-; inl|]. destruct (negb (ascii_only v)); [intros H; injection H as <-; inl|].
  destruct (parse_header reg v) as [h|e1] eqn:E1; cbn [bind].
  2:{ intros H; injection H as <-. apply parse_header_err in E1. cbn in *. tauto. }
  destruct (dget !"boundary" (snd h)) as [b|]; cbn [bind]; [|intros H; injection H as <-; inl].
  destruct (_ && _)%bool; cbn [bind].
  - destruct (Z.ltb _ 0); [intros H; injection H as <-; inl|easy].
  - destruct (to_native b) as [n|e2] eqn:E2; cbn [bind]; [intros H; injection H as <-; inl|].
    intros H. injection H as <-. apply to_native_err in E2 as ->. inl.
Qed.
Lemma mp_init_dok reg ct cl b len : mp_init reg ct cl = Ok (b, len) -> Dok (!"--" ++ pchars b).
Proof.
  unfold mp_init. cbv zeta. destruct (negb _); [easy|]. destruct (negb _); [easy|].
  destruct (parse_header reg _) as [h|e1]; cbn [bind]; [|easy]. destruct (dget !"boundary" (snd h)) as [b1|]; cbn [bind]; [|easy].
  destruct (pnonempty b1 && valid_boundary (pchars b1))%bool eqn:E; cbn [bind]; [|now destruct (to_native b1)].
  destruct (Z.ltb _ 0); [easy|]. intros H. injection H as <- _. apply andb_prop in E as [E _].
  split; [now cbn|]. destruct b1 as [u|u]; (destruct u; [easy|]); cbn; lia.
Qed.

Section Multi.
  Context (reg : registry) (name2cp : str -> option N) (mk_temp : str -> res unit).

  Definition multi_error (b : str) (e : exn) : Prop :=
    In e [MultiPartParserError; TooManyFieldsSent; RequestDataTooBig; LookupError; UnicodeDecodeError; UnicodeEncodeError; ValueError;
          TypeError; AttributeError; OverflowError] \/
    temp_fails mk_temp e \/
    e = OutOfFuel /\ exists t, occurs t b /\ b64_part reg name2cp t.
  Ltac me := left; cbn; tauto.

  Lemma body_left k st r b e : r_bp r = false -> r_hp r = true -> r_body r = None -> l0at k (r_stream r) b -> 1 <= k <= 40 ->
    fst ((let! b := body reg in let! st := msett in let! t := mlift (decode_text reg (s_charset st) b) in
          mret t) (st, r)) = Err e -> In e [RequestDataTooBig; LookupError; UnicodeDecodeError].
  Proof.
    intros H1 H2 H3 HA Hk. unfold mbind at 1. rewrite body_reads; [|assumption|now left|assumption].
    assert (HB : match s_dmem st with Some m => (m < zlen b)%Z | None => True end \/ exists m, s_dmem st = Some m /\ (zlen b <= m)%Z).
    { destruct (s_dmem st) as [m|]; [|now left]. destruct (Z_le_gt_dec (zlen b) m); [right; now exists m|left; lia]. }
    destruct HB as [HB|(m & Em & Hm)].
    - destruct (read_body_big k st r b HA Hk HB) as (s' & ->). cbn [fst]. intros E. injection E as <-. inl.
    - destruct (read_body_ok k st r b m HA Hk Em Hm) as (s' & -> & _). unfold mbind, msett, mlift, decode_text, decode. cbn [fst].
      destruct (reg _) as [c|]; [destruct (c_dec c b); [easy|]|]; intros E; injection E as <-; inl.
  Qed.
  Lemma multi_err k st r q h b e : r_bp r = false -> r_hp r = true -> r_body r = None -> a_ctype (r_attrs r) = Some (Some CT_MULTI) ->
    r_meta r = Some (mkMeta q (Some h)) -> l0at k (r_stream r) b -> 1 <= k <= 40 -> size_ok (s_dmem st) ->
    fst (finish reg name2cp mk_temp (st, r)) = Err e -> multi_error b e.
  Proof.
    intros H1 H2 H3 H4 Hme HA Hk Hd. unfold finish. unfold mbind at 1. unfold parse_post. unfold mbind at 1, mreq. cbn [snd]. rewrite H4.
    change (seqb CT_MULTI CT_MULTI) with true. cbv beta iota. rewrite (upload_eq reg name2cp mk_temp st r q h Hme).
    destruct (mp_init reg _ _) as [[bd len]|e1] eqn:Em.
    2:{ apply mp_init_err in Em. destruct e1; cbn [fst]; try (intros E; injection E as <-; left; cbn in *; tauto).
      unfold mbind. rewrite empty_post_eq. destruct (querydict _ _ _ _) as [q1|e1] eqn:Eq; cbn [fst mraise];
        intros E; injection E as <-; [me|]. apply querydict_err in Eq as [-> | ->]; me. }
    pose proof (mp_init_dok _ _ _ _ _ Em) as HD.
    match goal with |- context [mp_parse ?a ?b0 ?c ?d ?e0 ?f ?g ?h0 ?i ?j ?l ?m0] => set (X := mp_parse a b0 c d e0 f g h0 i j l m0) end.
    assert (HX : match X with (Err e1, _) => multi_error b e1 | (Ok _, s1) => exists r1, l0at k s1 r1 end).
    { unfold X. clear X. destruct (querydict reg (Some (MultipartModel.ms_query (s_multi st))) None true) as [qd|e1] eqn:Eq.
      2:{ unfold mp_parse. rewrite Eq. apply querydict_err in Eq as [-> | ->]; me. }
      destruct (Z.eq_dec len 0) as [->|Hl]; [unfold mp_parse; rewrite Eq; cbn; now exists b|].
      destruct (l0_parse_sem reg name2cp mk_temp (s_multi st) _ HD k (r_stream r) b (mp_chunk (s_handlers st)) len (map new_handler (s_handlers st)) qd
        (2 * l0_total (r_stream r) + 4) HA Hk (chunk_pos _) Eq Hl) as (o & HP & HO).
      { rewrite (l0at_total _ _ _ HA). lia. }
      destruct o as [p|e1].
      - destruct HO as (s' & -> & HA'). now exists [].
      - destruct (mp_parse _ _ _ _ _ _ _ _ _ _ _ _) as [x s1]. cbn [fst] in HO. subst x.
        assert (HC : countI (s_multi st) (start_state (s_multi st) len (map new_handler (s_handlers st)))).
        { unfold countI, start_state. cbn. destruct (s_dnum st), (s_dmem st); lia. }
        destruct (parses_exn _ _ _ _ _ _ _ _ HP HC e1 eq_refl) as [H|[H|(-> & t & T1 & T2)]].
        + destruct H as [H|(_ & n & En & Hn)]; [left; cbn in *; tauto|]. change (s_dmem st = Some n) in En. rewrite En in Hd. cbn in Hd. lia.
        + now right; left.
        + right. right. split; [reflexivity|]. now exists t. }
    destruct X as [[[p f]|e1] s1].
    - destruct HX as [b1 HA1]. set (r1 := set_hasfiles true (set_stream s1 r)).
      pose proof (body_left k st r1 b1 e H1 H2 H3 HA1 Hk) as HB. intros HE. 
      assert (Hin : In e [RequestDataTooBig; LookupError; UnicodeDecodeError]); [|left; cbn in *; tauto]. apply HB. clear HB.
      revert HE. unfold mbind. change (set_hasfiles true (snd (st, set_stream s1 r))) with r1. cbn [fst].
      match goal with |- context [body reg ?w] => change w with (st, r1) end.
      destruct (body reg (st, r1)) as [[x|x] w]; [|cbn; intros HE; congruence]. cbn. unfold mlift. destruct (decode_text _ _ _); cbn; [easy|]. intros HE. congruence.
    - cbn [fst]. destruct e1; try (intros E; injection E as <-; exact HX).
      unfold mbind. rewrite empty_post_eq. destruct (querydict _ _ _ _) as [q1|e1] eqn:Eq; cbn [fst mraise];
        intros E; injection E as <-; [me|]. apply querydict_err in Eq as [-> | ->]; me.
  Qed.
End Multi.

(** no exception of the input or of the disk: these are left *)
Theorem C133_multipart :
  forall reg name2cp mk_temp st s r e, request_init reg st s = Ok r -> size_ok (s_hdr st) -> size_ok (s_dmem st) ->
    src_error s = None -> (forall x, exists y, mk_temp x = Ok y) ->
    fst (parse reg name2cp mk_temp (st, r)) = Err e ->
    (exists why, e = InvalidHttpRequest why) \/
    In e [NoHostFoundException; RequestDataTooBig; TooManyFieldsSent; MultiPartParserError;
          UnicodeDecodeError; UnicodeEncodeError; LookupError; ValueError; TypeError; AttributeError; OverflowError] \/
    e = OutOfFuel /\ exists t, occurs t (src_bytes s) /\ b64_part reg name2cp t.
Proof.
  intros reg name2cp mk_temp st s r e Hi Hh Hd Hs Hmk HP.
  pose proof (C133_header reg st s r) as HH. pose proof (C133_other_bodies reg name2cp mk_temp st s r) as HO.
  assert (HI := Hi). rewrite init_eq in Hi. destruct (querydict reg (Some (s_query st)) None true) as [q|]; [|easy]. injection Hi as <-.
  pose proof (header_outcome reg st s q Hh Hs) as H.
  destruct (parse_request_header reg (st, fresh q s)) as [[[]|e1] [st1 r1]] eqn:EH.
  2:{ unfold parse, mbind in HP. rewrite EH in HP. injection HP as <-. destruct H as [H|H]; [now left|right; left; cbn in *; tauto]. }
  destruct H as (Hhp & Hbp & Hbo & [c Hc] & (b & HA & Hocc) & Hdm & q1 & h & Hme).
  assert (HC : c = Some CT_MULTI \/ c <> Some CT_MULTI).
  { destruct c as [c|]; [|now right]. destruct (list_eq_dec N.eq_dec c CT_MULTI) as [->|N]; [now left|right; congruence]. }
  destruct HC as [->|HC].
  2:{ specialize (HO st1 r1 e HI Hh Hs eq_refl ltac:(congruence) HP). right. left. cbn in *. tauto. }
  unfold parse, mbind in HP. rewrite EH in HP. destruct (list_eq_dec N.eq_dec b []) as [->|Hb].
  { destruct (parse_body_none reg name2cp mk_temp 3 st1 r1 Hbp Hhp HA ltac:(lia)) as (s1 & _ & E). rewrite E in HP.
    destruct (querydict _ _ _ _) as [q2|e2] eqn:Eq; [easy|]. injection HP as <-. apply querydict_err in Eq as [-> | ->]; right; left; cbn; tauto. }
  destruct (parse_body_some reg name2cp mk_temp 3 st1 r1 b Hbp Hhp HA ltac:(lia) Hb) as (s2 & HA2 & E). rewrite E in HP.
  destruct (multi_err reg name2cp mk_temp 5 st1 (set_stream s2 (at_body st1 r1)) q1 h b e Hbp Hhp Hbo Hc Hme HA2 ltac:(lia)) as [H|[[x H]|(H & t & T1 & T2)]].
  - now rewrite Hdm.
  - exact HP.
  - right. left. cbn in *. tauto.
  - destruct (Hmk x). congruence.
  - right. right. split; [exact H|]. exists t. split; [|exact T2]. now apply (occurs_trans _ b).
Qed.
Print Assumptions C133_multipart.
(** SuspiciousMultipartForm, made for attacks, is never seen *)
Theorem C133_suspicious :
  forall reg name2cp mk_temp st s r, request_init reg st s = Ok r -> size_ok (s_hdr st) -> size_ok (s_dmem st) ->
    src_error s = None -> (forall x, exists y, mk_temp x = Ok y) ->
    fst (parse reg name2cp mk_temp (st, r)) <> Err SuspiciousMultipartForm.
Proof.
  intros reg name2cp mk_temp st s r Hi Hh Hd Hs Hmk HP.
  destruct (C133_multipart reg name2cp mk_temp st s r _ Hi Hh Hd Hs Hmk HP) as [[x H]|[H|[H _]]]; [easy| |easy].
  cbn in H. now repeat destruct H as [H|H].
Qed.
Print Assumptions C133_suspicious.
(** parse() comes to an end for all requests that never say base64 *)
Theorem C133_ends :
  forall reg name2cp mk_temp st s r, request_init reg st s = Ok r -> size_ok (s_hdr st) -> size_ok (s_dmem st) ->
    src_error s = None -> (forall x, exists y, mk_temp x = Ok y) -> ~ occurs !"base64" (lower (src_bytes s)) ->
    fst (parse reg name2cp mk_temp (st, r)) <> Err OutOfFuel.
Proof.
  intros reg name2cp mk_temp st s r Hi Hh Hd Hs Hmk HB HP.
  destruct (C133_multipart reg name2cp mk_temp st s r _ Hi Hh Hd Hs Hmk HP) as [[x H]|[H|(_ & t & H1 & H2)]]; [easy| |].
  - cbn in H. now repeat destruct H as [H|H].
  - apply HB. apply b64_part_mentions in H2. apply (occurs_trans _ (lower t)); [exact H2|]. now apply occurs_lower.
Qed.
Print Assumptions C133_ends.
(** the witness of the endless loop does say it; another body with the same form does not and is parsed *)
Example C133_ends_case :
  find !"base64" (lower (src_bytes (ex_leak OutOfFuel))) <> None /\
  let s := ex_part !"name=a; filename=b" !"YQ" in
  src_error s = None /\ find !"base64" (lower (src_bytes s)) = None /\ fst (run (parse ex_reg no_cp ok_temp) ex_set s) = Ok tt.
Proof. split; [vm_compute; discriminate|]. split; [reflexivity|]. split; vm_compute; reflexivity. Qed.
