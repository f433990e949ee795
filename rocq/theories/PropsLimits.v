(** * C141: limits refuse requests, they do not change them *)
From Coq Require Import ZifyBool ZifyN ZifyNat.
From Verif Require Import Py Spec HeadSpec PyFacts PyDict StreamModel StreamSpec StreamFacts StreamCalm CodecModel PercentModel
  QueryModel HeadModel HeadFacts HeaderModel UploadModel MultipartModel RequestModel RequestSpec HeaderRun BodyRun ParseRun
  RequestRel PropsRequest PropsPart PropsBody PropsEnd LimitMono.

Local Arguments querydict : simpl never.

(** settings that differ in DATA_UPLOAD_MAX_MEMORY_SIZE and DATA_UPLOAD_MAX_NUMBER_FIELDS only *)
Definition but_limits (st st' : sett) : Prop :=
  s_hdr st' = s_hdr st /\ s_fmem st' = s_fmem st /\ s_charset st' = s_charset st /\ s_handlers st' = s_handlers st.
(** a number of fields, or None for no limit *)
Definition field_limit (st : sett) : Prop := forall n, s_dnum st = Some n -> (1 <= n)%Z.
(** [a] is a limit no stricter than [b] *)
Definition no_stricter (a b : option Z) : Prop :=
  match b with Some m => (match a with Some n => m <= n | None => True end)%Z | None => a = None end.

Lemma lift_eq st st' : but_limits st st' -> st' = lift (s_dmem st') (s_dnum st') st.
Proof. intros (H1 & H2 & H3 & H4). destruct st, st'. cbn in *. unfold lift. cbn. congruence. Qed.

(** ** Raising a limit: what was accepted is accepted, with the same result *)
Theorem C141_raised_limits :
  forall reg n2 mk st st' r st1 r1, but_limits st st' -> field_limit st ->
    no_stricter (s_dnum st') (s_dnum st) -> no_stricter (s_dmem st') (s_dmem st) -> (s_dmem st' = None -> s_dmem st = None) ->
    parse reg n2 mk (st, r) = (Ok tt, (st1, r1)) ->
    exists st1', parse reg n2 mk (st', r) = (Ok tt, (st1', r1)) /\ but_limits st1 st1'.
Proof.
  intros reg n2 mk st st' r st1 r1 HB HF HN HM HO HP.
  assert (B : below (s_dmem st') (s_dnum st') st).
  { split; [destruct (s_dmem st) as [a|], (s_dmem st') as [b|]; cbn in *; try easy; now specialize (HO eq_refl)|].
    unfold field_limit in HF. destruct (s_dnum st) as [a|], (s_dnum st') as [b|]; cbn in *; try easy; specialize (HF a eq_refl); lia. }
  destruct (r2_parse reg n2 mk _ _ _ _ _ _ _ B HP) as [E _]. rewrite <- (lift_eq _ _ HB) in E.
  exists (lift (s_dmem st') (s_dnum st') st1). split; [exact E|]. now repeat split.
Qed.
Print Assumptions C141_raised_limits.

(** ** Whatever two limits are: if both accept, the results are the same *)
Definition looser (a b : option Z) : option Z := match a, b with Some n, Some m => Some (Z.max n m) | _, _ => None end.
Theorem C141_limits_only_refuse :
  forall reg n2 mk st st' r st1 r1 st2 r2, but_limits st st' -> field_limit st -> field_limit st' -> (s_dmem st = None <-> s_dmem st' = None) ->
    parse reg n2 mk (st, r) = (Ok tt, (st1, r1)) -> parse reg n2 mk (st', r) = (Ok tt, (st2, r2)) ->
    r1 = r2 /\ but_limits st1 st2.
Proof.
  intros reg n2 mk st st' r st1 r1 st2 r2 HB HF HF' HO H1 H2.
  set (st3 := lift (looser (s_dmem st) (s_dmem st')) (looser (s_dnum st) (s_dnum st')) st).
  assert (B1 : but_limits st st3) by now repeat split.
  assert (B2 : but_limits st' st3) by (destruct HB as (A1 & A2 & A3 & A4); repeat split; now symmetry).
  assert (O : forall a b, no_stricter (looser a b) a /\ no_stricter (looser a b) b).
  { intros [a|] [b|]; cbn; repeat split; lia. }
  destruct (C141_raised_limits reg n2 mk st st3 r st1 r1 B1 HF (proj1 (O _ _)) (proj1 (O _ _))) as (s3 & E1 & C1); [|exact H1|].
  { cbn. destruct (s_dmem st), (s_dmem st'); cbn; try easy. now intros _; apply HO. }
  destruct (C141_raised_limits reg n2 mk st' st3 r st2 r2 B2 HF' (proj2 (O _ _)) (proj2 (O _ _))) as (s4 & E2 & C2); [|exact H2|].
  { cbn. destruct (s_dmem st), (s_dmem st'); cbn; try easy. now intros _; apply HO. }
  rewrite E1 in E2. injection E2 as <- <-. split; [reflexivity|].
  destruct C1 as (A1 & A2 & A3 & A4), C2 as (D1 & D2 & D3 & D4). repeat split; congruence.
Qed.
Print Assumptions C141_limits_only_refuse.
(** a new request is the same under all limits *)
Theorem C141_new_request :
  forall reg st st' s r r', but_limits st st' -> request_init reg st s = Ok r -> request_init reg st' s = Ok r' -> field_limit st -> field_limit st' -> r = r'.
Proof.
  intros reg st st' s r r' HB H1 H2 HF HF'. rewrite init_eq in *. unfold s_query in *. destruct HB as (_ & _ & E & _). rewrite E in H2.
  assert (Q : forall st0 q, field_limit st0 -> querydict reg (Some (mkQS (s_charset st) (s_dnum st0))) None true = Ok q ->
            querydict reg (Some (mkQS (s_charset st) None)) None true = Ok q).
  { intros st0 q HL. apply querydict_raised. unfold field_limit in HL. destruct (s_dnum st0) as [n|]; cbn; [now apply HL|exact I]. }
  destruct (querydict reg (Some (mkQS (s_charset st) (s_dnum st))) None true) as [q|e] eqn:E1; [|easy].
  destruct (querydict reg (Some (mkQS (s_charset st) (s_dnum st'))) None true) as [q'|e] eqn:E2; [|easy].
  apply (Q st) in E1; [|exact HF]. apply (Q st') in E2; [|exact HF']. congruence.
Qed.
Print Assumptions C141_new_request.

Definition with_limits (m n : option Z) (st : sett) : sett := lift m n st.
Definition ex141 : src := req [!"POST /p?x=1 HTTP/1.1"; !"Host: b"; !"Content-Type: multipart/form-data; boundary=X"; !"Content-Length: 61"]
  (!"--X" ++ crlf ++ !"Content-Disposition: form-data; name=""a""" ++ crlf ++ crlf ++ !"v" ++ crlf ++ !"--X--" ++ crlf).
Example C141_case :
  let a := with_limits (Some 4%Z) (Some 1%Z) ex_set in
  let b := with_limits (Some 1000%Z) None ex_set in
  but_limits a b /\ field_limit a /\ field_limit b /\ (s_dmem a = None <-> s_dmem b = None) /\
  (let '(x, (_, r)) := run (parse ex_reg no_cp ok_temp) a ex141 in x = Ok tt /\ exists d, r_post r = Some (PForm d) /\ d <> []) /\
  fst (run (parse ex_reg no_cp ok_temp) (with_limits (Some 3%Z) (Some 1%Z) ex_set) ex141) = Err RequestDataTooBig.
Proof.
  split; [now repeat split|]. split; [intros n [= <-]; lia|]. split; [easy|]. split; [easy|]. split; [|vm_compute; reflexivity].
  vm_compute. split; [reflexivity|]. eexists. split; [reflexivity|discriminate].
Qed.

(** ** Without the conditions it is false *)
(** from 0 fields to 1: 0 is no limit for query strings *)
Theorem C141_zero_refuted :
  exists s r, request_init ex_reg (with_limits (Some 100%Z) (Some 0%Z) ex_set) s = Ok r /\
    fst (parse ex_reg no_cp ok_temp (with_limits (Some 100%Z) (Some 0%Z) ex_set, r)) = Ok tt /\
    fst (parse ex_reg no_cp ok_temp (with_limits (Some 100%Z) (Some 1%Z) ex_set, r)) = Err TooManyFieldsSent.
Proof.
  exists (req [!"GET /p?a=1&b=2 HTTP/1.1"; !"Host: b"] []). eexists. split; [vm_compute; reflexivity|]. split; vm_compute; reflexivity.
Qed.
Print Assumptions C141_zero_refuted.
(** from a number of bytes to no limit: every request with a body is refused *)
Lemma body_none reg w : s_dmem (fst w) = None -> r_hp (snd w) = true -> r_body (snd w) = None -> exists e w1, body reg w = (Err e, w1).
Proof.
  intros H1 H2 H3. unfold body, mbind at 1, mreq. rewrite H2. cbn [orb]. unfold body1, mbind at 1, mreq.
  destruct (_ && _)%bool; [unfold mraise; eauto|]. rewrite H3, H2. unfold read_body. unfold mbind at 1, msett. unfold mbind at 1, mreq. unfold mbind at 1.
  destruct (m_read _ w) as [[c|e] w1]; [|eauto]. unfold mbind. rewrite H1. destruct (body_loop _ _ _ _ _ w1) as [[x|e] w2]; [|eauto].
  cbn [within_max]. unfold mraise. eauto.
Qed.
Lemma post_none reg n2 mk st r pf w1 : s_dmem st = None -> r_hp r = true -> r_body r = None ->
  parse_post reg n2 mk (st, r) = (Ok pf, w1) -> s_dmem (fst w1) = None /\ r_hp (snd w1) = true /\ r_body (snd w1) = None.
Proof.
  intros H1 H2 H3. unfold parse_post. unfold mbind at 1, mreq. cbn [snd]. destruct (a_ctype _) as [c|]; [|easy].
  destruct (match c with Some c => seqb c CT_MULTI | None => false end).
  { unfold parse_file_upload, mbind, mreq, msett, mlift, mraise, mstream, mret. cbn [fst snd].
    destruct (r_meta r) as [m|]; [|easy]. destruct (m_headers m) as [h|]; [|easy].
    destruct (mp_init reg _ _) as [bl|e]; [|destruct e; try easy; destruct (empty_post reg _) as [[z|e] w]; easy].
    destruct (mp_parse _ _ _ _ _ _ _ _ _ _ _ _) as [[x|e] s1]; [now intros [= _ <-]|]. destruct e; try easy; destruct (empty_post reg _) as [[z|e] w]; easy. }
  destruct (match c with Some c => seqb c CT_FORM | None => false end).
  - unfold mbind at 1. destruct (body_none reg (st, r) H1 H2 H3) as (e & w2 & ->). easy.
  - unfold mbind at 1. rewrite empty_post_eq. destruct (querydict _ _ _ _); [|easy]. unfold mret. now intros [= _ <-].
Qed.
Theorem C141_none_refuted :
  forall reg n2 mk st s r w, request_init reg st s = Ok r -> delivers s w -> max_ok (s_hdr st) ->
    s_dmem st = None -> w_body w <> [] -> exists e, fst (parse reg n2 mk (st, r)) = Err e.
Proof.
  intros reg n2 mk st s r w Hi Hd Hm HN Hb. unfold parse, mbind. destruct (parse_request_header reg (st, r)) as [[[]|e] [st1 r1]] eqn:HP; [|now exists e].
  pose proof (header_ready _ _ _ _ _ _ _ Hi Hd Hm HP) as R. destruct (ready_set _ _ _ _ _ R) as (_ & Hdm1 & _). destruct R.
  destruct (parse_body_some reg n2 mk 3 st1 r1 _ rd_bp rd_hp rd_stream ltac:(lia) Hb) as (s2 & _ & ->).
  unfold ParseRun.finish, mbind. set (r2 := set_stream s2 (at_body st1 r1)).
  destruct (parse_post reg n2 mk (st1, r2)) as [[pf|e] w1] eqn:EP; [|now exists e].
  destruct (post_none reg n2 mk st1 r2 pf w1 ltac:(congruence) rd_hp rd_body EP) as (A & B & C).
  destruct (body_none reg w1 A B C) as (e & w2 & ->). now exists e.
Qed.
Print Assumptions C141_none_refuted.
Example C141_none_case :
  let s := req [!"POST /p HTTP/1.1"; !"Host: b"] !"x" in
  fst (run (parse ex_reg no_cp ok_temp) (with_limits (Some 1%Z) None ex_set) s) = Ok tt /\
  fst (run (parse ex_reg no_cp ok_temp) (with_limits None None ex_set) s) = Err RequestDataTooBig.
Proof. split; vm_compute; reflexivity. Qed.
