(** * C156: the body stays available *)
From Verif Require Import Py PyFacts PyDict StreamModel StreamSpec StreamFacts CodecModel PercentModel QueryModel HeadModel HeadFacts HeaderModel
  BoundaryModel UploadModel MultipartModel EncModel RequestModel RequestSpec BodyRun ParseRun HeaderRun PropsData PropsPart PropsRequest PropsBody PropsFixed.

(** the call assigns [encoding] *)
Definition sets_encoding (c : call) : bool := match c with CReq (OEncoding _) => true | _ => false end.

Section Kept.
  Context (reg : registry) (n2 : str -> option N) (mk : str -> res unit).
  (** the body has been read to its end and is kept *)
  Record kept (b : str) (w : world) : Prop := {
    kp_hp : r_hp (snd w) = true; kp_bp : r_bp (snd w) = false; kp_body : r_body (snd w) = Some (PB b); kp_end : l0at 3 (r_stream (snd w)) [] }.
  Lemma kept_parse b w : kept b w -> kept b (snd (parse_request_body reg n2 mk w)).
  Proof.
    intros [H1 H2 H3 H4]. destruct w as [st r]. cbn [fst snd] in *.
    destruct (parse_body_none reg n2 mk 3 st r H2 H1 H4 ltac:(lia)) as (s1 & HA & ->).
    destruct (querydict reg (Some (s_query st)) None false); now constructor.
  Qed.
  Lemma read_end n s : l0at 3 s [] -> l0at 3 (snd (l0_read n s)) [].
  Proof.
    intros H. destruct n as [n|].
    - destruct (Z_lt_le_dec n 0) as [Hn|Hn].
      + unfold l0_read, ls_read. cbn [ls_read_loop Nat.add]. destruct (Z.eqb_spec n 0) as [|_]; [lia|]. destruct (Z.ltb_spec n 0) as [_|]; [exact H|lia].
      + destruct (l0_read_spec 3 s [] (Z.to_nat n) H ltac:(lia)) as (s' & HR & HA). rewrite Z2Nat.id in HR by exact Hn. rewrite HR. now rewrite skipn_nil in HA.
    - destruct (l0_read_all_spec 3 s [] H) as (s' & -> & HA). exact HA.
  Qed.
  Lemma kept_read b n w : kept b w -> kept b (snd (m_read n w)).
  Proof.
    intros [H1 H2 H3 H4]. destruct w as [st r]. cbn [fst snd] in *. unfold m_read, mstream. cbn [fst snd].
    pose proof (read_end n (r_stream r) H4) as HE. destruct (l0_read n (r_stream r)) as [[x|e] s]; cbn [snd] in HE; [now constructor|]. destruct e; now constructor.
  Qed.
  Lemma kept_body b w : kept b w -> body reg w = (Ok (PB b), w).
  Proof.
    intros [H1 H2 H3 H4]. unfold body, mbind, mreq. cbn match beta. rewrite H1. cbn [orb]. unfold body1, mbind, mreq. cbn match beta. now rewrite H2, H3.
  Qed.
  Lemma kept_call b c w : new_stream c = false -> sets_encoding c = false -> kept b w -> kept b (do_call reg n2 mk c w).
  Proof.
    intros Hc He H. destruct c as [o|o|o]; cbn [do_call]; [|destruct H; now constructor..].
    destruct o; cbn [perform new_stream sets_encoding] in *; try discriminate; unfold vunit; rewrite ?v_snd; try (destruct H; now constructor).
    - destruct w as [st r]. rewrite header_done; [exact H|apply H].
    - now rewrite (kept_body b w H).
    - now apply kept_parse.
    - unfold parse, mbind. destruct w as [st r]. rewrite header_done; [|apply H]. now apply kept_parse.
    - now apply kept_read.
    - unfold set_scheme, mupd. destruct H. destruct w as [st r]. cbn [fst snd] in *. now destruct (nonempty s); constructor.
    - unfold assign_handlers, mbind, mreq, mupd. destruct H. destruct (r_hasfiles (snd w)); now constructor.
    - unfold get_handlers, mbind, mreq, msett, mupd, mret. destruct H. destruct (r_handlers (snd w)) as [[|h l]|]; now constructor.
  Qed.
  Lemma kept_calls b : forall cs w, forallb (fun c => negb (new_stream c) && negb (sets_encoding c)) cs = true -> kept b w -> kept b (calls reg n2 mk cs w).
  Proof.
    induction cs as [|c cs IH]; intros w H HK; [exact HK|]. cbn [forallb] in H. apply andb_true_iff in H as [H1 H2]. apply andb_true_iff in H1 as [H0 H1].
    apply negb_true_iff in H0, H1. cbn. apply IH; [exact H2|]. now apply kept_call.
  Qed.
End Kept.

Lemma body_kept reg st s r w st1 r1 : request_init reg st s = Ok r -> delivers s w -> max_ok (s_hdr st) ->
  parse_request_header reg (st, r) = (Ok tt, (st1, r1)) -> fits (length (w_body w)) (s_dmem st) ->
  exists w2, body reg (st1, r1) = (Ok (PB (w_body w)), w2) /\ kept (w_body w) w2 /\ fst w2 = st1 /\ s_dmem st1 = s_dmem st.
Proof.
  intros Hi Hd Hm HP Hf. pose proof (header_ready _ _ _ _ _ _ _ Hi Hd Hm HP) as R.
  destruct (ready_set _ _ _ _ _ R) as (_ & Hdm1 & _). pose proof (rd_stream _ _ _ _ _ R) as HS. pose proof (rd_hp _ _ _ _ _ R) as Hhp. pose proof (rd_bp _ _ _ _ _ R) as Hbp. pose proof (rd_body _ _ _ _ _ R) as Hbo.
  unfold fits in Hf. destruct (s_dmem st) as [m|] eqn:Em; [|easy].
  destruct (read_body_ok 3 st1 r1 (w_body w) m HS ltac:(lia)) as (s2 & HB & HA2); [congruence|exact Hf|].
  eexists. rewrite body_reads; [|assumption|now left|assumption]. split; [exact HB|]. split; [|now split]. now constructor.
Qed.

(** once body() has returned the body, body() returns the same bytes again, whatever is called in between, unless a
    stream or the encoding is assigned *)
Theorem C156_stays_partial :
  forall reg n2 mk st s r w st1 r1 later, request_init reg st s = Ok r -> delivers s w -> max_ok (s_hdr st) ->
  parse_request_header reg (st, r) = (Ok tt, (st1, r1)) -> fits (length (w_body w)) (s_dmem st) ->
  forallb (fun c => negb (new_stream c) && negb (sets_encoding c)) later = true ->
  exists w2, body reg (st1, r1) = (Ok (PB (w_body w)), w2) /\
    fst (body reg (calls reg n2 mk later w2)) = Ok (PB (w_body w)).
Proof.
  intros reg n2 mk st s r w st1 r1 later Hi Hd Hm HP Hf HL. destruct (body_kept reg st s r w st1 r1 Hi Hd Hm HP Hf) as (w2 & HB & HK & _).
  exists w2. split; [exact HB|]. now rewrite (kept_body reg _ _ (kept_calls reg n2 mk _ later w2 HL HK)).
Qed.
Print Assumptions C156_stays_partial.
(** the settings are not assigned, so that the limit stays the one it was *)
Definition sets_settings (c : call) : bool := match c with CReq (OSettings _) => true | _ => false end.
Lemma dmem_calls reg n2 mk b : forall cs w, kept b w ->
  forallb (fun c => negb (new_stream c) && negb (sets_encoding c)) cs = true -> forallb (fun c => negb (sets_settings c)) cs = true ->
  fst (calls reg n2 mk cs w) = fst w.
Proof.
  induction cs as [|c cs IH]; intros w HK H HS; [reflexivity|]. cbn [forallb] in H, HS. apply andb_true_iff in H as [H1 H2]. apply andb_true_iff in H1 as [H0 H1].
  apply negb_true_iff in H0, H1. apply andb_true_iff in HS as [S1 S2]. apply negb_true_iff in S1. cbn [calls fold_left].
  change (fold_left (fun w c => do_call reg n2 mk c w) cs) with (calls reg n2 mk cs). rewrite IH; [|now apply kept_call|exact H2|exact S2].
  destruct c as [o|o|o]; cbn [do_call]; try reflexivity. destruct w as [st r].
  destruct o; cbn [perform new_stream sets_encoding sets_settings] in *; try discriminate; unfold vunit; rewrite ?v_snd; try reflexivity.
  - now rewrite header_done by apply HK.
  - now rewrite (kept_body reg _ _ HK).
  - destruct (parse_body_none reg n2 mk 3 st r (kp_bp _ _ HK) (kp_hp _ _ HK) (kp_end _ _ HK) ltac:(lia)) as (s1 & HA & ->). now destruct (querydict _ _ _ _).
  - unfold parse, mbind. rewrite header_done by apply HK.
    destruct (parse_body_none reg n2 mk 3 st r (kp_bp _ _ HK) (kp_hp _ _ HK) (kp_end _ _ HK) ltac:(lia)) as (s1 & HA & ->). now destruct (querydict _ _ _ _).
  - unfold m_read, mstream. cbn [fst snd]. now destruct (match l0_read n (r_stream r) with (Err IOError, s1) | (Err UnreadablePostError, s1) => (Err TypeError, s1) | x => x end).
  - unfold assign_handlers, mbind, mreq, mupd. cbn [snd]. now destruct (r_hasfiles r).
  - unfold get_handlers, mbind, mreq, msett, mupd, mret. cbn [snd fst]. now destruct (r_handlers r) as [[|h' l']|].
Qed.
(** assigning the encoding, even the one it had, loses the body: body() then returns an empty one *)
Theorem C156_encoding_refuted :
  forall reg n2 mk st s r w st1 r1 later v, request_init reg st s = Ok r -> delivers s w -> max_ok (s_hdr st) ->
  parse_request_header reg (st, r) = (Ok tt, (st1, r1)) -> fits (length (w_body w)) (s_dmem st) ->
  forallb (fun c => negb (new_stream c) && negb (sets_encoding c)) later = true -> forallb (fun c => negb (sets_settings c)) later = true ->
  exists w2, body reg (st1, r1) = (Ok (PB (w_body w)), w2) /\
    fst (body reg (snd (set_encoding v (calls reg n2 mk later w2)))) = Ok (PB []).
Proof.
  intros reg n2 mk st s r w st1 r1 later v Hi Hd Hm HP Hf HL HS. destruct (body_kept reg st s r w st1 r1 Hi Hd Hm HP Hf) as (w2 & HB & HK & Hst & Hdm).
  exists w2. split; [exact HB|]. pose proof (kept_calls reg n2 mk _ later w2 HL HK) as HK2. pose proof (dmem_calls reg n2 mk _ later w2 HK HL HS) as HF.
  destruct (calls reg n2 mk later w2) as [st3 r3]. destruct HK2 as [H1 H2 H3 H4]. cbn [fst snd] in *. subst st3.
  unfold set_encoding. cbn [fst snd]. unfold fits in Hf. destruct (s_dmem st) as [m|] eqn:Em; [|easy].
  set (r4 := set_body None (set_get None r3)).
  rewrite body_reads; [|exact H1|now left|reflexivity].
  destruct (read_body_ok 3 (with_charset v (fst w2)) r4 [] m H4 ltac:(lia)) as (s4 & -> & _); [cbn; congruence|cbn; lia|reflexivity].
Qed.
Print Assumptions C156_encoding_refuted.
(** a form read with body(), then parsed, read, reconfigured; and the same with the encoding assigned *)
Definition exk_body (cs : list call) : option (res pystr) :=
  match request_init ex_reg exf_set exf_form with
  | Ok r => Some (fst (body ex_reg (calls ex_reg (fun _ => None) (fun _ => Ok tt) cs (exf_set, r))))
  | Err _ => None
  end.
Example C156_case :
  let later := [CReq OParse; CReq (ORead None); CReq (ORead (Some (-3)%Z)); CReq (ORead (Some 2%Z)); CReq (OContentType None); CPost QClear] in
  forallb (fun c => negb (new_stream c) && negb (sets_encoding c)) later = true /\
  forallb (fun c => negb (sets_settings c)) later = true /\
  exk_body [CReq OHeader; CReq OBody] = Some (Ok (PB !"k=v&k=w")) /\
  exk_body ([CReq OHeader; CReq OBody] ++ later) = Some (Ok (PB !"k=v&k=w")) /\
  exk_body ([CReq OHeader; CReq OBody] ++ later ++ [CReq (OEncoding !"utf-8")]) = Some (Ok (PB [])).
Proof. vm_compute. repeat split; reflexivity. Qed.
