(** * C121: every multipart form that is refused is accepted as an empty one by the second call *)
From Verif Require Import Py Spec PyFacts PyDict StreamModel StreamFacts CodecModel QueryModel QueryFacts HeadModel HeadFacts HeaderModel HeaderSpec HeaderRun BoundaryModel UploadModel
  MultipartModel FormSpec FormFacts TapeFacts PropsPart PropsMultipart RequestModel RequestSpec BodyRun ParseRun RequestMulti PropsRequest PropsBody PropsEnd.

Local Arguments querydict : simpl never.
Local Arguments decode : simpl never.
Local Arguments mp_parse : simpl never.

(** ** Once read to its end, an input stays at its end *)
Section Spent.
  Context {R : Type} (rd : nat -> R -> res str * R) (exh : R -> res unit * R).
  Context (reg : registry) (name2cp : str -> option N) (mk_temp : str -> res unit).
  Context (st : mset) (D : str) (fuel : nat) (spent : R -> Prop).
  Context (sp_rd : forall n r, spent r -> spent (snd (rd n r))) (sp_exh : forall r, spent r -> spent (snd (exh r))).
  Definition kept (a b : R) : Prop := spent a -> spent b.
  Let k_refl a : kept a a := fun H => H.
  Let k_trans a b c : kept a b -> kept b c -> kept a c := fun H G x => G (H x).
  Definition over (s : lstream (chunkiter R)) : Prop := match ls_prod s with Some c => spent (ci_flo c) | None => False end.
  Lemma over_sle s s' : sle (cle kept) s s' -> over s -> over s'.
  Proof. unfold sle, over. destruct (ls_prod s), (ls_prod s'); intros H1 H2; try contradiction. exact (H1 H2). Qed.
  Lemma over_read f n r csize : spent (snd (rd csize r)) -> (0 < n)%Z -> over (snd (ls_read (ci_next rd) (S f) (Some n) (ls_init (mkCI r csize) None))).
  Proof.
    intros H Hn. unfold ls_read. cbn [ls_read_loop]. destruct (Z.eqb_spec n 0); [lia|]. destruct (Z.ltb_spec n 0); [lia|].
    unfold ls_next. cbn [ls_left ls_prod ls_init].
    assert (HC : spent (ci_flo (snd (ci_next rd (mkCI r csize))))).
    { unfold ci_next. cbn [ci_size ci_flo]. destruct (rd csize r) as [[[|c d]|e] s]; try exact H. destruct e; exact H. }
    destruct (ci_next rd (mkCI r csize)) as [[c| |e] p]; [|exact HC|exact HC]. cbn [snd] in HC.
    match goal with |- context [ls_unget ?b ?s] => pose proof (sle_unget (cle kept) (cle_refl kept k_refl) b s) as H2; destruct (ls_unget b s) as [[u|e] s2] end; cbn [snd] in H2 |- *.
    - eapply over_sle; [apply (sle_read_loop (ci_next rd) (cle kept) (cle_refl kept k_refl) (cle_trans kept k_trans) (cle_next rd kept sp_rd))|].
      eapply over_sle; [exact H2|]. exact HC.
    - eapply over_sle; [exact H2|]. exact HC.
  Qed.
  Theorem parse_spent csize len hs r e r' : 0 < fuel -> spent (snd (rd csize r)) -> len <> 0%Z -> (exists q, querydict reg (Some (ms_query st)) None true = Ok q) ->
    mp_parse rd exh reg name2cp mk_temp st D fuel csize len hs r = (e, r') -> spent r'.
  Proof.
    intros Hf H Hl [q Hq]. unfold mp_parse. rewrite Hq. destruct (Z.eqb_spec len 0); [easy|].
    set (p := mkP _ _ _ _ _ _ _). clearbody p.
    assert (HO : over (snd (parts_loop rd reg name2cp mk_temp st D fuel fuel p (ls_init (mkCI r csize) None)))).
    { destruct fuel as [|f]; [lia|]. cbn [parts_loop]. unfold bi_init. set (s0 := ls_init (mkCI r csize) None).
      pose proof (over_read f 1 r csize H eq_refl) as H1. fold s0 in H1.
      destruct (ls_read (ci_next rd) (S f) (Some 1%Z) s0) as [[c|x] s1]; cbn [snd] in H1; [|destruct x; exact H1].
      destruct c as [|c0 c]; [exact H1|].
      pose proof (sle_unget (cle kept) (cle_refl kept k_refl) (c0 :: c) s1) as H2.
      destruct (ls_unget (c0 :: c) s1) as [[u|x] s2]; cbn [snd] in H2.
      2:{ destruct x; eapply over_sle; eassumption. }
      pose proof (over_sle _ _ H2 H1) as H3.
      pose proof (fwd_head rd reg (S f) kept k_refl k_trans sp_rd) as FH.
      pose proof (fwd_part rd reg name2cp mk_temp st (S f) kept k_refl k_trans sp_rd) as FP.
      pose proof (fwd_parts rd reg name2cp mk_temp st D (S f) kept k_refl k_trans sp_rd) as FL.
      match goal with |- context [ls_init ?b None] => set (b0 := b) end.
      specialize (FH (ls_init b0 None)).
      destruct (parse_boundary_stream rd reg (S f) (ls_init b0 None)) as [[[ty m]|x] s3]; cbn [snd] in FH |- *.
      2:{ eapply over_sle; [|exact H3]. eapply (outer_fwd kept k_refl s2 b0); [reflexivity|exact FH]. }
      destruct (finish_file p) as [p1|x]; [|cbn [snd]; eapply over_sle; [|exact H3]; eapply (outer_fwd kept k_refl s2 b0); [reflexivity|exact FH]].
      specialize (FP ty m p1 s3).
      assert (T2 : forall a b c, sle (ble (cle kept)) a b -> sle (ble (cle kept)) b c -> sle (ble (cle kept)) a c).
      { apply sle_trans. intros ? ? ?. apply (sle_trans (cle kept)). apply cle_trans. exact k_trans. }
      destruct (one_part rd reg name2cp mk_temp st (S f) ty m p1 s3) as [[p2|x] s4]; cbn [snd] in FP |- *.
      - eapply over_sle; [apply FL|]. eapply over_sle; [|exact H3]. eapply (outer_fwd kept k_refl s2 b0); [reflexivity|]. eapply T2; eassumption.
      - eapply over_sle; [|exact H3]. eapply (outer_fwd kept k_refl s2 b0); [reflexivity|]. eapply T2; eassumption. }
    destruct (parts_loop _ _ _ _ _ _ _ _ _ _) as [[p'|x] s1]; cbn [snd] in HO; unfold over in HO; unfold input_of; destruct (ls_prod s1) as [c|]; try easy.
    - pose proof (sp_exh _ HO) as HE. destruct (exh (ci_flo c)) as [[u|x] r2]; intros [= _ <-]; exact HE.
    - intros [= _ <-]. exact HO.
  Qed.
End Spent.

(** ** The stream of a request *)
Definition at_end (s : l0) : Prop := l0at 5 s [].
Lemma end_read n s : at_end s -> at_end (snd (l0_rd n s)).
Proof.
  intros H. destruct (l0_read_spec 5 s [] n H ltac:(lia)) as (s' & E & H'). unfold l0_rd. rewrite E. cbn [snd]. now rewrite skipn_nil in H'.
Qed.
Lemma end_exh s : at_end s -> at_end (snd (l0_exh s)).
Proof. intros H. destruct (l0_drain 5 s [] H) as (s' & E & H'). now rewrite E. Qed.
Lemma chunk_large hs b : (zlen b <= 65536)%Z -> length b <= mp_chunk hs.
Proof.
  unfold zlen, mp_chunk. intros H. destruct hs; apply Nat2Z.inj_le; rewrite Z2Nat.id by discriminate; [|exact H].
  eapply Z.le_trans; [exact H|discriminate].
Qed.

(** Any handlers, any reason of the refusal; the body may have up to 64 KB. *)
Theorem C121_multipart_all_refuted :
  forall reg n2 mk st s r w st1 r1 ps b clen z m d e, request_init reg st s = Ok r -> delivers s w -> max_ok (s_hdr st) ->
    parse_request_header reg (st, r) = (Ok tt, (st1, r1)) -> multipart_wire w ps b clen z -> (0 < z)%Z ->
    settings_ok reg (s_multi st1) m -> s_dmem st = Some d -> (0 <= d)%Z ->
    w_body w <> [] -> (zlen (w_body w) <= 65536)%Z ->
    fst (parse reg n2 mk (st, r)) = Err e ->
    exists w2 r3 q0, parse reg n2 mk (st, r) = (Err e, w2) /\ parse reg n2 mk w2 = (Ok tt, (st1, r3)) /\
      r_post r3 = Some (PQuery q0) /\ r_files r3 = Some [] /\ querydict reg (Some (s_query st)) None true = Ok q0.
Proof.
  intros reg n2 mk st s r w st1 r1 ps b clen z m d e Hi Hd Hm HP HW Hz Hset Hdm Hd0 Hb0 Hlen HE.
  pose proof (header_ready _ _ _ _ _ _ _ Hi Hd Hm HP) as R. destruct (ready_set _ _ _ _ _ R) as (_ & Hdm1 & _ & Hdn & Hh1). destruct R.
  destruct (multi_known _ _ _ _ _ _ _ _ _ _ _ Hi Hd Hm HP HW) as (Hct & q & h & Hme & Hin).
  destruct (settings_qd _ _ _ Hset) as [qd Hqd]. destruct (settings_post _ _ _ Hset) as [qp Hqp].
  destruct (parse_body_some reg n2 mk 3 st1 r1 _ rd_bp rd_hp rd_stream ltac:(lia) Hb0) as (s2 & HA2 & EB). cbn [Nat.add] in HA2.
  set (r2 := set_stream s2 (at_body st1 r1)) in EB.
  assert (EP : parse reg n2 mk (st, r) = finish reg n2 mk (st1, r2)) by (unfold parse, mbind; rewrite HP; exact EB). rewrite EP in HE |- *.
  destruct (mp_parse l0_rd l0_exh reg n2 mk (s_multi st1) (!"--" ++ b) (2 * l0_total s2 + 4) (mp_chunk (s_handlers st1)) z (map new_handler (s_handlers st1)) s2)
    as [x s3] eqn:EM.
  assert (HA3 : at_end s3).
  { refine (parse_spent l0_rd l0_exh reg n2 mk (s_multi st1) _ _ at_end end_read end_exh _ z _ s2 x s3 _ _ _ _ EM); [lia| |lia|now exists qd].
    destruct (l0_read_spec 5 s2 _ (mp_chunk (s_handlers st1)) HA2 ltac:(lia)) as (s' & E & H'). unfold l0_rd. rewrite E. cbn [snd].
    unfold at_end. now rewrite skipn_all2 in H' by now apply chunk_large. }
  destruct x as [[post files]|e'].
  { exfalso. pose proof (finish_multi_ok reg n2 mk 5 st1 r2 q h (PB b) z post files s3 [] rd_bp rd_hp rd_body Hct Hme Hin EM HA3 ltac:(lia)) as HFi.
    rewrite Hdm1, Hdm in HFi. destruct (HFi Hd0 [] (settings_empty _ _ _ Hset)) as (s4 & _ & E4). rewrite E4 in HE. discriminate HE. }
  assert (HF : exists hf, finish reg n2 mk (st1, r2) = (Err e', (st1, set_stream s3 (if hf : bool then set_hasfiles true r2 else r2)))).
  { unfold finish. unfold mbind at 1. unfold parse_post. unfold mbind at 1, mreq. cbn [snd].
    change (a_ctype (r_attrs r2)) with (a_ctype (r_attrs r1)). rewrite Hct. change (seqb CT_MULTI CT_MULTI) with true. cbv beta iota.
    rewrite (upload_eq reg n2 mk st1 r2 q h Hme), Hin. cbn [pchars]. change (r_stream r2) with s2. rewrite EM.
    destruct e'; try (exists false; reflexivity). exists true. unfold mbind. rewrite empty_post_eq, Hqp. reflexivity. }
  destruct HF as [hf HF]. rewrite HF in HE |- *. injection HE as ->. set (r3 := set_stream s3 _).
  assert (B1 : r_bp r3 = false) by (unfold r3; now destruct hf). assert (B2 : r_hp r3 = true) by (unfold r3; now destruct hf).
  assert (B3 : r_stream r3 = s3) by reflexivity. assert (B4 : r_post r3 = r_post r1) by (unfold r3; now destruct hf).
  assert (B5 : r_files r3 = r_files r1) by (unfold r3; now destruct hf).
  destruct (parse_body_none reg n2 mk 5 st1 r3 B1 B2 HA3 ltac:(lia)) as (s4 & _ & HN). rewrite Hqp in HN.
  destruct rd_post as (q0 & Hq0 & Hp0).
  exists (st1, r3), (set_hasfiles true (set_stream s4 (at_body st1 r3))), q0. split; [reflexivity|]. split.
  - unfold parse, mbind. rewrite header_done by exact B2. exact HN.
  - split; [now rewrite <- Hp0, <- B4|]. split; [now rewrite <- rd_files, <- B5|exact Hq0].
Qed.
Print Assumptions C121_multipart_all_refuted.
(** a form with more bytes than DATA_UPLOAD_MAX_MEMORY_SIZE *)
Example C121_multipart_case :
  exists r w2 r3 q0, request_init ex_reg (exm_set (Some 1%Z)) exm_src = Ok r /\
    parse ex_reg no_cp ok_temp (exm_set (Some 1%Z), r) = (Err RequestDataTooBig, w2) /\ fst (parse ex_reg no_cp ok_temp w2) = Ok tt /\
    snd (snd (parse ex_reg no_cp ok_temp w2)) = r3 /\ r_post r3 = Some (PQuery q0) /\ q_d q0 = [] /\ r_files r3 = Some [].
Proof.
  destruct (exm_in (Some 1%Z) ltac:(tauto)) as (r & st1 & r1 & I & D & P & Hs & HW).
  assert (HE : fst (parse ex_reg no_cp ok_temp (exm_set (Some 1%Z), r)) = Err RequestDataTooBig).
  { assert (E : r = ex_req (exm_set (Some 1%Z)) exm_src) by (enough (Ok r = Ok (ex_req (exm_set (Some 1%Z)) exm_src)) by congruence; rewrite <- I; vm_compute; reflexivity).
    rewrite E. vm_compute. reflexivity. }
  destruct (C121_multipart_all_refuted ex_reg no_cp ok_temp _ _ r _ st1 r1 _ _ _ _ 100%Z 1%Z RequestDataTooBig I D ltac:(discriminate) P HW)
    as (w2 & r3 & q0 & H1 & H2 & H3 & H4 & H5).
  - reflexivity.
  - rewrite Hs. apply exm_settings.
  - reflexivity.
  - discriminate.
  - discriminate.
  - vm_compute. discriminate.
  - exact HE.
  - exists r, w2, r3, q0. split; [exact I|]. split; [exact H1|]. rewrite H2. split; [reflexivity|]. split; [reflexivity|]. split; [exact H3|]. split; [|exact H4].
    revert H5. vm_compute. now intros [= <-].
Qed.
