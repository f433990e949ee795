(** * Multipart bodies read through the LazyStream of a request *)
From Coq Require Import ZifyBool ZifyN ZifyNat.
From Verif Require Import Py Spec PyFacts PyDict StreamModel StreamSpec StreamFacts StreamCalm CodecModel PercentModel
  QueryModel HeadModel HeadFacts HeaderModel BoundaryModel BoundarySpec UploadModel MultipartModel MultipartSem MultipartFacts
  MultipartDet PartFacts MultipartSpec PartsSpec RequestModel HeaderRun BodyRun ParseRun.

(** ** The end of the stream *)
Definition ended (s : l0) : Prop := ls_prod s = Some [] /\ ls_left s = [].
Lemma ended_read s n : ended s -> (0 < n)%Z -> l0_read (Some n) s = (Ok [], s).
Proof.
  intros [H1 H2] Hn. unfold l0_read, ls_read, src_items. rewrite H1. cbn [length Nat.add ls_read_loop].
  replace (Z.eqb n 0) with false by lia. replace (Z.ltb n 0) with false by lia.
  unfold ls_next. rewrite H2, H1. cbn. do 2 f_equal. destruct s as [p l pos h rem]. cbn in *. now subst.
Qed.
Lemma read_loop_out : forall fuel n out (s : l0) b s', ls_read_loop it_next fuel n out s = (Ok b, s') -> exists x, b = out ++ x.
Proof.
  induction fuel as [|f IH]; intros n out s b s' H; [easy|]. cbn [ls_read_loop] in H.
  destruct (Z.eqb n 0); [injection H as <- _; exists []; now rewrite app_nil_r|].
  destruct (Z.ltb n 0); [easy|]. destruct (ls_next it_next s) as [[c| |e] s1]; [|injection H as <- _; exists []; now rewrite app_nil_r|easy].
  destruct (ls_unget _ s1) as [[u|e] s2]; [|easy]. apply IH in H as [x ->]. exists (firstn (Z.to_nat n) c ++ x). now rewrite app_assoc.
Qed.
Lemma read_loop_ended : forall fuel n (s : l0) s', (0 < n)%Z -> ls_read_loop it_next fuel n [] s = (Ok [], s') -> ended s'.
Proof.
  induction fuel as [|f IH]; intros n s s' Hn H; [easy|]. cbn [ls_read_loop] in H.
  replace (Z.eqb n 0) with false in H by lia. replace (Z.ltb n 0) with false in H by lia.
  destruct (ls_next it_next s) as [[c| |e] s1] eqn:E; [| |easy].
  - destruct (ls_unget (skipn (Z.to_nat n) c) s1) as [[u|e] s2] eqn:EU; [|easy]. pose proof H as H'.
    apply read_loop_out in H' as [x Hx]. symmetry in Hx. apply app_eq_nil in Hx as [Hx _]. cbn [app] in Hx.
    assert (c = []) by (destruct c; [easy|]; destruct (Z.to_nat n) eqn:En; [lia|easy]). subst c.
    rewrite firstn_nil in H. rewrite skipn_nil in EU. injection EU as _ <-. cbn [app zlen length] in H.
    replace (n - zlen [])%Z with n in H by (cbn; lia). apply (IH n s1); easy.
  - injection H as <-. unfold ls_next in E. destruct (ls_left s); [|easy]. destruct (ls_prod s) as [p|]; [|easy].
    destruct p as [|[d|e] p]; cbn in E; try easy. now injection E as <-.
Qed.

Lemma l0_yields csize : 0 < csize -> forall m k r s, length r <= m -> l0at k s r -> 1 <= k <= 40 ->
  exists cs q, yields (ci_next l0_rd) (mkCI s csize) cs None q /\ concat cs = r /\ Forall (fun c => c <> []) cs /\
    length cs <= length r /\ l0at k (ci_flo q) [].
Proof.
  intros Hc. induction m as [m IH] using lt_wf_ind. intros k r s Hm HA Hk.
  destruct (l0_read_spec k s r csize HA Hk) as (s' & HR & HA'). destruct r as [|x r].
  - exists [], (mkCI s' csize). rewrite firstn_nil in HR. rewrite skipn_nil in HA'.
    repeat split; [|constructor|easy|exact HA'].
    apply y_stop; unfold ci_next, l0_rd; cbn [ci_flo ci_size]; [now rewrite HR|].
    rewrite ended_read; [easy| |lia]. eapply read_loop_ended; [|exact HR]. lia.
  - destruct (IH (m - 1) ltac:(cbn in Hm; lia) k (skipn csize (x :: r)) s') as (cs & q & HY & HCc & HF & HL & HQ); [|exact HA'|easy|].
    { rewrite skipn_length. cbn [length] in *. lia. }
    exists (firstn csize (x :: r) :: cs), q. repeat split.
    + eapply y_chunk; [|exact HY]. unfold ci_next, l0_rd; cbn [ci_flo ci_size]. rewrite HR. destruct csize; [lia|easy].
    + cbn [concat]. rewrite HCc. apply firstn_skipn.
    + constructor; [|exact HF]. destruct csize; [lia|easy].
    + cbn [length]. rewrite skipn_length in HL. cbn [length] in HL. lia.
    + exact HQ.
Qed.

(** draining *)
Lemma drain_sat : forall n N k (s : l0) r, sat it_next N k s r -> (match ls_left s with [] => N + 1 | _ => N + 2 end) <= n ->
  exists s', ls_drain it_next n s = (Ok tt, s') /\ sat it_next N k s' [].
Proof.
  induction n as [|n IH]; intros N k s r HS Hn; [destruct (ls_left s); lia|]. cbn [ls_drain].
  pose proof (sat_next it_next N k s r HS) as HX. destruct (ls_next it_next s) as [[c| |e] s1]; [|now exists s1|easy].
  destruct HX as (r' & _ & HS1 & HL & _ & HN). destruct (ls_left s) eqn:El.
  - destruct (HN eq_refl) as (M & -> & HS2). destruct (IH M k s1 r' HS2) as (s' & H1 & H2); [rewrite HL; lia|].
    exists s'. split; [exact H1|]. eapply sat_mono; [| |exact H2]; lia.
  - destruct (IH N k s1 r' HS1) as (s' & H1 & H2); [rewrite HL; lia|]. now exists s'.
Qed.
Lemma l0_drain k s r : l0at k s r -> exists s', l0_exh s = (Ok tt, s') /\ l0at k s' [].
Proof.
  intros H. destruct (drain_sat (4 + src_items s) (src_items s) k s r H) as (s' & H1 & H2); [destruct (ls_left s); lia|].
  exists s'. split; [exact H1|]. now apply l0at_of_sat in H2.
Qed.

(** ** The parser over a stream that still holds the bytes [r] *)
Section Whole.
  Context (reg : registry) (name2cp : str -> option N) (mk_temp : str -> res unit) (st : mset) (D : str).
  Context (HD : Dok D).
  Notation parse0 := (mp_parse l0_rd l0_exh reg name2cp mk_temp st D).

  Theorem l0_parse_sem k s r csize len hs qd fuel : l0at k s r -> 1 <= k <= 40 -> 0 < csize ->
    querydict reg (Some (ms_query st)) None true = Ok qd -> len <> 0%Z -> 2 * length r + 4 <= fuel ->
    exists o, parses reg name2cp mk_temp st D r (start_state st len hs) o /\
      match o with
      | Err e => fst (parse0 fuel csize len hs s) = Err e
      | Ok p => exists s', parse0 fuel csize len hs s = (Ok (p_post p, p_files p), s') /\ l0at k s' []
      end.
  Proof.
    intros HA Hk Hc Hq Hl Hf. destruct (l0_yields csize Hc (length r) k r s ltac:(lia) HA Hk) as (cs & q & HY & HC & HF & HLn & HQ).
    destruct (parse_sem l0_rd l0_exh reg name2cp mk_temp st D HD s csize cs q len hs qd HY HF Hq Hl fuel) as (o & HP & HO).
    { rewrite HC. lia. }
    rewrite HC in HP. exists o. split; [exact HP|]. destruct o as [p|e]; [|exact HO].
    destruct (l0_drain k _ _ HQ) as (s' & HE & HA'). rewrite HE in HO. now exists s'.
  Qed.

  (** the default handler *)
  Theorem l0_parse_det k s r csize len m qd fuel ts its : l0at k s r -> 1 <= k <= 40 -> 0 < csize ->
    querydict reg (Some (ms_query st)) None true = Ok qd -> len <> 0%Z -> 2 * length r + 4 <= fuel ->
    ms_fmem st = Some m -> (0 <= m)%Z -> (forall x, mk_temp x <> Err StopFutureHandlers) ->
    splits D r ts -> Forall2 (item_of reg name2cp) ts its -> Forall2 small ts its ->
    match u_run reg mk_temp st m its u_start with
    | Err e => fst (parse0 fuel csize len [HConv new_conv] s) = Err e
    | Ok u => exists s', parse0 fuel csize len [HConv new_conv] s = (Ok (u_post u, u_files u), s') /\ l0at k s' []
    end.
  Proof.
    intros HA Hk Hc Hq Hl Hf Hst Hm Hmk HS HI Hsm.
    destruct (l0_parse_sem k s r csize len [HConv new_conv] qd fuel HA Hk Hc Hq Hl Hf) as (o & HP & HO).
    pose proof (run_det reg name2cp mk_temp st m Hst Hmk D _ _ HS its HI Hsm _ u_start o (start_abs st m Hm Hst len) HP) as HR.
    destruct (u_run reg mk_temp st m its u_start) as [u|e].
    - destruct HR as (p & -> & H1 & H2 & _). destruct HO as (s' & HO & HA'). exists s'. now rewrite HO, H1, H2.
    - now subst o.
  Qed.

  (** reading through the stream of a request makes no difference *)
  Theorem l0_parse_same k s r csize len m qd fuel ts its src csize2 len2 fuel2 : l0at k s r -> 1 <= k <= 40 -> 0 < csize ->
    querydict reg (Some (ms_query st)) None true = Ok qd -> len <> 0%Z -> 2 * length r + 4 <= fuel ->
    ms_fmem st = Some m -> (0 <= m)%Z -> (forall x, mk_temp x <> Err StopFutureHandlers) ->
    splits D r ts -> Forall2 (item_of reg name2cp) ts its -> Forall2 small ts its ->
    src_bytes src = r -> src_error src = None -> 0 < csize2 -> len2 <> 0%Z -> enough src <= fuel2 ->
    fst (parse0 fuel csize len [HConv new_conv] s) =
      fst (parse_src reg name2cp mk_temp st D fuel2 csize2 len2 [HConv new_conv] src) /\
    (forall v s', parse0 fuel csize len [HConv new_conv] s = (Ok v, s') -> l0at k s' []).
  Proof.
    intros HA Hk Hc Hq Hl Hf Hst Hm Hmk HS HI Hsm Hs He Hc2 Hl2 Hf2.
    pose proof (l0_parse_det k s r csize len m qd fuel ts its HA Hk Hc Hq Hl Hf Hst Hm Hmk HS HI Hsm) as R1.
    pose proof (parse_src_det reg name2cp mk_temp st D HD src csize2 len2 m qd fuel2 ts its Hc2 He Hq Hl2 Hf2 Hst Hm Hmk) as R2.
    rewrite Hs in R2. specialize (R2 HS HI Hsm). destruct (u_run reg mk_temp st m its u_start) as [u|e].
    - destruct R1 as (s' & R1 & HA'). rewrite R1, R2. split; [easy|]. now intros v s'' [= _ <-].
    - rewrite R1, R2. split; [easy|]. intros v s' H. rewrite H in R1. easy.
  Qed.
End Whole.

(** ** parse_request_body of a multipart request *)
Local Arguments querydict : simpl never.
Local Arguments decode : simpl never.
Section Finish.
  Context (reg : registry) (name2cp : str -> option N) (mk_temp : str -> res unit).
  Notation finish := (finish reg name2cp mk_temp).
  Notation run_parser st b len := (fun s => mp_parse l0_rd l0_exh reg name2cp mk_temp (s_multi st)
    (!"--" ++ pchars b) (2 * l0_total s + 4) (mp_chunk (s_handlers st)) len (map new_handler (s_handlers st)) s).

  Lemma upload_eq st r q h : r_meta r = Some (mkMeta q (Some h)) ->
    parse_file_upload reg name2cp mk_temp (st, r) =
      match mp_init reg (header !"Content-Type" h) (header !"Content-Length" h) with
      | Err e => (Err e, (st, r))
      | Ok (b, len) =>
          match run_parser st b len (r_stream r) with
          | (Ok (p, f), s1) => (Ok (PForm p, f), (st, set_stream s1 r))
          | (Err e, s1) => (Err e, (st, set_stream s1 r))
          end
      end.
  Proof.
    intros H. unfold parse_file_upload. unfold mbind at 1, mreq at 1. unfold mbind at 1, msett at 1. cbn [fst snd].
    rewrite H. cbn [m_headers]. unfold mbind at 1, mlift at 1.
    destruct (mp_init reg _ _) as [[b len]|e]; [|reflexivity]. cbn [fst snd].
    unfold mbind at 1, mstream at 1. cbn [fst snd].
    destruct (mp_parse _ _ _ _ _ _ _ _ _ _ _ _) as [[[p f]|e] s1]; reflexivity.
  Qed.
  (** the form was parsed: the stored body is what is left of the stream *)
  Lemma finish_multi_ok k st r q h b len post files s1 rest : r_bp r = false -> r_hp r = true -> r_body r = None ->
    a_ctype (r_attrs r) = Some (Some CT_MULTI) -> r_meta r = Some (mkMeta q (Some h)) ->
    mp_init reg (header !"Content-Type" h) (header !"Content-Length" h) = Ok (b, len) ->
    run_parser st b len (r_stream r) = (Ok (post, files), s1) -> l0at k s1 rest -> 1 <= k <= 40 ->
    match s_dmem st with
    | Some m => (zlen rest <= m)%Z -> forall t, decode reg (s_charset st) rest = Ok t ->
        exists s', l0at k s' [] /\
          finish (st, r) = (Ok tt, (st, stored (PForm post) files t
            (set_body (Some (PB rest)) (set_stream s' (set_hasfiles true (set_stream s1 r))))))
    | None => fst (finish (st, r)) = Err RequestDataTooBig
    end.
  Proof.
    intros H1 H2 H3 H4 Hme Hin HP HA Hk. set (r1 := set_hasfiles true (set_stream s1 r)).
    assert (E : finish (st, r) =
      (let! b := body reg in let! st := msett in let! t := mlift (decode_text reg (s_charset st) b) in
       mupd (fun r => set_post (Some (PForm post)) (Some files) (set_flags (r_hp r) true (set_body (Some (PU t)) r)))) (st, r1)).
    { unfold ParseRun.finish. unfold mbind at 1. unfold RequestModel.parse_post. unfold mbind at 1, mreq. cbn [snd]. rewrite H4.
      change (seqb CT_MULTI CT_MULTI) with true. cbv beta iota. rewrite (upload_eq st r q h Hme), Hin, HP. reflexivity. }
    rewrite E. clear E HP. destruct (s_dmem st) as [m|] eqn:Em.
    - intros Hm t Ht. destruct (read_body_ok k st r1 rest m HA Hk Em Hm) as (s' & HR & HA').
      exists s'. split; [exact HA'|]. unfold mbind at 1. rewrite body_reads; [|assumption|now left|assumption]. rewrite HR.
      unfold mbind, msett, mlift, decode_text. cbn [fst]. rewrite Ht. reflexivity.
    - destruct (read_body_big k st r1 rest HA Hk) as (s' & HR); [now rewrite Em|].
      unfold mbind at 1. rewrite body_reads; [|assumption|now left|assumption]. now rewrite HR.
  Qed.
  Lemma finish_multi_err st r q h e : a_ctype (r_attrs r) = Some (Some CT_MULTI) -> r_meta r = Some (mkMeta q (Some h)) ->
    (e = MultiPartParserError -> exists q, querydict reg (Some (s_query st)) None false = Ok q) ->
    (mp_init reg (header !"Content-Type" h) (header !"Content-Length" h) = Err e \/
     exists b len, mp_init reg (header !"Content-Type" h) (header !"Content-Length" h) = Ok (b, len) /\
       fst (run_parser st b len (r_stream r)) = Err e) ->
    fst (finish (st, r)) = Err e.
  Proof.
    intros H4 Hme Hq HE.
    assert (HU : exists w, parse_file_upload reg name2cp mk_temp (st, r) = (Err e, w) /\ fst w = st).
    { rewrite (upload_eq st r q h Hme). destruct HE as [->|(b & len & -> & HE)]; [now exists (st, r)|].
      destruct (mp_parse _ _ _ _ _ _ _ _ _ _ _ _) as [[[p f]|e'] s1]; [easy|]. injection HE as ->.
      now exists (st, set_stream s1 r). }
    destruct HU as ([st' r'] & HU & Est). cbn [fst] in Est. subst st'.
    unfold ParseRun.finish. unfold mbind at 1. unfold RequestModel.parse_post. unfold mbind at 1, mreq. cbn [snd]. rewrite H4.
    change (seqb CT_MULTI CT_MULTI) with true. cbv beta iota. rewrite HU.
    destruct e; try reflexivity. destruct (Hq eq_refl) as [q' Hq']. unfold mbind. rewrite empty_post_eq, Hq'. reflexivity.
  Qed.
End Finish.
