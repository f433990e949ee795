(** * C112: what can stand in a parsed header *)
From Coq Require Import ZifyBool ZifyN ZifyNat.
From Verif Require Import Py Spec HeadSpec PyFacts PyDict StreamModel StreamSpec StreamFacts StreamCalm CodecModel
  QueryModel HeadModel HeadFacts UrlFacts HeaderModel UploadModel MultipartModel
  RequestModel RequestSpec HeaderRun BodyRun ParseRun PropsHead PropsPart PropsRequest PropsBody.

Local Arguments querydict : simpl never.

Lemma lines_decided : forall ls, (exists ps, Forall2 good_line ls ps) \/
  (exists pre ps l rest e, ls = pre ++ l :: rest /\ Forall2 good_line pre ps /\ bad_line l e).
Proof.
  induction ls as [|l ls [[ps IH]|(pre & ps & x & rest & e & -> & H1 & H2)]].
  - left. now exists [].
  - destruct (C10_every_line_decided l) as [[p Hp]|[e He]].
    + left. exists (p :: ps). now constructor.
    + right. exists [], [], l, ls, e. now split.
  - destruct (C10_every_line_decided l) as [[p Hp]|[e' He]].
    + right. exists (l :: pre), (p :: ps), x, rest, e. split; [reflexivity|]. split; [now constructor|exact H2].
    + right. exists [], [], l, (pre ++ x :: rest), e'. now split.
Qed.
(** the header dictionary stands for a list of good lines *)
Definition from_lines (d : headers) (ls : list str) (ps : list (str * str)) : Prop :=
  Forall is_line ls /\ Forall2 good_line ls ps /\ wf d /\ (forall n, getlist n d = values_named n ps) /\ (forall n, In n (dkeys d) <-> In n (map fst ps)).
Lemma lines_of first ls line d : is_line first -> Forall is_line ls -> parse_request_headers (lines_text (first :: ls)) = Ok (line, d) ->
  line = first /\ exists ps, from_lines d ls ps.
Proof.
  intros H0 HF HP. destruct ls as [|l ls]; [rewrite C10_no_headers_rejected in HP by exact H0; discriminate|].
  destruct (lines_decided (l :: ls)) as [[ps HG]|(pre & ps & x & rest & e & E & H1 & H2)].
  - destruct (C09_headers_grouped_in_order first (l :: ls) ps H0 HF HG ltac:(discriminate)) as (d' & E & G1 & G0 & G2). rewrite HP in E. injection E as -> ->.
    split; [reflexivity|]. exists ps. split; [exact HF|]. split; [exact HG|]. split; [exact G0|]. split; [exact G1|exact G2].
  - rewrite E in *. rewrite (C10_first_bad_line_decides first pre ps x rest e H0 HF H1 H2) in HP. discriminate.
Qed.
Lemma framed_headers r h b line d : first_occ crlfcrlf r h b -> parse_request_headers (h ++ crlf) = Ok (line, d) ->
  exists pre ls ps, from_lines d ls ps /\ r = pre ++ crlf ++ lines_text ls ++ crlf ++ b.
Proof.
  intros HF HP. destruct (C10_framed_blocks r h b HF) as [->|[(first & ls & E & H1 & H2)|[t ->]]].
  - rewrite C10_empty_block_rejected in HP. discriminate.
  - rewrite E in HP. destruct (lines_of first ls line d H1 H2 HP) as [_ [ps H]]. exists first, ls, ps. split; [exact H|].
    destruct HF as [-> _]. change crlfcrlf with (crlf ++ crlf). rewrite <- app_assoc, (app_assoc h), E. unfold lines_text. cbn [map concat]. now rewrite <- !app_assoc.
  - assert (HT : first_occ crlfcrlf (t ++ crlfcrlf ++ b) t b).
    { destruct HF as [-> HF]. split; [reflexivity|]. intros u v E. specialize (HF (crlf ++ u) v). rewrite <- !app_assoc in HF. rewrite E in HF.
      specialize (HF eq_refl). rewrite !app_length in HF. lia. }
    destruct HF as [Er HF]. destruct t as [|c t].
    { exfalso. specialize (HF [] (crlf ++ b)). rewrite Er in HF. specialize (HF eq_refl). cbn in HF. lia. }
    destruct (framed_lines (c :: t) b _ HT) as (l0 & ls & H1 & H2 & H3 & _); [easy| |].
    + intros [t' Ht]. specialize (HF [] (t' ++ crlfcrlf ++ b)). rewrite Er, Ht in HF. rewrite <- !app_assoc in HF. specialize (HF eq_refl). cbn in HF. lia.
    + rewrite <- app_assoc, H1 in HP. change (block (l0 :: ls)) with (lines_text (l0 :: ls)) in HP. rewrite C76_leading_blank_line_joins_request_line in HP by assumption.
      destruct (parse_request_headers (lines_text (l0 :: ls))) as [[l' d']|e] eqn:E; [|easy]. injection HP as _ <-.
      destruct (lines_of l0 ls l' d' H2 H3 E) as [_ [ps H]]. exists (crlf ++ l0), ls, ps. split; [exact H|].
      rewrite Er. change crlfcrlf with (crlf ++ crlf). rewrite <- !app_assoc, (app_assoc (c :: t)), H1. unfold block, lines_text. cbn [map concat]. now rewrite <- !app_assoc.
Qed.

Lemma values_field n v : forall ls ps, Forall2 good_line ls ps -> In v (values_named n ps) -> exists l, In l ls /\ good_line l (n, v).
Proof.
  induction 1 as [|l [m x] ls ps Hl HF IH]; [easy|]. cbn [values_named]. destruct (seqb n m) eqn:E.
  - apply seqb_eq in E. subst m. intros [<-|Hin]; [exists l; split; [now left|exact Hl]|]. destruct (IH Hin) as (l' & H1 & H2). exists l'. split; [now right|exact H2].
  - intros Hin. destruct (IH Hin) as (l' & H1 & H2). exists l'. split; [now right|exact H2].
Qed.
Lemma part_clean l n v : is_line l -> header_field l n v -> ~ occurs crlf n /\ ~ occurs crlf v.
Proof.
  intros [_ Hl] (raw & -> & _ & ->). split; intros (a & b & E); apply Hl.
  - exists a, (b ++ [58%N] ++ raw). rewrite E. now rewrite <- !app_assoc.
  - destruct (strip_by_spec is_ws raw) as (u & w & Er & _ & _). fold (strip raw) in Er. rewrite E in Er.
    exists (n ++ [58%N] ++ u ++ a), (b ++ w). rewrite Er. now rewrite <- !app_assoc.
Qed.
Lemma frame_ok_max max s x b s' : frame max s = (Ok x, b, s') -> max_ok max.
Proof.
  destruct max as [m|]; [|easy]. intros HF. cbn. destruct (Z.ltb_spec m 1) as [Hm|]; [exfalso|lia].
  unfold frame in HF. cbn [frame_loop Nat.add] in HF. unfold l0_read in HF. destruct (Z.eqb_spec m 0) as [->|Hz].
  - cbn in HF. discriminate HF.
  - rewrite read_neg in HF by lia. discriminate HF.
Qed.

(** ** C112 *)
Theorem C112_headers_come_from_their_lines :
  forall reg st s r st1 r1, src_error s = None -> request_init reg st s = Ok r -> parse_request_header reg (st, r) = (Ok tt, (st1, r1)) ->
    exists q d pre ls b, r_meta r1 = Some (mkMeta q (Some d)) /\ src_bytes s = pre ++ crlf ++ lines_text ls ++ crlf ++ b /\ Forall is_line ls /\
      (forall n vs, dget n d = Some vs -> vs <> []) /\
      forall n vs v, dget n d = Some vs -> In v vs ->
        (exists l, In l ls /\ header_field l n v) /\ ascii_text n /\ ascii_text v /\ ~ occurs crlf n /\ ~ occurs crlf v.
Proof.
  intros reg st s r st1 r1 Hs Hi HP. rewrite init_eq in Hi. destruct (querydict reg (Some (s_query st)) None true) as [q|e]; [|easy]. injection Hi as <-.
  rewrite header_eq in HP by reflexivity. cbn [r_stream fresh] in HP. destruct (frame (s_hdr st) (l0_init s)) as [[x b] s1] eqn:EF. cbn zeta in HP.
  destruct x as [hb|e]; [|easy]. pose proof (frame_ok_max _ _ _ _ _ EF) as Hm.
  assert (HF : exists h bd, first_occ crlfcrlf (src_bytes s) h bd /\ hb = h ++ crlf).
  { destruct (find crlfcrlf (src_bytes s)) as [i|] eqn:E.
    - apply find_first_occ in E as (h & bd & HFO & _). destruct (frame_found _ 1 _ _ _ _ Hm ltac:(lia) (l0at_init 1 s Hs) HFO) as (s' & E' & _).
      rewrite EF in E'. injection E' as -> _ _. now exists h, bd.
    - apply find_None in E. destruct (frame_missing _ 1 _ _ Hm ltac:(lia) (l0at_init 1 s Hs) E) as (s' & E' & _). rewrite EF in E'. discriminate E'. }
  destruct HF as (h & bd & HF & ->). destruct (parse_request_headers (h ++ crlf)) as [[line d]|e] eqn:EH; [|easy].
  destruct (framed_headers _ _ _ _ _ HF EH) as (pre & ls & ps & (L1 & L2 & L3 & L4 & L5) & L6).
  destruct (parse_request_line line) as [l|e]; [|easy]. rewrite populate_eq in HP.
  assert (HB : forall n vs, dget n d = Some vs -> vs <> [] /\ forall v, In v vs -> (exists l, In l ls /\ header_field l n v) /\ ascii_text n /\ ascii_text v /\ ~ occurs crlf n /\ ~ occurs crlf v).
  { intros n vs Hn. specialize (L4 n) as E. unfold getlist in E. rewrite Hn in E. subst vs. split.
    - intros E. assert (Hk : In n (map fst ps)) by (apply L5; apply dmem_In; unfold dmem; now rewrite Hn).
      clear - E Hk. induction ps as [|[m v] ps IH]; [easy|]. cbn [values_named map fst In] in *. destruct (seqb n m) eqn:Q; [discriminate E|].
      destruct Hk as [->|Hk]; [now rewrite seqb_refl in Q|now apply IH].
    - intros v Hv. destruct (values_field n v ls ps L2 Hv) as (l' & I1 & (I2 & I3 & I4)). rewrite Forall_forall in L1.
      destruct (part_clean l' n v (L1 _ I1) I2). split; [now exists l'|]. split; [exact I3|]. split; [exact I4|]. now split. }
  assert (HD : forall host d', pick_host l d = Ok (host, d') -> forall n vs, dget n d' = Some vs -> dget n d = Some vs).
  { intros host d'. unfold pick_host. destruct (nonempty (rl_domain l)); [now intros [= _ <-]|]. destruct (header !"Host" d); [|easy]. intros [= _ <-] n vs Hn.
    destruct (seqb n !"Host") eqn:E.
    - apply seqb_eq in E. subst n. rewrite dget_ddel_same in Hn by exact L3. discriminate Hn.
    - apply seqb_neq in E. now rewrite dget_ddel_other in Hn. }
  destruct (pick_host l d) as [[host d']|e] eqn:Ep; [|easy]. specialize (HD host d' eq_refl). destruct (ctype_of reg d') as [[c ch]|e]; [|easy]. cbn in HP.
  destruct (query_of _ _ _) as [g|e]; [|easy]. injection HP as _ <-.
  exists (Some (rl_query l)), d', pre, ls, bd. split; [now destruct ch|]. split; [exact L6|]. split; [exact L1|]. split.
  - intros n vs Hn. now apply (HB n vs (HD n vs Hn)).
  - intros n vs v Hn Hv. now apply (HB n vs (HD n vs Hn)).
Qed.
Print Assumptions C112_headers_come_from_their_lines.
(** but a bare LF or CR does not end a line, and a name may contain anything but a colon and CRLF *)
Theorem C112_bare_newlines_kept_refuted :
  exists s v, src_error s = None /\ In LF v /\ In CR v /\
    let '(x, (st, r)) := run hdr ex_set s in
    x = Ok tt /\ r_meta r = Some (mkMeta (Some []) (Some [(!"A", [v])])).
Proof.
  set (v := !"1" ++ [LF] ++ !"Host: evil" ++ [CR] ++ !"x").
  exists (req [!"GET / HTTP/1.1"; !"Host: a"; !"A: " ++ v] []), v. vm_compute. repeat split; auto 20.
Qed.
Print Assumptions C112_bare_newlines_kept_refuted.
Theorem C112_names_not_checked_refuted :
  exists s n, src_error s = None /\ In LF n /\ In 32%N n /\
    let '(x, (st, r)) := run hdr ex_set s in
    x = Ok tt /\ r_meta r = Some (mkMeta (Some []) (Some [(n, [!"b"]); ([], [!"c"]); (!" folded", [!"d"])])).
Proof.
  set (n := !"X" ++ [LF] ++ !"Y ").
  exists (req [!"GET / HTTP/1.1"; !"Host: a"; n ++ !":b"; !": c"; !" folded: d"] []), n. vm_compute. repeat split; auto 20.
Qed.
Print Assumptions C112_names_not_checked_refuted.
Example C112_case :
  (exists r, request_init ex_reg ex_set (req [!"GET / HTTP/1.1"; !"Host: a"; !"X: 1"; !"X: 2"] []) = Ok r) /\
  (let '(x, (st, r)) := run hdr ex_set (req [!"GET / HTTP/1.1"; !"Host: a"; !"X: 1"; !"X: 2"] []) in
   x = Ok tt /\ r_meta r = Some (mkMeta (Some []) (Some [(!"X", [!"1"; !"2"])]))) /\
  fst (run hdr ex_set (req [!"GET / HTTP/1.1"; !"Host : a"] [])) = Err NoHostFoundException.
Proof. split; [eexists; vm_compute; reflexivity|]. vm_compute. repeat split. Qed.
