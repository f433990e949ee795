(** * Theorems C15, continued: hosts that end in a line feed, and the host of a request *)
From Coq Require Import ZifyBool ZifyN ZifyNat.
From Verif Require Import Py Spec HeadSpec PyFacts PyDict StreamModel StreamSpec StreamFacts StreamCalm CodecModel
  QueryModel HeadModel HeadFacts UrlFacts HeaderModel RequestModel RequestSpec HeaderRun PropsHead PropsPart PropsRequest.

(** ** Only a final line feed *)
Lemma shape_no_LF s h p : host_shape s h p -> ~ In LF s.
Proof.
  intros H. assert (HP : forall q, port_shape q -> ~ In LF q).
  { intros q Hq Hin. inversion Hq as [|d H1 H2]; subst; [easy|]. destruct Hin as [Hin|Hin]; [easy|].
    rewrite forallb_forall in H2. now apply H2 in Hin. }
  inversion H as [a q Ha Hc Hp|x b q Hx Hb Hb2 Hp]; subst; intros Hin.
  - apply in_app_or in Hin as [Hin|Hin]; [|now apply HP in Hin].
    rewrite forallb_forall in Hc. now apply Hc in Hin.
  - apply in_app_or in Hin as [Hin|Hin]; [|now apply HP in Hin].
    apply in_app_or in Hin as [[Hin|[]]|Hin]; [easy|]. apply in_app_or in Hin as [Hin|Hin].
    { rewrite forallb_forall in Hx. now apply Hx in Hin. }
    apply in_app_or in Hin as [[Hin|[]]|Hin]; [easy|]. apply in_app_or in Hin as [Hin|[Hin|[]]]; [|easy].
    rewrite forallb_forall in Hb2. now apply Hb2 in Hin.
Qed.
Lemma host_match_cases s : host_match s = true ->
  (exists h p, host_shape s h p) \/ exists t h p, s = t ++ [LF] /\ host_shape t h p.
Proof.
  unfold host_match. intros H. apply orb_true_iff in H as [H|H].
  - left. now apply host_match_exact_iff.
  - right. destruct (rev s) as [|c r] eqn:E; [easy|]. apply andb_true_iff in H as [H1 H2].
    apply N.eqb_eq in H1. subst c. apply host_match_exact_iff in H2 as (h & p & H2).
    exists (rev r), h, p. split; [|exact H2]. rewrite <- (rev_involutive s), E. reflexivity.
Qed.
Lemma lower_snoc_LF s t : lower s = t ++ [LF] -> exists u, s = u ++ [LF] /\ lower u = t.
Proof.
  unfold lower. intros H. destruct (rev s) as [|c r] eqn:E.
  { apply (f_equal (@length N)) in H. rewrite map_length, <- rev_length, E, app_length in H. cbn in H. lia. }
  assert (Hs : s = rev r ++ [c]) by now rewrite <- (rev_involutive s), E.
  rewrite Hs, map_app in H. cbn [map] in H. apply app_inj_tail in H as [H1 H2].
  exists (rev r). split; [|exact H1]. rewrite Hs. do 2 f_equal.
  unfold lowerc in H2. destruct (N.leb 65 c && N.leb c 90) eqn:Ec; [|exact H2]. unfold LF in H2. lia.
Qed.

(** a host that is taken although it is not what the pattern means: exactly one line feed, at
    the end, behind a host that is fine by itself *)
Theorem C15_only_final_newline :
  forall host d p, split_domain_port host = (d, p) -> d <> [] \/ p <> [] ->
    ~ In LF host \/ exists h, host = h ++ [LF] /\ ~ In LF h /\ exists n q, host_shape (lower h) n q.
Proof.
  intros host d p HS HN. unfold split_domain_port in HS.
  destruct (host_match (lower host)) eqn:E; [|cbn in HS; injection HS as <- <-; now destruct HN].
  clear HS. apply host_match_cases in E as [(h & q & H)|(t & h & q & Ht & H)].
  - left. intros Hin. apply lower_LF in Hin. now apply shape_no_LF in H.
  - right. apply lower_snoc_LF in Ht as (u & -> & Hu). exists u. split; [easy|]. rewrite Hu. split; [|now exists h, q].
    intros Hin. apply lower_LF in Hin. rewrite Hu in Hin. now apply shape_no_LF in H.
Qed.
Print Assumptions C15_only_final_newline.

(** and what becomes of such a host: the line feed ends up in the port or in the name *)
Lemma host_chars_lower s : (forall c, In c s -> is_host_char c = true \/ c = colon \/ is_digit c = true \/ c = LF) -> lower s = s.
Proof.
  intros H. unfold lower. rewrite <- (map_id s) at 2. apply map_ext_in. intros c Hin. apply H in Hin.
  unfold lowerc. destruct (N.leb_spec 65 c), (N.leb_spec c 90); cbn; try easy. exfalso.
  unfold is_host_char, is_lower, is_digit, colon, LF in Hin.
  destruct Hin as [Hx|[->|[Hx| ->]]]; lia.
Qed.
Theorem C15_final_newline_refuted :
  forall name p, name <> [] -> (forall c, In c name -> is_host_char c = true) -> (forall c, In c p -> is_digit c = true) ->
    split_domain_port (name ++ with_delim !":" p ++ [LF]) =
      match p with [] => (name ++ [LF], []) | _ => (drop_dot name, p ++ [LF]) end.
Proof.
  intros name p Hn Hc Hp. set (t := name ++ with_delim !":" p).
  assert (HT : host_shape t name (with_delim !":" p)).
  { apply hs_name; [exact Hn|now apply forallb_forall|]. destruct p as [|c p]; [constructor|]. cbn.
    constructor; [easy|]. now apply forallb_forall. }
  rewrite app_assoc. fold t.
  assert (HL : lower (t ++ [LF]) = t ++ [LF]).
  { apply host_chars_lower. intros c Hin. apply in_app_or in Hin as [Hin|[<-|[]]]; [|auto].
    apply in_app_or in Hin as [Hin|Hin]; [left; now apply Hc|].
    apply with_delim_In in Hin as [[<-|[]]|Hin]; [now right; left|right; right; left; now apply Hp]. }
  assert (HM : host_match (t ++ [LF]) = true).
  { unfold host_match. rewrite rev_app_distr. cbn [rev app]. rewrite N.eqb_refl, rev_involutive. cbn [andb].
    apply orb_true_iff. right. apply host_match_exact_iff. exists name, (with_delim !":" p). exact HT. }
  unfold split_domain_port. rewrite HL, HM. cbn [negb]. rewrite last_last. change (N.eqb LF rbr) with false. cbv iota.
  assert (HNC : ~ In colon name) by (apply host_char_not_colon; now apply forallb_forall).
  unfold rsplit1. destruct p as [|c p].
  - unfold t. cbn [with_delim]. rewrite app_nil_r.
    assert (Hr : rfindc colon (name ++ [LF]) = None).
    { apply rfindc_None. intros Hin. apply in_app_or in Hin as [Hin|[Hin|[]]]; [now apply HNC|easy]. }
    rewrite Hr. unfold endswith. rewrite rev_app_distr. reflexivity.
  - unfold t. change (with_delim !":" (c :: p)) with (colon :: c :: p). rewrite <- app_assoc. cbn [app].
    change (c :: p ++ [LF]) with ((c :: p) ++ [LF]).
    rewrite rfindc_app.
    + rewrite firstn_app_exact, skipn_S_app. reflexivity.
    + intros Hin. apply in_app_or in Hin as [Hin|[Hin|[]]]; [|easy]. apply Hp in Hin. discriminate.
Qed.
Print Assumptions C15_final_newline_refuted.

(** ** The host of a request *)
Lemma strip_no_final_LF s t : strip s = t ++ [LF] -> False.
Proof.
  unfold strip, strip_by, rstrip_by. set (u := lstrip_by is_ws s). intros H.
  apply (f_equal (@rev N)) in H. rewrite rev_involutive, rev_app_distr in H. cbn [rev app] in H.
  pose proof (lstrip_by_head is_ws (rev u)) as HH. rewrite H in HH. discriminate.
Qed.
Lemma named_good n ls ps v : Forall2 good_line ls ps -> In v (values_named n ps) -> exists raw, v = strip raw.
Proof.
  induction 1 as [|l [m x] ls ps HG _ IH]; [easy|]. cbn [values_named]. destruct (seqb n m); [|exact IH].
  intros [<-|Hin]; [|now apply IH]. destruct HG as [(raw & _ & _ & HV) _]. now exists raw.
Qed.

(** when the target names no host, the host and the port of the request are safe, without
    exception: a field value ends in no line feed *)
Theorem C15_host_field_safe :
  forall reg st s r w l, request_init reg st s = Ok r -> delivers s w -> max_ok (s_hdr st) ->
    parse_request_line (w_line w) = Ok l -> rl_domain l = [] ->
    forall st' r', parse_request_header reg (st, r) = (Ok tt, (st', r')) ->
      exists d p, host_is r' d /\ domain_safe d /\
        (port_is r' (PortInt (default_port (rl_scheme l))) \/
         port_is r' (PortStr p) /\ p <> [] /\ forall c, In c p -> is_digit c = true).
Proof.
  intros reg st s r w l Hi Hd Hm Hl HD st' r' HP.
  destruct (C13_host_source reg st s r w l Hi Hd Hm Hl) as [_ H1]. destruct (H1 st' r' HP) as (h & a & _ & HA & HH & _).
  destruct (C16_port reg st s r w l Hi Hd Hm Hl st' r' HP) as (a' & HA' & HPo).
  assert (a' = a) as ->.
  { destruct HA as [[HX _]|[_ (pre & HA)]]; [easy|]. destruct HA' as [[HX _]|[_ (pre' & HA')]]; [easy|].
    rewrite HA in HA'. now apply app_inj_tail in HA' as [_ ->]. }
  destruct (split_domain_port a) as [d p] eqn:E. cbn [fst snd] in HH, HPo.
  assert (HV : exists raw, a = strip raw).
  { destruct HA as [[HX _]|[_ (pre & HA)]]; [easy|]. destruct Hd as (_ & _ & _ & _ & HG & _).
    apply (named_good !"Host" _ _ a HG). rewrite HA. apply in_or_app. right. now left. }
  assert (HS : domain_safe d /\ forall c, In c p -> is_digit c = true).
  { assert (HC : (d = [] /\ p = []) \/ (d <> [] \/ p <> [])).
    { destruct d; [|right; now left]. destruct p; [now left|right; now right]. }
    destruct HC as [[-> ->]|HC]; [split; [left; easy|easy]|].
    destruct (C15_only_final_newline a d p E HC) as [HN|(u & -> & _)].
    - destruct (C15_host_decomposition_safe_partial a d p HN E) as (? & ? & _). now split.
    - destruct HV as [raw HV]. symmetry in HV. now apply strip_no_final_LF in HV. }
  destruct HS as [HS1 HS2]. exists d, p. split; [exact HH|]. split; [exact HS1|].
  destruct p as [|c p]; [now left|right]. now repeat split.
Qed.
Print Assumptions C15_host_field_safe.

(** a host written in the target is not stripped: there the line feed gets through *)
Theorem C15_target_newline_refuted :
  exists s r, request_init ex_reg ex_set s = Ok r /\
    let '(x, (_, r')) := parse_request_header ex_reg (ex_set, r) in
    x = Ok tt /\ host_is r' !"a.org" /\ port_is r' (PortStr (!"80" ++ [LF])) /\
    get_uri r' = Ok !"http://a.org/x".
Proof.
  exists (req [!"GET http://a.org:80" ++ [LF] ++ !"/x HTTP/1.1"; !"X: b"] []). eexists. split; [reflexivity|].
  vm_compute. repeat split.
Qed.
Print Assumptions C15_target_newline_refuted.

Example C15_newline_case : split_domain_port (!"a.org:80" ++ [LF]) = (!"a.org", !"80" ++ [LF]) /\
  split_domain_port (!"a.org" ++ [LF]) = (!"a.org" ++ [LF], []) /\ split_domain_port (!"a.org" ++ [LF; LF]) = ([], []).
Proof. vm_compute. repeat split. Qed.
Example C15_request_case :
  let '(x, (_, r)) := run hdr ex_set (req [!"GET / HTTP/1.1"; !"Host: A.org:80" ++ [LF]; !"X: b"] []) in
  x = Ok tt /\ host_is r !"a.org" /\ port_is r (PortStr !"80").
Proof. vm_compute. repeat split. Qed.
