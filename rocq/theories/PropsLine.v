(** * C142: the request line has no influence on the body *)
From Coq Require Import ZifyBool ZifyN ZifyNat.
From Verif Require Import Py Spec HeadSpec PyFacts PyDict StreamModel StreamSpec StreamFacts StreamCalm CodecModel PercentModel
  QueryModel HeadModel HeadFacts UrlFacts HeaderModel BoundaryModel UploadModel MultipartModel ReaderSim
  RequestModel RequestSpec HeaderRun BodyRun ParseRun RequestRel RequestMulti TwinFacts DateSpec PropsDate PropsHead PropsPart PropsRequest PropsBody PropsEnd PropsSame PropsOrder.

Local Arguments querydict : simpl never.

(** ** parse_request_body does not look at the attributes other than content_type, at GET and at the query in META *)
Section Blind.
  Context (reg : registry) (n2 : str -> option N) (mk : str -> res unit).
  Context (a : attrs) (g : option qdict) (q : option str).
  Definition disguise (r : request) : request :=
    set_get g (set_meta (option_map (fun m => mkMeta q (m_headers m)) (r_meta r))
      (set_attrs (mkA (a_method a) (a_scheme a) (a_host a) (a_port a) (a_path a) (a_proto a) (a_ctype (r_attrs r))) r)).
  Definition bl {A} (m m' : M A) : Prop := forall st r, r_hp r = true ->
    m' (st, disguise r) = let '(x, (st1, r1)) := m (st, r) in (x, (st1, disguise r1)).
  Lemma bl_ret {A} (x : A) : bl (mret x) (mret x). Proof. now intros st r H. Qed.
  Lemma bl_raise {A} e : bl (@mraise A e) (mraise e). Proof. now intros st r H. Qed.
  Lemma bl_lift {A} (x : res A) : bl (mlift x) (mlift x). Proof. now intros st r H. Qed.
  Lemma bl_upd f : (forall r, f (disguise r) = disguise (f r)) -> bl (mupd f) (mupd f).
  Proof. intros E st r H. unfold mupd. cbn [fst snd]. now rewrite E. Qed.
  Lemma bl_stream {A} (f : l0 -> res A * l0) : bl (mstream f) (mstream f).
  Proof. intros st r H. unfold mstream. cbn [fst snd]. change (r_stream (disguise r)) with (r_stream r). now destruct (f (r_stream r)). Qed.
  Lemma bl_bind {A B} (m m' : M A) (k k' : A -> M B) : stillM m -> bl m m' -> (forall x, bl (k x) (k' x)) -> bl (mbind m k) (mbind m' k').
  Proof.
    intros HS Hm Hk st r H. unfold mbind. rewrite (Hm st r H). pose proof (HS (st, r) H) as HS'.
    destruct (m (st, r)) as [[x|e] [st1 r1]]; [|reflexivity]. apply Hk. apply HS'.
  Qed.
  Lemma bl_sett {B} (k k' : sett -> M B) : (forall st, bl (k st) (k' st)) -> bl (mbind msett k) (mbind msett k').
  Proof. intros Hk st r H. unfold mbind, msett. cbn [fst]. now apply Hk. Qed.
  Lemma bl_req {B} (k k' : request -> M B) : (forall r, r_hp r = true -> bl (k r) (k' (disguise r))) -> bl (mbind mreq k) (mbind mreq k').
  Proof. intros Hk st r H. unfold mbind, mreq. cbn [snd]. now apply Hk. Qed.
  Ltac bl := repeat lazymatch goal with
    | |- bl (mbind msett _) _ => apply bl_sett; intros
    | |- bl (mbind mreq _) _ => apply bl_req; intros
    | |- bl (mret _) _ => apply bl_ret
    | |- bl (mraise _) _ => apply bl_raise
    | |- bl (mlift _) _ => apply bl_lift
    | |- bl (mstream _) _ => apply bl_stream
    | |- bl (mupd _) _ => apply bl_upd; reflexivity
    end.
  Lemma bl_query qs mut : bl (new_query reg qs mut) (new_query reg qs mut). Proof. unfold new_query. bl. Qed.
  Lemma bl_mread n : bl (m_read n) (m_read n). Proof. apply bl_stream. Qed.
  Lemma bl_loop : forall f max size chunk acc, bl (body_loop f max size chunk acc) (body_loop f max size chunk acc).
  Proof.
    induction f as [|f IH]; intros; cbn [body_loop]; [bl|]. destruct (_ && _)%bool; [|bl].
    apply bl_bind; [apply still_read|apply bl_mread|]. intros. apply IH.
  Qed.
  Lemma bl_body : bl (body reg) (body reg).
  Proof.
    unfold body. bl. change (r_hp (disguise r)) with (r_hp r). rewrite H. cbn [orb]. unfold body1. bl.
    cbn [disguise set_get set_meta set_attrs r_bp r_attrs a_ctype r_body r_hp]. destruct (_ && _)%bool; [bl|]. destruct (r_body r0); [bl|].
    destruct (r_hp r0); [|bl]. unfold read_body. bl. apply bl_bind; [apply still_read|apply bl_mread|]. intros c.
    apply bl_bind; [apply still_loop|apply bl_loop|]. intros x. destruct (within_max _ _); [|bl].
    apply bl_bind; [still|bl|]. intros. bl.
  Qed.
  Lemma bl_empty : bl (empty_post reg) (empty_post reg).
  Proof. unfold empty_post. apply bl_bind; [apply still_query|apply bl_query|]. intros. apply bl_bind; [still|bl|]. intros. bl. Qed.
  Lemma bl_upload : bl (parse_file_upload reg n2 mk) (parse_file_upload reg n2 mk).
  Proof.
    unfold parse_file_upload. bl. cbn [disguise set_get set_meta set_attrs r_meta]. destruct (r_meta r) as [m|]; [|bl]. cbn [option_map m_headers].
    destruct (m_headers m) as [h|]; [|bl]. apply bl_bind; [still|bl|]. intros. apply bl_bind; [still|bl|]. intros. bl.
  Qed.
  Lemma bl_post : bl (parse_post reg n2 mk) (parse_post reg n2 mk).
  Proof.
    unfold parse_post. bl. cbn [disguise set_get set_meta set_attrs r_attrs a_ctype]. destruct (a_ctype (r_attrs r)) as [c|]; [|bl].
    destruct (match c with Some c => seqb c CT_MULTI | None => false end).
    - intros st r1 H1. rewrite (bl_upload st r1 H1). pose proof (still_upload reg n2 mk (st, r1) H1) as HS.
      destruct (parse_file_upload reg n2 mk (st, r1)) as [[pf|e] [st2 r2]]; [reflexivity|]. destruct e; try reflexivity.
      destruct HS as (_ & H2 & _). cbn [snd] in H2.
      assert (B : bl (let! _ := empty_post reg in @mraise (postv * dict (list ufile)) MultiPartParserError) (let! _ := empty_post reg in mraise MultiPartParserError)).
      { apply bl_bind; [apply still_empty|apply bl_empty|]. intros. bl. }
      rewrite (B st2 r2 H2). reflexivity.
    - destruct (match c with Some c => seqb c CT_FORM | None => false end).
      + apply bl_bind; [apply still_body|apply bl_body|]. intros. apply bl_bind; [apply still_query|apply bl_query|]. intros.
        apply bl_bind; [still|bl|]. intros. bl.
      + apply bl_bind; [apply still_empty|apply bl_empty|]. intros. bl.
  Qed.
  Lemma bl_parse_body : bl (parse_request_body reg n2 mk) (parse_request_body reg n2 mk).
  Proof.
    unfold parse_request_body. bl. change (r_bp (disguise r)) with (r_bp r). change (r_hp (disguise r)) with (r_hp r). destruct (r_bp r); [bl|]. bl.
    apply bl_bind; [still|bl|]. intros. rewrite H. cbn [negb]. apply bl_bind; [still|bl|]. intros d. destruct d as [|c d].
    - apply bl_bind; [apply still_empty|apply bl_empty|]. intros. bl.
    - apply bl_bind; [still|bl|]. intros. apply bl_bind; [apply still_post|apply bl_post|]. intros. apply bl_bind; [apply still_body|apply bl_body|]. intros.
      bl. apply bl_bind; [still|bl|]. intros. bl.
  Qed.
End Blind.

(** ** C142.  Two requests with the same body and the same Content-Type and Content-Length, whatever their request lines and hosts:
    if the headers of both can be parsed, [parse] raises the same exception or none, and POST, FILES, the body, the settings and what is
    left in the stream are the same. *)
Definition same_body (r r' : request) : Prop :=
  r_post r = r_post r' /\ r_files r = r_files r' /\ r_body r = r_body r' /\ a_ctype (r_attrs r) = a_ctype (r_attrs r') /\
  r_hp r = r_hp r' /\ r_bp r = r_bp r' /\ r_hasfiles r = r_hasfiles r' /\ r_handlers r = r_handlers r'.
Lemma header_rest reg st s r w st1 r1 : request_init reg st s = Ok r -> delivers s w -> max_ok (s_hdr st) ->
  parse_request_header reg (st, r) = (Ok tt, (st1, r1)) -> r_hasfiles r1 = false /\ r_handlers r1 = None.
Proof.
  intros Hi Hd Hm. destruct (parse_wire reg st s r w Hi Hd Hm) as (q & s1 & d & Hr & HA & Hwf & Hg & HP).
  rewrite HP. cbn zeta. destruct (parse_request_line (w_line w)) as [l|e]; [|easy]. rewrite populate_eq.
  destruct (pick_host l d) as [[host h]|e] eqn:EH; [|easy].
  destruct (ctype_of reg h) as [[c ch]|e] eqn:EC; [|easy]. cbn [r_meta set_flags set_stream fresh].
  destruct (query_of reg (charset_after ch st) (rl_query l)) as [g|e] eqn:EQ; [|easy].
  intros [= <- <-]. now destruct ch.
Qed.
Theorem C142_line_does_not_matter :
  forall reg n2 mk st s s' r r' w w' w1 w1',
    request_init reg st s = Ok r -> request_init reg st s' = Ok r' -> delivers s w -> delivers s' w' -> max_ok (s_hdr st) ->
    w_body w = w_body w' -> agree_on [!"Content-Type"; !"Content-Length"] w w' ->
    parse_request_header reg (st, r) = (Ok tt, w1) -> parse_request_header reg (st, r') = (Ok tt, w1') ->
    same_outcome same_body (parse reg n2 mk (st, r)) (parse reg n2 mk (st, r')).
Proof.
  intros reg n2 mk st s s' r r' w w' [st1 r1] [st1' r1'] Hi Hi' Hd Hd' Hm HB HA HP HP'.
  destruct (header_known _ _ _ _ _ _ _ Hi Hd Hm HP) as (l & host & h & c & ch & g & El & Ea & Eme & Eh & Ec & Es & Eg & Er).
  destruct (header_known _ _ _ _ _ _ _ Hi' Hd' Hm HP') as (l' & host' & h' & c' & ch' & g' & El' & Ea' & Eme' & Eh' & Ec' & Es' & Eg' & Er').
  pose proof (header_rest _ _ _ _ _ _ _ Hi Hd Hm HP) as [F1 F2]. pose proof (header_rest _ _ _ _ _ _ _ Hi' Hd' Hm HP') as [F1' F2'].
  pose proof (header_ready _ _ _ _ _ _ _ Hi Hd Hm HP) as R. pose proof (header_ready _ _ _ _ _ _ _ Hi' Hd' Hm HP') as R'.
  assert (HCT : header !"Content-Type" h = header !"Content-Type" h').
  { eapply header_agree; [|exact HA|apply Eh|apply Eh']; [now left|discriminate|discriminate]. }
  assert (HCL : header !"Content-Length" h = header !"Content-Length" h').
  { eapply header_agree; [|exact HA|apply Eh|apply Eh']; [right; now left|discriminate|discriminate]. }
  assert (EQ : (c, ch) = (c', ch')) by (unfold HeaderRun.ctype_of in Ec, Ec'; rewrite HCT in Ec; congruence). injection EQ as <- <-. rewrite <- Es in Es'. subst st1'.
  set (r2 := disguise (r_attrs r1) (r_get r1) (Some (rl_query l)) r1').
  assert (H1' : r_hp r1' = true) by apply R'.
  assert (T : tw (uses [!"Content-Type"; !"Content-Length"]) true (s_handlers st1) 3 (st1, r1) (st1, r2)).
  { destruct R as [S1 S2 S3 S4 S5 (qq & S6 & S7) S8 _], R' as [S1' S2' S3' S4' S5' (qq' & S6' & S7') S8' _].
    split; [now split|]. constructor; cbn [snd r2 disguise set_get set_meta set_attrs r_stream r_hp r_bp r_get r_post r_files r_body r_hasfiles r_handlers r_attrs r_meta]; try congruence.
    - exists (w_body w). split; [exact S1|]. rewrite HB. exact S1'.
    - rewrite Ea, Ea'. reflexivity.
    - rewrite Eme, Eme'. cbn. split; [reflexivity|]. intros n [<-|[<-|[]]]; assumption. }
  unfold parse, mbind. rewrite HP, HP'.
  assert (HT : sim2 (tw (uses [!"Content-Type"; !"Content-Length"]) true (s_handlers st1) 5) (parse_request_body reg n2 mk (st1, r1)) (parse_request_body reg n2 mk (st1, r2))).
  { apply (twin_parse_body _ true (s_handlers st1) reg n2 mk) with (k := 3); [|lia|exact T].
    intros _ x x' Hx. apply like_init_eq. rewrite (Hx _ (or_introl eq_refl)), (Hx _ (or_intror (or_introl eq_refl))). reflexivity. }
  unfold r2 in HT. rewrite (bl_parse_body reg n2 mk _ _ _ st1 r1' H1') in HT.
  destruct (parse_request_body reg n2 mk (st1, r1)) as [x [st2 r3]], (parse_request_body reg n2 mk (st1, r1')) as [x' [st2' r3']].
  destruct HT as (E1 & [E2 _] & T2). cbn [fst snd] in E1, E2, T2. destruct T2.
  split; [exact E1|]. split; [exact E2|]. cbn [fst snd].
  cbn [disguise set_get set_meta set_attrs r_stream r_hp r_bp r_get r_post r_files r_body r_hasfiles r_handlers r_attrs r_meta a_ctype] in *.
  split; [|intros ns; apply (held_reads 5); [lia|exact tw_stream]].
  assert (HC : a_ctype (r_attrs r3) = a_ctype (r_attrs r3')) by now rewrite tw_attrs.
  assert (HH : r_hp r3 = r_hp r3') by congruence.
  exact (conj tw_post (conj tw_files (conj tw_body (conj HC (conj HH (conj tw_bp (conj tw_hf tw_hs))))))).
Qed.
Print Assumptions C142_line_does_not_matter.

Definition f142 : list (str * str) := [(!"Host", !"c"); (!"Content-Type", !"application/x-www-form-urlencoded"); (!"Content-Length", !"7")].
Definition f142' : list (str * str) := [(!"Content-Type", !"application/x-www-form-urlencoded"); (!"X-One", !"1"); (!"Content-Length", !"7")].
Definition l142 : str := !"GET /a HTTP/1.1".
Definition l142' : str := !"PUT http://d:81/b?x=1 HTTP/1.0".
Example C142_case :
  let s := req (l142 :: map field f142) !"a=1&b=2" in
  let s' := req (l142' :: map field f142') !"a=1&b=2" in
  delivers s (mkWire l142 (map field f142) f142 !"a=1&b=2") /\ delivers s' (mkWire l142' (map field f142') f142' !"a=1&b=2") /\
  agree_on [!"Content-Type"; !"Content-Length"] (mkWire l142 (map field f142) f142 !"a=1&b=2") (mkWire l142' (map field f142') f142' !"a=1&b=2") /\
  fst (run (parse_request_header ex_reg) ex_set s) = Ok tt /\ fst (run (parse_request_header ex_reg) ex_set s') = Ok tt /\
  (let '(x, (st, r)) := run (parse ex_reg no_cp ok_temp) ex_set s in
   x = Ok tt /\ option_map (fun p => match p with PQuery q => q_d q | PForm _ => [] end) (r_post r) = Some [(!"a", [PU !"1"]); (!"b", [PU !"2"])] /\
   a_method (r_attrs r) = Some (Some !"GET") /\ a_host (r_attrs r) = Some (Some !"c")) /\
  (let '(x, (st, r)) := run (parse ex_reg no_cp ok_temp) ex_set s' in
   x = Ok tt /\ option_map (fun p => match p with PQuery q => q_d q | PForm _ => [] end) (r_post r) = Some [(!"a", [PU !"1"]); (!"b", [PU !"2"])] /\
   a_method (r_attrs r) = Some (Some !"PUT") /\ a_host (r_attrs r) = Some (Some !"d")).
Proof.
  cbn zeta. split; [apply delivers_msg; reflexivity || discriminate|]. split; [apply delivers_msg; reflexivity || discriminate|].
  split; [|vm_compute; repeat split]. intros n v [<-|[<-|[]]]; reflexivity.
Qed.
