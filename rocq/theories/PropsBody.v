(** * Theorems C49-C59: the body of a request object, reuse and sharing *)
From Coq Require Import ZifyBool ZifyN ZifyNat.
From Verif Require Import Py Spec HeadSpec PyFacts PyDict StreamModel StreamSpec StreamFacts StreamCalm CodecModel PercentModel
  QueryModel HeadModel HeadFacts UrlFacts HeaderModel UploadModel MultipartModel PropsHead PropsPart RequestModel RequestSpec
  HeaderRun BodyRun ParseRun TapeFacts RequestRel PropsRequest.

Local Arguments querydict : simpl never.
Local Arguments decode : simpl never.

(** ** The state after a successful parse of the header *)
Record ready (reg : registry) (w : wire) (st st1 : sett) (r1 : request) : Prop := {
  rd_stream : l0at 3 (r_stream r1) (w_body w);
  rd_hp : r_hp r1 = true;
  rd_bp : r_bp r1 = false;
  rd_body : r_body r1 = None;
  rd_files : r_files r1 = Some [];
  rd_post : exists q, querydict reg (Some (s_query st)) None true = Ok q /\ r_post r1 = Some (PQuery q);
  rd_ctype : exists c, a_ctype (r_attrs r1) = Some c;
  rd_set : st1 = st \/ exists ch, st1 = with_charset ch st }.
Lemma header_ready reg st s r w st1 r1 : request_init reg st s = Ok r -> delivers s w -> max_ok (s_hdr st) ->
  parse_request_header reg (st, r) = (Ok tt, (st1, r1)) -> ready reg w st st1 r1.
Proof.
  intros Hi Hd Hm. assert (HQ : exists q, querydict reg (Some (s_query st)) None true = Ok q /\ r = fresh q s).
  { rewrite init_eq in Hi. destruct (querydict reg (Some (s_query st)) None true) as [q|e]; [|easy]. exists q. split; [easy|]. now injection Hi. }
  destruct HQ as (q0 & HQ & Hr0).
  destruct (parse_wire reg st s r w Hi Hd Hm) as (q & s1 & d & Hr & HA & Hwf & Hg & HP).
  rewrite HP. cbn zeta. destruct (parse_request_line (w_line w)) as [l|e]; [|easy]. rewrite populate_eq.
  destruct (pick_host l d) as [[host hs']|e]; [|easy].
  destruct (ctype_of reg hs') as [[c ch]|e]; [|easy]. cbn [r_meta set_flags set_stream fresh].
  destruct (query_of reg (charset_after ch st) (rl_query l)) as [g|e]; [|easy].
  rewrite Hr in Hr0.
  assert (q = q0) by (unfold fresh in Hr0; congruence). subst q0.
  intros [= <- <-]. constructor; try (now destruct ch).
  - exists q. split; [exact HQ|]. now destruct ch.
  - exists c. now destruct ch.
  - destruct ch as [ch|]; [right|now left]. now exists (pchars ch).
Qed.
Lemma ready_set reg w st st1 r1 : ready reg w st st1 r1 ->
  s_hdr st1 = s_hdr st /\ s_dmem st1 = s_dmem st /\ s_fmem st1 = s_fmem st /\ s_dnum st1 = s_dnum st /\ s_handlers st1 = s_handlers st.
Proof. intros H. destruct (rd_set _ _ _ _ _ H) as [->|[ch ->]]; now repeat split. Qed.

(** ** C49 *)
Definition fits (n : nat) (max : option Z) : Prop := match max with Some m => (Z.of_nat n <= m)%Z | None => False end.
Lemma skip_skip {A} a : forall b (l : list A), skipn a (skipn b l) = skipn (b + a) l.
Proof. induction b as [|b IH]; intros l; [reflexivity|]. destruct l as [|x l]; cbn; [now destruct a|apply IH]. Qed.
Lemma reads_after reg n2 mk st : forall ns r b, l0at 3 (r_stream r) b -> Forall (fun n => (0 <= n)%Z) ns ->
  exists s', after reg n2 mk (map (fun n => ORead (Some n)) ns) (st, r) = (st, set_stream s' r) /\
    l0at 3 s' (skipn (fold_right (fun n x => Z.to_nat n + x) 0 ns) b).
Proof.
  induction ns as [|n ns IH]; intros r b HA Hns; cbn [map fold_right].
  - exists (r_stream r). split; [now destruct r|exact HA].
  - inversion_clear Hns as [|? ? Hn Hns']. destruct (m_read_spec 3 st r b n HA ltac:(lia) Hn) as (s1 & HR & HA1).
    destruct (IH (set_stream s1 r) _ HA1 Hns') as (s' & HI & HA'). exists s'. split.
    + unfold after in *. cbn [fold_left]. unfold perform at 2. unfold vmap, mbind, mret. rewrite HR. cbn [snd]. rewrite HI. reflexivity.
    + now rewrite skip_skip in HA'.
Qed.
Theorem C49_body_exact :
  forall reg n2 mk st s r w st1 r1 ns, request_init reg st s = Ok r -> delivers s w -> max_ok (s_hdr st) ->
    parse_request_header reg (st, r) = (Ok tt, (st1, r1)) -> Forall (fun n => (0 <= n)%Z) ns ->
    let w1 := after reg n2 mk (map (fun n => ORead (Some n)) ns) (st1, r1) in
    let rest := skipn (fold_right (fun n x => Z.to_nat n + x) 0 ns) (w_body w) in
    (fits (length rest) (s_dmem st) ->
       exists w2, body reg w1 = (Ok (PB rest), w2) /\ body reg w2 = (Ok (PB rest), w2)) /\
    (~ fits (length rest) (s_dmem st) -> fst (body reg w1) = Err RequestDataTooBig).
Proof.
  intros reg n2 mk st s r w st1 r1 ns Hi Hd Hm HP Hns w1 rest.
  pose proof (header_ready _ _ _ _ _ _ _ Hi Hd Hm HP) as R. destruct (ready_set _ _ _ _ _ R) as (_ & Hdm & _).
  destruct (reads_after reg n2 mk st1 ns r1 (w_body w) (rd_stream _ _ _ _ _ R) Hns) as (s' & HW & HA).
  fold w1 in HW. fold rest in HA. rewrite HW. clearbody w1. clear HW.
  assert (H1 : r_hp (set_stream s' r1) = true) by apply R.
  assert (H2 : raw_ok (set_stream s' r1)) by (left; apply R).
  assert (H3 : r_body (set_stream s' r1) = None) by apply R.
  split; intros Hf.
  - destruct (s_dmem st) as [m|] eqn:Em; [|easy]. rewrite <- Hdm in Em.
    destruct (read_body_ok 3 st1 (set_stream s' r1) rest m HA ltac:(lia)) as (s2 & HB & _); [congruence|exact Hf|].
    exists (st1, set_body (Some (PB rest)) (set_stream s2 (set_stream s' r1))).
    rewrite body_reads by assumption. rewrite HB. split; [reflexivity|]. apply body_cached; [apply R|left; apply R|reflexivity].
  - rewrite body_reads by assumption. destruct (read_body_big 3 st1 (set_stream s' r1) rest HA ltac:(lia)) as (s2 & HB).
    + rewrite Hdm. destruct (s_dmem st) as [m|]; [|easy]. cbn in Hf. unfold zlen. lia.
    + now rewrite HB.
Qed.
Print Assumptions C49_body_exact.
(** body() called first of all parses the header *)
Theorem C49_body_parses_header :
  forall reg st s r w st1 r1, request_init reg st s = Ok r -> delivers s w -> max_ok (s_hdr st) ->
    parse_request_header reg (st, r) = (Ok tt, (st1, r1)) -> body reg (st, r) = body reg (st1, r1).
Proof.
  intros reg st s r w st1 r1 Hi Hd Hm HP. pose proof (header_ready _ _ _ _ _ _ _ Hi Hd Hm HP) as R.
  rewrite (body_hp reg (st1, r1)) by apply R.
  rewrite init_eq in Hi. destruct (querydict reg (Some (s_query st)) None true) as [q|e]; [|easy]. injection Hi as <-.
  unfold body, mbind, mreq. cbn [fst snd fresh r_hp r_bp andb orb]. now rewrite HP.
Qed.
Print Assumptions C49_body_parses_header.

(** *** Cases.  [field n v] is a header line; [msg] a request *)
Definition field (p : str * str) : str := fst p ++ !": " ++ snd p.
Definition plainb (s : str) : bool := forallb (fun c => N.ltb c 128 && negb (N.eqb c CR)) s.
Definition fieldb (p : str * str) : bool :=
  plainb (fst p) && plainb (snd p) && negb (mem 58%N (fst p)) && seqb (strip (!" " ++ snd p)) (snd p).
Lemma no_crlf l : plainb l = true -> ~ occurs crlf l.
Proof.
  intros H (u & v & ->). unfold plainb in H. rewrite forallb_forall in H.
  specialize (H CR ltac:(apply in_or_app; right; now left)). easy.
Qed.
Lemma delivers_msg line ps b : line <> [] -> plainb line = true -> ps <> [] -> forallb fieldb ps = true ->
  delivers (req (line :: map field ps) b) (mkWire line (map field ps) ps b).
Proof.
  intros H1 H2 H3 H4. split; [reflexivity|]. split; [unfold req, src_bytes, wire_bytes; cbn; now rewrite app_nil_r|].
  rewrite forallb_forall in H4.
  assert (HF : forall p, In p ps -> plainb (fst p) = true /\ plainb (snd p) = true /\ ~ In 58%N (fst p) /\ snd p = strip (!" " ++ snd p)).
  { intros p Hp. specialize (H4 p Hp). unfold fieldb in H4. rewrite !andb_true_iff in H4. destruct H4 as [[[A B] C] D].
    apply seqb_eq in D. repeat split; [exact A|exact B| |now symmetry]. intros HI. apply mem_In in HI. now rewrite HI in C. }
  assert (HA : forall s, plainb s = true -> ascii_text s).
  { intros s Hs c Hc. unfold plainb in Hs. rewrite forallb_forall in Hs. specialize (Hs c Hc). lia. }
  split; [split; [exact H1|now apply no_crlf]|]. split; [|split; [|now destruct ps]].
  - apply Forall_forall. intros l Hl. apply in_map_iff in Hl as (p & <- & Hp). destruct (HF p Hp) as (A & B & _). split.
    + unfold field. now destruct (fst p).
    + apply no_crlf. unfold field, plainb in *. rewrite !forallb_app. now rewrite A, B.
  - cbn [w_lines w_fields]. clear H3 H4. induction ps as [|p ps IH]; [constructor|]. constructor.
    + destruct (HF p ltac:(now left)) as (A & B & C & D). split; [|split; now apply HA].
      exists (!" " ++ snd p). now split.
    + apply IH. intros q Hq. apply HF. now right.
Qed.
Definition ex_line : str := !"POST /p HTTP/1.1".
Definition ex_fields (ct : str) : list (str * str) := [(!"Host", !"a"); (!"Content-Type", ct)].
Definition ex_src (ct b : str) : src := req (ex_line :: map field (ex_fields ct)) b.
Definition ex_wire (ct b : str) : wire := mkWire ex_line (map field (ex_fields ct)) (ex_fields ct) b.
(** limit of 10 bytes *)
Definition ex10 : sett := mkS (Some 16%Z) (Some 30%Z) (Some 10%Z) (Some 3%Z) !"utf-8" [KConv].
Definition ex_req (st : sett) (s : src) : request := match request_init ex_reg st s with Ok r => r | Err _ => blank s end.
Definition ex_ready (st : sett) (s : src) : world := snd (hdr (st, ex_req st s)).

Lemma ex_req_ok st s : (if request_init ex_reg st s then true else false) = true -> request_init ex_reg st s = Ok (ex_req st s).
Proof. unfold ex_req. now destruct (request_init ex_reg st s). Qed.
Lemma ex_ready_ok st s : (if fst (hdr (st, ex_req st s)) then true else false) = true ->
  hdr (st, ex_req st s) = (Ok tt, (fst (ex_ready st s), snd (ex_ready st s))).
Proof. unfold ex_ready. destruct (hdr (st, ex_req st s)) as [[[]|e] w]; [|easy]. now destruct w. Qed.


Lemma ex_in st ct b : (if request_init ex_reg st (ex_src ct b) then true else false) = true ->
  (if fst (hdr (st, ex_req st (ex_src ct b))) then true else false) = true -> forallb fieldb (ex_fields ct) = true ->
  max_ok (s_hdr st) -> let '(st1, r1) := ex_ready st (ex_src ct b) in
  request_init ex_reg st (ex_src ct b) = Ok (ex_req st (ex_src ct b)) /\ delivers (ex_src ct b) (ex_wire ct b) /\
  parse_request_header ex_reg (st, ex_req st (ex_src ct b)) = (Ok tt, (st1, r1)) /\ ready ex_reg (ex_wire ct b) st st1 r1.
Proof.
  intros H1 H2 H3 H4. pose proof (ex_req_ok _ _ H1) as I. pose proof (ex_ready_ok _ _ H2) as P.
  assert (D : delivers (ex_src ct b) (ex_wire ct b)) by (apply delivers_msg; easy).
  destruct (ex_ready st (ex_src ct b)) as [st1 r1]. split; [exact I|]. split; [exact D|]. split; [exact P|].
  now apply (header_ready ex_reg st (ex_src ct b) (ex_req st (ex_src ct b))).
Qed.
Example C49_case :
  let '(st1, r1) := ex_ready ex10 (ex_src !"text/plain" !"a line: 10 b") in
  (exists w2, body ex_reg (after ex_reg no_cp ok_temp [ORead (Some 2%Z)] (st1, r1)) = (Ok (PB !"line: 10 b"), w2)) /\
  fst (body ex_reg (st1, r1)) = Err RequestDataTooBig.
Proof.
  pose proof (ex_in ex10 !"text/plain" !"a line: 10 b" ltac:(vm_compute; reflexivity) ltac:(vm_compute; reflexivity) eq_refl ltac:(discriminate)) as H.
  set (x := ex_ready ex10 _) in *. set (r := ex_req ex10 _) in *. set (s := ex_src _ _) in *. clearbody x r s.
  destruct x as [st1 r1]. destruct H as (I & D & P & _). split.
  - pose proof (C49_body_exact ex_reg no_cp ok_temp ex10 s r _ st1 r1 [2%Z] I D ltac:(discriminate) P
      ltac:(constructor; [easy|constructor])) as [H _]. cbv zeta in H. cbn [map fold_right] in H.
    change (skipn _ _) with !"line: 10 b" in H. destruct H as (w2 & H & _); [vm_compute; discriminate|]. exists w2. exact H.
  - pose proof (C49_body_exact ex_reg no_cp ok_temp ex10 s r _ st1 r1 [] I D ltac:(discriminate) P
      ltac:(constructor)) as [_ H]. cbv zeta in H. cbn [map fold_right] in H. unfold after in H. cbn [fold_left] in H.
    apply H. vm_compute. intros X. now apply X.
Qed.

(** ** C50 is false: a body refused by its first block is gone, and the second call
    reports an empty body *)
Lemma read_body_refused k st r b m : l0at k (r_stream r) b -> 1 <= k <= 40 -> s_dmem st = Some m -> (m < zlen b)%Z -> (zlen b <= BLOCK)%Z ->
  exists s', read_body (st, r) = (Err RequestDataTooBig, (st, set_stream s' r)) /\ l0at k s' [].
Proof.
  intros HA Hk Hm Hb Hl. unfold read_body, mbind, msett, mreq. cbn [fst snd].
  destruct (m_read_spec k st r b BLOCK HA Hk block_pos) as (s1 & HR & HA1). rewrite HR, Hm.
  assert (HL : length b <= Z.to_nat BLOCK) by (generalize dependent BLOCK; intros; unfold zlen in *; lia).
  rewrite firstn_all2 in * by exact HL. rewrite skipn_all2 in HA1 by exact HL.
  cbn [body_loop Nat.add within_max]. assert (E : Z.leb (zlen b) m = false) by lia. rewrite E. cbn [andb].
  unfold mret. cbn [fst snd within_max]. rewrite E. exists s1. split; [reflexivity|exact HA1].
Qed.
Theorem C50_refused_then_empty_refuted :
  forall reg st s r w st1 r1 m, request_init reg st s = Ok r -> delivers s w -> max_ok (s_hdr st) ->
    parse_request_header reg (st, r) = (Ok tt, (st1, r1)) ->
    s_dmem st = Some m -> (0 <= m < Z.of_nat (length (w_body w)))%Z -> (Z.of_nat (length (w_body w)) <= 65536)%Z ->
    exists w2, body reg (st1, r1) = (Err RequestDataTooBig, w2) /\ fst (body reg w2) = Ok (PB []).
Proof.
  intros reg st s r w st1 r1 m Hi Hd Hm HP Hdm Hlo Hhi. pose proof (header_ready _ _ _ _ _ _ _ Hi Hd Hm HP) as R.
  destruct (ready_set _ _ _ _ _ R) as (_ & Hdm1 & _). destruct R.
  destruct (read_body_refused 3 st1 r1 (w_body w) m rd_stream0 ltac:(lia)) as (s1 & HB & HA1);
    [congruence|unfold zlen; lia|exact Hhi|].
  exists (st1, set_stream s1 r1). rewrite body_reads; [|assumption|now left|assumption]. split; [exact HB|].
  destruct (read_body_ok 3 st1 (set_stream s1 r1) [] m HA1 ltac:(lia)) as (s2 & HB2 & _); [congruence|cbn; lia|].
  rewrite body_reads; [|assumption|now left|assumption]. now rewrite HB2.
Qed.
Print Assumptions C50_refused_then_empty_refuted.
Lemma bare_pair (x : world) : x = (fst x, snd x). Proof. now destruct x. Qed.
Example C50_case :
  let w1 := ex_ready ex10 (ex_src !"text/plain" !"more than ten") in
  exists w2, body ex_reg w1 = (Err RequestDataTooBig, w2) /\ fst (body ex_reg w2) = Ok (PB []).
Proof.
  pose proof (ex_in ex10 !"text/plain" !"more than ten" ltac:(vm_compute; reflexivity) ltac:(vm_compute; reflexivity) eq_refl ltac:(discriminate)) as H.
  cbv zeta. set (x := ex_ready ex10 _) in *. set (r := ex_req ex10 _) in *. set (s := ex_src _ _) in *. clearbody x r s.
  destruct x as [st1 r1]. destruct H as (I & D & P & _).
  apply (C50_refused_then_empty_refuted ex_reg ex10 s r _ st1 r1 10%Z I D ltac:(discriminate) P eq_refl);
    vm_compute; repeat split; discriminate.
Qed.

(** ** C51 *)
Definition marks {A} (m : M A) : Prop := forall w x, fst (m w) = Ok x -> r_bp (snd (snd (m w))) = true.
Lemma marks_bind {A B} (m : M A) (f : A -> M B) : (forall x, marks (f x)) -> marks (mbind m f).
Proof. intros H w x. unfold mbind. destruct (m w) as [[a|e] w1]; [apply H|discriminate]. Qed.
Lemma finish_marks reg n2 mk w : fst (finish reg n2 mk w) = Ok tt -> r_bp (snd (snd (finish reg n2 mk w))) = true.
Proof.
  assert (H : marks (finish reg n2 mk)); [|apply H]. unfold finish. repeat (apply marks_bind; intros). now intros w1 x3.
Qed.
Definition leaves_body (o : op) : bool :=
  match o with OStream _ | OBodyStream _ | OContentType _ => false | _ => true end.
Definition raw_blocked (w : world) : Prop :=
  r_bp (snd w) = true /\ r_hp (snd w) = true /\ exists c, a_ctype (r_attrs (snd w)) = Some c /\ is_form c = true.
Lemma blocked_body reg w : raw_blocked w -> body reg w = (Err RawPostDataException, w).
Proof.
  intros (H1 & H2 & c & H3 & H4). rewrite body_hp by exact H2. unfold body1, mbind, mreq. now rewrite H1, H3, H4.
Qed.
Lemma blocked_perform reg n2 mk o w : leaves_body o = true -> raw_blocked w -> raw_blocked (snd (perform reg n2 mk o w)).
Proof.
  intros Ho H. pose proof H as (H1 & H2 & c & H3 & H4). destruct w as [st r]. cbn [fst snd] in *.
  destruct o; try discriminate Ho; unfold perform, vunit, vmap.
  - unfold mbind. rewrite header_done by exact H2. exact H.
  - unfold mbind. rewrite blocked_body by exact H. exact H.
  - unfold mbind. rewrite parse_body_done by exact H1. exact H.
  - unfold parse. unfold mbind. rewrite header_done by exact H2. rewrite parse_body_done by exact H1. exact H.
  - unfold m_read, mbind, mstream. cbn [snd fst]. destruct (l0_read n (r_stream r)) as [[d|e] s1]; [exact H|]. destruct e; exact H.
  - exact H.
  - exact H.
  - unfold set_scheme, mupd, mbind. cbn [snd fst]. destruct (nonempty s); exact H.
  - unfold assign_handlers, mbind, mreq. cbn [snd]. destruct (r_hasfiles r); exact H.
  - unfold get_handlers, mbind, mreq, msett. cbn [snd]. destruct (r_handlers r) as [[|h hs]|]; exact H.
  - exact H.
Qed.
(** for every history before and after; [read(1)] tells whether there is a body *)
Theorem C51_raw_body_unavailable_partial :
  forall reg n2 mk st s r before later, request_init reg st s = Ok r ->
    let w := after reg n2 mk before (st, r) in
    forall d w1 c, fst (m_read (Some 1%Z) w) = Ok d -> d <> [] ->
      perform reg n2 mk OParseBody w = (Ok VNone, w1) ->
      a_ctype (r_attrs (snd w1)) = Some (Some c) -> c = CT_FORM \/ c = CT_MULTI ->
      Forall (fun o => leaves_body o = true) later ->
      fst (body reg (after reg n2 mk later w1)) = Err RawPostDataException.
Proof.
  intros reg n2 mk st s r before later Hi w d w1 c Hd Hne HP Hc Hf Hl.
  assert (HO : ordered (snd w)).
  { apply after_ordered. rewrite init_eq in Hi. destruct (querydict reg (Some (s_query st)) None true); [|easy]. now injection Hi as <-. }
  assert (HB : raw_blocked w1).
  { assert (HO1 : ordered (snd w1)).
    { pose proof (perform_ordered reg n2 mk OParseBody w HO) as H. now rewrite HP in H. }
    assert (Hbp : r_bp (snd w1) = true).
    { clearbody w. destruct w as [st0 r0]. cbn [snd] in *. unfold perform, vunit, vmap, mbind, mret in HP.
      destruct (r_bp r0) eqn:E1; [rewrite parse_body_done in HP by exact E1; now injection HP as <-|].
      destruct (r_hp r0) eqn:E2.
      - rewrite parse_body_eq in HP by assumption. unfold m_read, mstream in Hd. cbn [snd] in Hd.
        destruct (l0_read (Some 1%Z) (r_stream r0)) as [[d'|e] s1]; [|exfalso; destruct e; discriminate Hd].
        injection Hd as ->. destruct d as [|x d]; [easy|]. destruct (ls_unget (x :: d) s1) as [[u|e] s2]; [|discriminate HP].
        pose proof (finish_marks reg n2 mk (st0, set_stream s2 (at_body st0 r0))) as HM.
        destruct (finish reg n2 mk (st0, set_stream s2 (at_body st0 r0))) as [[[]|e] w2]; [|discriminate HP].
        injection HP as <-. now apply HM.
      - rewrite parse_body_early in HP by assumption. destruct (querydict reg (Some (s_query st0)) None false); discriminate HP. }
    split; [exact Hbp|]. split; [now apply HO1|]. exists (Some c). split; [exact Hc|]. now destruct Hf as [-> | ->]. }
  assert (HB2 : raw_blocked (after reg n2 mk later w1)).
  { clear HP Hc. revert w1 HB. induction later as [|o later IH]; intros w1 HB; [exact HB|].
    inversion_clear Hl as [|? ? H1 H2]. cbn. apply IH; [exact H2|]. now apply blocked_perform. }
  now rewrite blocked_body.
Qed.
Print Assumptions C51_raw_body_unavailable_partial.
(** what is missing: with an empty body the object does not notice that it was parsed *)
Theorem C51_empty_body_refuted :
  forall reg n2 mk st s r w st1 r1 m q, request_init reg st s = Ok r -> delivers s w -> max_ok (s_hdr st) ->
    parse_request_header reg (st, r) = (Ok tt, (st1, r1)) -> w_body w = [] -> s_dmem st = Some m -> (0 <= m)%Z ->
    querydict reg (Some (s_query st1)) None false = Ok q ->
    exists w2, parse_request_body reg n2 mk (st1, r1) = (Ok tt, w2) /\ fst (body reg w2) = Ok (PB []).
Proof.
  intros reg n2 mk st s r w st1 r1 m q Hi Hd Hm HP Hb Hdm Hm0 Hq. pose proof (header_ready _ _ _ _ _ _ _ Hi Hd Hm HP) as R.
  destruct (ready_set _ _ _ _ _ R) as (_ & Hdm1 & _). destruct R. rewrite Hb in *.
  destruct (parse_body_none reg n2 mk 3 st1 r1 rd_bp0 rd_hp0 rd_stream0 ltac:(lia)) as (s1 & HA & ->). rewrite Hq.
  eexists. split; [reflexivity|]. set (r2 := set_hasfiles _ _).
  destruct (read_body_ok 3 st1 r2 [] m HA ltac:(lia)) as (s2 & HB & _); [congruence|exact Hm0|].
  rewrite body_reads; [|assumption|now left|assumption]. now rewrite HB.
Qed.
Print Assumptions C51_empty_body_refuted.

(** ** C52 *)
Definition no_header (o : op) : bool := match o with OHeader | OBody | OParse => false | _ => true end.
Definition unparsed (w : world) : Prop := r_hp (snd w) = false /\ r_bp (snd w) = false.
Lemma unparsed_perform reg n2 mk o w : no_header o = true -> unparsed w -> unparsed (snd (perform reg n2 mk o w)).
Proof.
  intros Ho H. pose proof H as (H1 & H2). destruct w as [st r]. cbn [fst snd] in *.
  destruct o; try discriminate Ho; unfold perform, vunit, vmap.
  - unfold mbind. rewrite parse_body_early by assumption. destruct (querydict reg (Some (s_query st)) None false); exact H.
  - unfold m_read, mbind, mstream. cbn [snd fst]. destruct (l0_read n (r_stream r)) as [[d|e] s1]; [exact H|]. destruct e; exact H.
  - unfold mbind. rewrite assign_stream_eq. destruct (querydict reg (Some (s_query st)) None true); [easy|exact H].
  - unfold mbind. rewrite assign_body_eq. destruct (querydict reg (Some (s_query st)) None true); [|exact H]. now split.
  - exact H.
  - exact H.
  - unfold set_scheme, mupd, mbind. cbn [snd fst]. destruct (nonempty s); exact H.
  - exact H.
  - unfold assign_handlers, mbind, mreq. cbn [snd]. destruct (r_hasfiles r); exact H.
  - unfold get_handlers, mbind, mreq, msett. cbn [snd]. destruct (r_handlers r) as [[|h hs]|]; exact H.
  - exact H.
Qed.
Lemma unparsed_after reg n2 mk os : forall w, Forall (fun o => no_header o = true) os -> unparsed w -> unparsed (after reg n2 mk os w).
Proof.
  induction os as [|o os IH]; intros w Hl H; [exact H|]. inversion_clear Hl as [|? ? H1 H2]. cbn. apply IH; [exact H2|].
  now apply unparsed_perform.
Qed.
(** the history [since] follows the construction of the object, or a successful assignment of a stream *)
Definition current (reg : registry) (n2 : str -> option N) (mk : str -> res unit) (st : sett) (r : request) (w : world) : Prop :=
  w = (st, r) \/ exists os s', perform reg n2 mk (OStream s') (after reg n2 mk os (st, r)) = (Ok VNone, w).
Theorem C52_header_first_partial :
  forall reg n2 mk st s r w0 since, request_init reg st s = Ok r -> current reg n2 mk st r w0 ->
    Forall (fun o => no_header o = true) since ->
    let w := after reg n2 mk since w0 in
    r_stream (snd (snd (perform reg n2 mk OParseBody w))) = r_stream (snd w) /\
    fst (perform reg n2 mk OParseBody w) =
      match querydict reg (Some (s_query (fst w))) None false with
      | Ok _ => Err RequestHeaderParseException
      | Err e => Err e
      end.
Proof.
  intros reg n2 mk st s r w0 since Hi Hc Hs w.
  assert (H : unparsed w).
  { apply unparsed_after; [exact Hs|]. destruct Hc as [->|(os & s' & HP)].
    - rewrite init_eq in Hi. destruct (querydict reg (Some (s_query st)) None true); [|easy]. injection Hi as <-. now split.
    - destruct (after reg n2 mk os (st, r)) as [st1 r1]. unfold perform, vunit, vmap, mbind in HP. rewrite assign_stream_eq in HP.
      destruct (querydict reg (Some (s_query st1)) None true); [|discriminate HP]. injection HP as <-. now split. }
  destruct w as [st1 r1], H as [H1 H2]. unfold perform, vunit, vmap, mbind. cbn [fst snd] in *.
  rewrite parse_body_early by assumption. destruct (querydict reg (Some (s_query st1)) None false); split; reflexivity.
Qed.
Print Assumptions C52_header_first_partial.
(** what is missing: with an unknown charset in the Settings another exception comes first *)
Theorem C52_unknown_charset_refuted :
  exists st s r, request_init ex_reg st s = Ok r /\
    let w := after ex_reg no_cp ok_temp [OEncoding !"klingon"] (st, r) in
    fst (perform ex_reg no_cp ok_temp OParseBody w) = Err LookupError.
Proof.
  exists ex_set, (req [!"GET / HTTP/1.1"; !"Host: a"] []). eexists. split; [reflexivity|]. vm_compute. reflexivity.
Qed.
Print Assumptions C52_unknown_charset_refuted.
Example C52_case :
  let w := after ex_reg no_cp ok_temp [OHeader; OStream (req [!"GET / HTTP/1.1"; !"Host: b"] []); ORead (Some 3%Z)]
             (ex_set, ex_req ex_set (req [!"GET / HTTP/1.1"; !"Host: a"] [])) in
  fst (perform ex_reg no_cp ok_temp OParseBody w) = Err RequestHeaderParseException /\
  fst (perform ex_reg no_cp ok_temp (ORead (Some 5%Z)) w) = Ok (VText (PB !" / HT")).
Proof. vm_compute. split; reflexivity. Qed.

(** ** C53 *)
Theorem C53_urlencoded_partial :
  forall reg n2 mk st s r w st1 r1 q t, request_init reg st s = Ok r -> delivers s w -> max_ok (s_hdr st) ->
    parse_request_header reg (st, r) = (Ok tt, (st1, r1)) -> a_ctype (r_attrs r1) = Some (Some !"application/x-www-form-urlencoded") ->
    w_body w <> [] -> fits (length (w_body w)) (s_dmem st) ->
    querydict reg (Some (mkQS (s_charset st1) (s_dnum st))) (Some (PB (w_body w))) false = Ok q ->
    decode reg (s_charset st1) (w_body w) = Ok t ->
    exists r2, parse reg n2 mk (st, r) = (Ok tt, (st1, r2)) /\ r_post r2 = Some (PQuery q) /\ r_files r2 = Some [] /\
      r_get r2 = r_get r1.
Proof.
  intros reg n2 mk st s r w st1 r1 q t Hi Hd Hm HP Hc Hb Hf Hq Ht. pose proof (header_ready _ _ _ _ _ _ _ Hi Hd Hm HP) as R.
  destruct (ready_set _ _ _ _ _ R) as (_ & Hdm1 & _ & Hdn & Hh). destruct R.
  unfold parse, mbind. rewrite HP.
  destruct (parse_body_some reg n2 mk 3 st1 r1 _ rd_bp0 rd_hp0 rd_stream0 ltac:(lia) Hb) as (s2 & HA2 & ->).
  unfold fits in Hf. destruct (s_dmem st) as [m|] eqn:Em; [|easy].
  destruct (finish_form reg n2 mk 5 st1 (set_stream s2 (at_body st1 r1)) (w_body w) m) as (s3 & _ & HF); try assumption; try lia.
  cbn zeta in HF. rewrite HF. unfold s_query. rewrite Hdn. rewrite Hq, Ht. eexists. split; [reflexivity|]. now repeat split.
Qed.
Print Assumptions C53_urlencoded_partial.
(** the errors of the QueryDict (too many fields, unknown charset) are passed on *)
Theorem C53_errors :
  forall reg n2 mk st s r w st1 r1 e, request_init reg st s = Ok r -> delivers s w -> max_ok (s_hdr st) ->
    parse_request_header reg (st, r) = (Ok tt, (st1, r1)) -> a_ctype (r_attrs r1) = Some (Some !"application/x-www-form-urlencoded") ->
    w_body w <> [] ->
    (~ fits (length (w_body w)) (s_dmem st) -> fst (parse reg n2 mk (st, r)) = Err RequestDataTooBig) /\
    (fits (length (w_body w)) (s_dmem st) ->
     querydict reg (Some (mkQS (s_charset st1) (s_dnum st))) (Some (PB (w_body w))) false = Err e ->
     fst (parse reg n2 mk (st, r)) = Err e).
Proof.
  intros reg n2 mk st s r w st1 r1 e Hi Hd Hm HP Hc Hb. pose proof (header_ready _ _ _ _ _ _ _ Hi Hd Hm HP) as R.
  destruct (ready_set _ _ _ _ _ R) as (_ & Hdm1 & _ & Hdn & Hh). destruct R.
  unfold parse, mbind. rewrite HP.
  destruct (parse_body_some reg n2 mk 3 st1 r1 _ rd_bp0 rd_hp0 rd_stream0 ltac:(lia) Hb) as (s2 & HA2 & ->). split.
  - intros Hf. unfold finish. unfold mbind at 1. unfold parse_post. unfold mbind at 1, mreq. cbn [snd].
    change (r_attrs (set_stream s2 (at_body st1 r1))) with (r_attrs r1). rewrite Hc.
    change (seqb _ CT_MULTI) with false. change (seqb _ CT_FORM) with true. cbv iota.
    unfold mbind at 1. rewrite body_reads; [|assumption|now left|assumption].
    destruct (read_body_big 5 st1 (set_stream s2 (at_body st1 r1)) (w_body w) HA2 ltac:(lia)) as (s3 & HB).
    + rewrite Hdm1. destruct (s_dmem st) as [m|]; [|easy]. cbn in Hf. unfold zlen. lia.
    + now rewrite HB.
  - intros Hf Hq. unfold fits in Hf. destruct (s_dmem st) as [m|] eqn:Em; [|easy].
    destruct (finish_form reg n2 mk 5 st1 (set_stream s2 (at_body st1 r1)) (w_body w) m) as (s3 & _ & HF); try assumption; try lia.
    cbn zeta in HF. rewrite HF. unfold s_query. rewrite Hdn. now rewrite Hq.
Qed.
Print Assumptions C53_errors.
(** without a body POST is the QueryDict of the empty string made with the settings before the parse *)
Theorem C53_empty_body :
  forall reg n2 mk st s r w st1 r1 q, request_init reg st s = Ok r -> delivers s w -> max_ok (s_hdr st) ->
    parse_request_header reg (st, r) = (Ok tt, (st1, r1)) -> w_body w = [] ->
    querydict reg (Some (s_query st1)) None false = Ok q ->
    exists r2 q0, parse reg n2 mk (st, r) = (Ok tt, (st1, r2)) /\ r_post r2 = Some (PQuery q0) /\ r_files r2 = Some [] /\
      querydict reg (Some (mkQS (s_charset st) (s_dnum st))) (Some (PB [])) true = Ok q0.
Proof.
  intros reg n2 mk st s r w st1 r1 q Hi Hd Hm HP Hb Hq. pose proof (header_ready _ _ _ _ _ _ _ Hi Hd Hm HP) as R.
  destruct R. rewrite Hb in *. unfold parse, mbind. rewrite HP.
  destruct (parse_body_none reg n2 mk 3 st1 r1 rd_bp0 rd_hp0 rd_stream0 ltac:(lia)) as (s1 & HA & ->). rewrite Hq.
  destruct rd_post0 as (q0 & Hq0 & Hp0). exists (set_hasfiles true (set_stream s1 (at_body st1 r1))), q0.
  split; [reflexivity|]. split; [exact Hp0|]. split; [assumption|exact Hq0].
Qed.
Print Assumptions C53_empty_body.
(** what is missing: bytes that the charset cannot decode.  The QueryDict is built (reading
    them as ISO-8859-1) but then the parse fails and POST is not set. *)
Theorem C53_undecodable_refuted :
  forall reg n2 mk st s r w st1 r1 q e, request_init reg st s = Ok r -> delivers s w -> max_ok (s_hdr st) ->
    parse_request_header reg (st, r) = (Ok tt, (st1, r1)) -> a_ctype (r_attrs r1) = Some (Some !"application/x-www-form-urlencoded") ->
    w_body w <> [] -> fits (length (w_body w)) (s_dmem st) ->
    querydict reg (Some (mkQS (s_charset st1) (s_dnum st))) (Some (PB (w_body w))) false = Ok q ->
    decode reg (s_charset st1) (w_body w) = Err e ->
    exists r2, parse reg n2 mk (st, r) = (Err e, (st1, r2)) /\ r_post r2 = r_post r1.
Proof.
  intros reg n2 mk st s r w st1 r1 q e Hi Hd Hm HP Hc Hb Hf Hq Ht. pose proof (header_ready _ _ _ _ _ _ _ Hi Hd Hm HP) as R.
  destruct (ready_set _ _ _ _ _ R) as (_ & Hdm1 & _ & Hdn & Hh). destruct R.
  unfold parse, mbind. rewrite HP.
  destruct (parse_body_some reg n2 mk 3 st1 r1 _ rd_bp0 rd_hp0 rd_stream0 ltac:(lia) Hb) as (s2 & HA2 & ->).
  unfold fits in Hf. destruct (s_dmem st) as [m|] eqn:Em; [|easy].
  destruct (finish_form reg n2 mk 5 st1 (set_stream s2 (at_body st1 r1)) (w_body w) m) as (s3 & _ & HF); try assumption; try lia.
  cbn zeta in HF. rewrite HF. unfold s_query. rewrite Hdn. rewrite Hq, Ht. eexists. split; reflexivity.
Qed.
Print Assumptions C53_undecodable_refuted.
Example C53_case :
  let s := ex_src !"application/x-www-form-urlencoded" !"a=1&b=%41" in
  exists r2 q, parse ex_reg no_cp ok_temp (ex10, ex_req ex10 s) = (Ok tt, (fst (ex_ready ex10 s), r2)) /\ r_post r2 = Some (PQuery q) /\
    q_d q = [(!"a", [PU !"1"]); (!"b", [PU !"A"])].
Proof.
  pose proof (ex_in ex10 !"application/x-www-form-urlencoded" !"a=1&b=%41" ltac:(vm_compute; reflexivity) ltac:(vm_compute; reflexivity) eq_refl ltac:(discriminate)) as H.
  assert (HC : let '(st1, r1) := ex_ready ex10 (ex_src !"application/x-www-form-urlencoded" !"a=1&b=%41") in
    a_ctype (r_attrs r1) = Some (Some !"application/x-www-form-urlencoded") /\ s_charset st1 = !"utf-8") by (vm_compute; split; reflexivity).
  cbv zeta. set (x := ex_ready ex10 _) in *. set (r := ex_req ex10 _) in *. set (s := ex_src _ _) in *. clearbody x r s.
  destruct x as [st1 r1]. destruct H as (I & D & P & _), HC as [HC HS].
  destruct (C53_urlencoded_partial ex_reg no_cp ok_temp ex10 s r _ st1 r1
    (mkQD !"utf-8" false [(!"a", [PU !"1"]); (!"b", [PU !"A"])]) !"a=1&b=%41" I D ltac:(discriminate) P HC) as (r2 & HP & Hp & _).
  - discriminate.
  - vm_compute. discriminate.
  - rewrite HS. vm_compute. reflexivity.
  - rewrite HS. vm_compute. reflexivity.
  - exists r2. eexists. split; [exact HP|]. split; [exact Hp|reflexivity].
Qed.
(** a history: parse, then reads, a new encoding, ... and body() is refused all the same *)
Example C51_case :
  let s := ex_src !"application/x-www-form-urlencoded" !"a=1&b=%41" in
  exists w1, perform ex_reg no_cp ok_temp OParseBody (ex_ready ex10 s) = (Ok VNone, w1) /\
    fst (body ex_reg (after ex_reg no_cp ok_temp [ORead None; OEncoding !"x"; OHeader; OSetScheme !"ftp"] w1)) = Err RawPostDataException.
Proof.
  assert (HT : let '(st1, r1) := ex_ready ex10 (ex_src !"application/x-www-form-urlencoded" !"a=1&b=%41") in
    (a_ctype (r_attrs r1) = Some (Some !"application/x-www-form-urlencoded") /\ s_charset st1 = !"utf-8") /\
    fst (m_read (Some 1%Z) (st1, r1)) = Ok !"a") by (vm_compute; repeat split).
  pose proof (ex_in ex10 !"application/x-www-form-urlencoded" !"a=1&b=%41" ltac:(vm_compute; reflexivity) ltac:(vm_compute; reflexivity) eq_refl ltac:(discriminate)) as H.
  cbv zeta. set (x := ex_ready ex10 _) in *. set (r := ex_req ex10 _) in *. set (s := ex_src _ _) in *. clearbody x r s.
  destruct x as [st1 r1]. destruct H as (I & D & P & R), HT as [[HC HS] HR].
  destruct (C53_urlencoded_partial ex_reg no_cp ok_temp ex10 s r _ st1 r1
    (mkQD !"utf-8" false [(!"a", [PU !"1"]); (!"b", [PU !"A"])]) !"a=1&b=%41" I D ltac:(discriminate) P HC) as (r2 & HP & Hp & _).
  - discriminate.
  - vm_compute. discriminate.
  - rewrite HS. vm_compute. reflexivity.
  - rewrite HS. vm_compute. reflexivity.
  - assert (HPB : parse_request_body ex_reg no_cp ok_temp (st1, r1) = (Ok tt, (st1, r2))).
    { revert HP. unfold parse, mbind. now rewrite P. }
    assert (HPF : perform ex_reg no_cp ok_temp OParseBody (st1, r1) = (Ok VNone, (st1, r2))).
    { unfold perform, vunit, vmap, mbind. now rewrite HPB. }
    exists (st1, r2). split; [exact HPF|].
    assert (HW : after ex_reg no_cp ok_temp [OHeader] (ex10, r) = (st1, r1)).
    { unfold after. cbn [fold_left]. unfold perform, vunit, vmap, mbind. now rewrite P. }
    apply (C51_raw_body_unavailable_partial ex_reg no_cp ok_temp ex10 s r [OHeader]
      [ORead None; OEncoding !"x"; OHeader; OSetScheme !"ftp"] I !"a" (st1, r2) !"application/x-www-form-urlencoded").
    + rewrite HW. exact HR.
    + discriminate.
    + rewrite HW. exact HPF.
    + pose proof (still_parse_body ex_reg no_cp ok_temp (st1, r1) (rd_hp _ _ _ _ _ R)) as (_ & _ & HA & _).
      rewrite HPB in HA. cbn [snd] in *. now rewrite HA.
    + now left.
    + repeat constructor.
Qed.

(** ** C54 *)
(** the header part: whatever happened before, the same as for a new object *)
Lemma assign_agree reg st r s r0 : request_init reg st s = Ok r0 -> exists r1, assign_stream reg s (st, r) = (Ok tt, (st, r1)) /\
  r_body r1 = r_body r /\ r_post r1 = r_post r /\ agree true false false (st, r1) (st, r0) /\
  (r_body r = None -> agree true false true (st, r1) (st, r0)).
Proof.
  intros Hi. rewrite init_eq in Hi. rewrite assign_stream_eq. destruct (querydict reg (Some (s_query st)) None true) as [q|e]; [|easy].
  injection Hi as <-. eexists. split; [reflexivity|]. split; [reflexivity|]. split; [reflexivity|].
  split; [|intros Hb]; (split; [reflexivity|]; constructor; try easy).
Qed.
Theorem C54_header_replaced :
  forall reg st r s r0, request_init reg st s = Ok r0 -> exists r1, assign_stream reg s (st, r) = (Ok tt, (st, r1)) /\
    let '(x1, (st1, q1)) := parse_request_header reg (st, r1) in
    let '(x0, (st0, q0)) := parse_request_header reg (st, r0) in
    x1 = x0 /\ st1 = st0 /\ r_attrs q1 = r_attrs q0 /\ r_meta q1 = r_meta q0 /\ r_get q1 = r_get q0.
Proof.
  intros reg st r s r0 Hi. destruct (assign_agree reg st r s r0 Hi) as (r1 & HA & _ & _ & HG & _). exists r1. split; [exact HA|].
  destruct (rp_header reg true false false _ _ HG) as [E [E1 E2]].
  destruct (parse_request_header reg (st, r1)) as [x1 [st1 q1]], (parse_request_header reg (st, r0)) as [x0 [st0 q0]].
  cbn [fst snd] in *. destruct E2. auto 10.
Qed.
Print Assumptions C54_header_replaced.
(** all of it, if no body is stored and the new request has one *)
Theorem C54_reuse_partial :
  forall reg n2 mk st r s r0 w, request_init reg st s = Ok r0 -> delivers s w -> max_ok (s_hdr st) ->
    r_body r = None -> w_body w <> [] -> fst (parse reg n2 mk (st, r0)) = Ok tt ->
    exists r1, assign_stream reg s (st, r) = (Ok tt, (st, r1)) /\
    let w1 := snd (parse reg n2 mk (st, r1)) in let w0 := snd (parse reg n2 mk (st, r0)) in
    fst (parse reg n2 mk (st, r1)) = Ok tt /\ fst w1 = fst w0 /\
    r_attrs (snd w1) = r_attrs (snd w0) /\ r_meta (snd w1) = r_meta (snd w0) /\ r_get (snd w1) = r_get (snd w0) /\
    r_post (snd w1) = r_post (snd w0) /\ r_files (snd w1) = r_files (snd w0) /\ fst (body reg w1) = fst (body reg w0).
Proof.
  intros reg n2 mk st r s r0 w Hi Hd Hm Hnb Hb HOk.
  destruct (assign_agree reg st r s r0 Hi) as (r1 & HA & _ & _ & _ & HG). specialize (HG Hnb). exists r1. split; [exact HA|].
  assert (G : agree true true true (snd (parse reg n2 mk (st, r1))) (snd (parse reg n2 mk (st, r0))) /\ fst (parse reg n2 mk (st, r1)) = Ok tt).
  { unfold parse, mbind in HOk |- *. destruct (rp_header reg true false true _ _ HG) as [E HG1].
    destruct (parse_request_header reg (st, r0)) as [[[]|e] [st0 q0]] eqn:EP; [|discriminate HOk].
    destruct (parse_request_header reg (st, r1)) as [[[]|e] [st1 q1]]; [|discriminate E]. cbn [fst snd] in *.
    pose proof (header_ready _ _ _ _ _ _ _ Hi Hd Hm EP) as R. destruct R. destruct HG1 as [Es HG1]. cbn [fst snd] in *. subst st1.
    rewrite (parse_body_eq reg n2 mk st0 q0) in HOk |- * by assumption.
    rewrite (parse_body_eq reg n2 mk st0 q1) by (rewrite ?(al_bp _ _ _ _ _ HG1), ?(al_hp _ _ _ _ _ HG1); assumption).
    rewrite (al_stream _ _ _ _ _ HG1).
    destruct (peek_spec n2 mk 3 (r_stream q0) (w_body w) rd_stream0 ltac:(lia) Hb) as (c & s1 & s2 & HR & HU & HA2).
    rewrite HR, HU in *.
    assert (HG2 : agree true false true (st0, set_stream s2 (at_body st0 q1)) (st0, set_stream s2 (at_body st0 q0))).
    { split; [reflexivity|]. cbn [snd]. destruct HG1. constructor; cbn; auto. }
    assert (HX : fst (finish reg n2 mk (st0, set_stream s2 (at_body st0 q1))) = fst (finish reg n2 mk (st0, set_stream s2 (at_body st0 q0)))).
    { assert (HRf : respects true false true (finish reg n2 mk)).
      { unfold finish. resp; [apply rp_post|apply rp_body]. }
      exact (proj1 (HRf _ _ HG2)). }
    split; [|congruence]. apply (unites_finish reg n2 mk true _ _ tt HG2). congruence. }
  destruct G as [G1 G2]. cbv zeta. split; [exact G2|].
  destruct (rp_body reg true true _ _ G1) as [E _]. destruct G1 as [G1 []]. destruct (al_post eq_refl). auto 10.
Qed.
Print Assumptions C54_reuse_partial.
(** what is missing: a stored body is returned again, and an empty body leaves POST alone *)
Theorem C54_stale_body_refuted :
  forall reg st r s r0 w b st2 r2, request_init reg st s = Ok r0 -> delivers s w -> max_ok (s_hdr st) ->
    r_body r = Some b -> values_named !"Content-Type" (w_fields w) = [] ->
    parse_request_header reg (snd (assign_stream reg s (st, r))) = (Ok tt, (st2, r2)) ->
    fst (body reg (st2, r2)) = Ok b.
Proof.
  intros reg st r s r0 w b st2 r2 Hi Hd Hm Hb Hc. destruct (assign_agree reg st r s r0 Hi) as (r1 & -> & Hb1 & _ & HG & _).
  cbn [snd]. destruct Hd as (D1 & D2 & D3). destruct HG as [_ []]. cbn [snd fst] in *.
  assert (HI : r0 = fresh match r_get r0 with Some q => q | None => mkQD [] true [] end s).
  { rewrite init_eq in Hi. destruct (querydict reg (Some (s_query st)) None true); [|easy]. now injection Hi as <-. }
  assert (HS : r_stream r0 = l0_init s) by (rewrite HI; reflexivity).
  assert (HH : r_hp r1 = false) by (rewrite al_hp, HI; reflexivity).
  assert (HB : r_bp r1 = false) by (rewrite al_bp, HI; reflexivity).
  assert (HA : l0at 1 (r_stream r1) (wire_bytes w)).
  { rewrite al_stream, HS, <- D2. now apply l0at_init. }
  destruct (header_wire reg 1 w st r1 D3 Hm ltac:(lia) HA HH) as (s1 & d & HA1 & Hwf & Hg & ->). cbn zeta.
  destruct (parse_request_line (w_line w)) as [l|e]; [|discriminate]. rewrite populate_eq.
  assert (H0 : dget !"Content-Type" d = None) by now rewrite Hg, Hc.
  assert (HN : forall host hs, pick_host l d = Ok (host, hs) -> dget !"Content-Type" hs = None).
  { intros host hs. unfold pick_host. destruct (nonempty (rl_domain l)); [now intros [= _ <-]|].
    destruct (header !"Host" d) as [v|]; [|discriminate]. intros [= _ <-]. now rewrite ddel_get_other. }
  destruct (pick_host l d) as [[host hs]|e]; [|discriminate]. specialize (HN host hs eq_refl).
  unfold ctype_of, header. rewrite HN. cbn [option_map]. cbv zeta. cbn [charset_after reset_if].
  destruct (r_meta (set_flags true (r_bp r1) (set_stream s1 r1))) as [m|]; [|discriminate].
  destruct (query_of reg st (rl_query l)) as [g|e]; [|discriminate]. intros [= <- <-].
  rewrite (body_cached reg _ st b); [reflexivity|reflexivity|left; exact HB|]. cbn. congruence.
Qed.
Print Assumptions C54_stale_body_refuted.
Theorem C54_stale_post_refuted :
  forall reg n2 mk st r s r0 w st2 r2 q, request_init reg st s = Ok r0 -> delivers s w -> max_ok (s_hdr st) ->
    w_body w = [] -> parse_request_header reg (snd (assign_stream reg s (st, r))) = (Ok tt, (st2, r2)) ->
    querydict reg (Some (s_query st2)) None false = Ok q ->
    exists r3, parse_request_body reg n2 mk (st2, r2) = (Ok tt, (st2, r3)) /\ r_post r3 = r_post r /\ r_files r3 = r_files r.
Proof.
  intros reg n2 mk st r s r0 w st2 r2 q Hi Hd Hm Hb HP Hq.
  assert (HI : exists q0, querydict reg (Some (s_query st)) None true = Ok q0 /\ r0 = fresh q0 s).
  { rewrite init_eq in Hi. destruct (querydict reg (Some (s_query st)) None true) as [q0|]; [|easy]. exists q0. now injection Hi as <-. }
  destruct HI as (q0 & HQ & ->). rewrite assign_stream_eq, HQ in HP. cbn [snd] in HP. destruct Hd as (D1 & D2 & D3).
  set (r1 := set_flags false false _) in HP. assert (HS : r_stream r1 = l0_init s) by reflexivity.
  assert (HA : l0at 1 (r_stream r1) (wire_bytes w)) by (rewrite HS, <- D2; now apply l0at_init).
  destruct (header_wire reg 1 w st r1 D3 Hm ltac:(lia) HA eq_refl) as (s1 & d & HA1 & Hwf & Hg & HH). rewrite HH in HP. cbn zeta in HP.
  destruct (parse_request_line (w_line w)) as [l|e]; [|discriminate HP]. rewrite populate_eq in HP.
  destruct (pick_host l d) as [[host hs]|e]; [|discriminate HP]. destruct (ctype_of reg hs) as [[c ch]|e]; [|discriminate HP].
  cbv zeta in HP. change (r_meta (set_flags true (r_bp r1) (set_stream s1 r1))) with (Some (mkMeta None None)) in HP. cbv iota in HP.
  destruct (query_of reg (charset_after ch st) (rl_query l)) as [g|e]; [|discriminate HP].
  assert (R2 : l0at 3 (r_stream r2) [] /\ r_hp r2 = true /\ r_bp r2 = false /\ r_post r2 = r_post r /\ r_files r2 = r_files r).
  { injection HP as _ <-. rewrite Hb in HA1. destruct ch; repeat split; exact HA1. }
  destruct R2 as (A1 & A2 & A3 & A4 & A5).
  destruct (parse_body_none reg n2 mk 3 st2 r2 A3 A2 A1 ltac:(lia)) as (s3 & _ & ->). rewrite Hq. eexists. split; [reflexivity|]. now split.
Qed.
Print Assumptions C54_stale_post_refuted.
Lemma ex_again s2 q2 x2 w r2 : request_init ex_reg ex10 s2 = Ok q2 -> delivers s2 w -> w_body w = [] ->
  parse_request_header ex_reg (ex10, q2) = (Ok tt, (fst x2, snd x2)) -> fst x2 = ex10 ->
  exists w2, parse ex_reg no_cp ok_temp (snd (assign_stream ex_reg s2 (ex10, r2))) = (Ok tt, w2) /\ r_post (snd w2) = r_post r2.
Proof.
  intros I2 D2 Hb P2 HST. destruct (assign_agree ex_reg ex10 r2 s2 _ I2) as (r3 & HA & _ & _ & HG & _).
  destruct (rp_header ex_reg true false false _ _ HG) as [E [E1 _]]. rewrite P2 in E, E1. cbn [fst snd] in E, E1.
  destruct (parse_request_header ex_reg (ex10, r3)) as [x [st4 r4]] eqn:E4. cbn [fst snd] in E, E1. subst x.
  rewrite HST in E1. subst st4.
  destruct (C54_stale_post_refuted ex_reg no_cp ok_temp ex10 r2 s2 _ _ ex10 r4 (mkQD !"utf-8" false []) I2 D2 ltac:(discriminate) Hb) as (r5 & HB & HPo & _).
  - rewrite HA. exact E4.
  - vm_compute. reflexivity.
  - exists (ex10, r5). split; [|exact HPo]. unfold parse, mbind. rewrite HA. cbn [snd]. now rewrite E4.
Qed.
Lemma ex_second r2 p : r_post r2 = p ->
  exists w2, parse ex_reg no_cp ok_temp (snd (assign_stream ex_reg (req [!"GET /q HTTP/1.1"; !"Host: b"] []) (ex10, r2))) = (Ok tt, w2) /\
    r_post (snd w2) = p.
Proof.
  intros <-. pose proof (delivers_msg !"GET /q HTTP/1.1" [(!"Host", !"b")] [] ltac:(discriminate) eq_refl ltac:(discriminate) eq_refl) as D2.
  change (req (_ :: map field _) []) with (req [!"GET /q HTTP/1.1"; !"Host: b"] []) in D2. set (s2 := req _ _) in *.
  pose proof (ex_req_ok ex10 s2 ltac:(vm_compute; reflexivity)) as I2.
  pose proof (ex_ready_ok ex10 s2 ltac:(vm_compute; reflexivity)) as P2.
  assert (HST : fst (ex_ready ex10 s2) = ex10) by (vm_compute; reflexivity).
  exact (ex_again s2 _ _ _ r2 I2 D2 eq_refl P2 HST).
Qed.
(** both at once: a form is parsed, then a request without a body is assigned and parsed *)
Example C54_case :
  let s := ex_src !"application/x-www-form-urlencoded" !"a=1&b=%41" in
  let s2 := req [!"GET /q HTTP/1.1"; !"Host: b"] [] in
  exists w1 q, parse ex_reg no_cp ok_temp (ex10, ex_req ex10 s) = (Ok tt, w1) /\ q_d q = [(!"a", [PU !"1"]); (!"b", [PU !"A"])] /\
    exists w2, parse ex_reg no_cp ok_temp (snd (assign_stream ex_reg s2 w1)) = (Ok tt, w2) /\ r_post (snd w2) = Some (PQuery q).
Proof.
  pose proof (ex_in ex10 !"application/x-www-form-urlencoded" !"a=1&b=%41" ltac:(vm_compute; reflexivity) ltac:(vm_compute; reflexivity) eq_refl ltac:(discriminate)) as H.
  assert (HC : let '(st1, r1) := ex_ready ex10 (ex_src !"application/x-www-form-urlencoded" !"a=1&b=%41") in
    a_ctype (r_attrs r1) = Some (Some !"application/x-www-form-urlencoded") /\ st1 = ex10) by (vm_compute; split; reflexivity).
  cbv zeta. set (x := ex_ready ex10 _) in *. set (r := ex_req ex10 _) in *. set (s := ex_src _ _) in *. clearbody x r s.
  destruct x as [st1 r1]. destruct H as (I & D & P & _), HC as [HC ->].
  destruct (C53_urlencoded_partial ex_reg no_cp ok_temp ex10 s r _ ex10 r1
    (mkQD !"utf-8" false [(!"a", [PU !"1"]); (!"b", [PU !"A"])]) !"a=1&b=%41" I D ltac:(discriminate) P HC) as (r2 & HP & Hp & _).
  - discriminate.
  - vm_compute. discriminate.
  - vm_compute. reflexivity.
  - vm_compute. reflexivity.
  - exists (ex10, r2), (mkQD !"utf-8" false [(!"a", [PU !"1"]); (!"b", [PU !"A"])]). split; [exact HP|]. split; [reflexivity|].
    apply ex_second. now rewrite Hp.
Qed.

(** ** C55 *)
Definition plain_op (o : op) : bool := match o with OHandlers _ | OGetHandlers => false | _ => true end.
Fixpoint results (reg : registry) (n2 : str -> option N) (mk : str -> res unit) (os : list op) (w : world) : list (res value) :=
  match os with
  | [] => []
  | o :: os => fst (perform reg n2 mk o w) :: results reg n2 mk os (snd (perform reg n2 mk o w))
  end.
Lemma rp_perform reg n2 mk g p o : plain_op o = true -> respects g p true (perform reg n2 mk o).
Proof.
  destruct o; intros Ho; try discriminate Ho; unfold perform, vunit, vmap.
  - resp. apply rp_header.
  - resp. apply rp_body.
  - resp. apply rp_parse_body.
  - unfold parse. resp; [apply rp_header|apply rp_parse_body].
  - resp. apply rp_read.
  - unfold assign_stream. resp. apply rp_reinit.
  - unfold assign_body_stream. resp. apply rp_query.
  - resp. apply rp_encoding.
  - unfold set_path. resp.
  - unfold set_scheme. apply rp_bind; [|intros; apply rp_ret]. apply rp_upd. intros r r' H. destruct (nonempty s); [|exact H].
    destruct H. constructor; cbn; auto. now rewrite al_attrs.
  - resp.
  - intros a b [H1 H2]. split; [reflexivity|]. split; [reflexivity|exact H2].
Qed.
(** the objects may differ in everything but the header *)
Theorem C55_body_stream_replaces :
  forall reg n2 mk st r r' s os, r_hp r = r_hp r' -> r_attrs r = r_attrs r' -> r_meta r = r_meta r' ->
    fst (assign_body_stream reg s (st, r)) = Ok tt -> Forall (fun o => plain_op o = true) os ->
    let w := snd (assign_body_stream reg s (st, r)) in let w' := snd (assign_body_stream reg s (st, r')) in
    let v := after reg n2 mk os w in let v' := after reg n2 mk os w' in
    fst (assign_body_stream reg s (st, r')) = Ok tt /\
    results reg n2 mk os w = results reg n2 mk os w' /\ r_post (snd v) = r_post (snd v') /\ r_files (snd v) = r_files (snd v') /\
    fst (body reg v) = fst (body reg v').
Proof.
  intros reg n2 mk st r r' s os H1 H2 H3 HA HO. rewrite !assign_body_eq in *.
  destruct (querydict reg (Some (s_query st)) None true) as [q|e]; [|discriminate HA]. cbv zeta. cbn [snd fst].
  split; [reflexivity|]. clear HA.
  set (w := (st, set_flags (r_hp r) _ _)). set (w' := (st, set_flags (r_hp r') _ _)).
  assert (G : agree false true true w w') by (split; [reflexivity|]; constructor; cbn; auto; easy).
  clearbody w w'. clear - G HO. revert w w' G. induction os as [|o os IH]; intros w w' G.
  - cbn. split; [reflexivity|]. destruct (rp_body reg false true _ _ G) as [E _]. destruct G as [_ []]. destruct (al_post eq_refl). auto.
  - inversion_clear HO as [|? ? Ho HO']. destruct (rp_perform reg n2 mk false true o Ho w w' G) as [E G1].
    specialize (IH HO' _ _ G1). cbn [results after fold_left]. destruct IH as (I1 & I2). split; [|exact I2]. now rewrite E, I1.
Qed.
Print Assumptions C55_body_stream_replaces.
Example C55_case :
  let a := ex_ready ex_set (ex_src !"text/plain" !"old body") in
  let b := after ex_reg no_cp ok_temp [ORead None; OGetHandlers] a in
  r_stream (snd a) <> r_stream (snd b) /\ r_attrs (snd a) = r_attrs (snd b) /\ r_meta (snd a) = r_meta (snd b) /\
  fst (assign_body_stream ex_reg [SData !"new"] b) = Ok tt /\
  results ex_reg no_cp ok_temp [ORead (Some 9%Z)] (snd (assign_body_stream ex_reg [SData !"new"] b)) = [Ok (VText (PB !"new"))].
Proof. vm_compute. repeat split; discriminate. Qed.

(** ** C56.  Two objects and one Settings object *)
Definition two := (sett * request * request)%type.
Definition step2 reg n2 mk (s : two) (o : bool * op) : two :=
  let '(st, a, b) := s in
  if fst o then let '(st', a') := snd (perform reg n2 mk (snd o) (st, a)) in (st', a', b)
  else let '(st', b') := snd (perform reg n2 mk (snd o) (st, b)) in (st', a, b').
Definition answer2 reg n2 mk (s : two) (o : bool * op) : bool * res value :=
  let '(st, a, b) := s in (fst o, fst (perform reg n2 mk (snd o) (st, if fst o then a else b))).
Fixpoint answers2 reg n2 mk (os : list (bool * op)) (s : two) : list (bool * res value) :=
  match os with [] => [] | o :: os => answer2 reg n2 mk s o :: answers2 reg n2 mk os (step2 reg n2 mk s o) end.
(** the calls, and the answers, of one of the two *)
Definition side {A} (i : bool) (l : list (bool * A)) : list A := map snd (filter (fun x => Bool.eqb i (fst x)) l).

(** a program that leaves the Settings alone, when it runs alone *)
Fixpoint modest reg n2 mk (st : sett) (os : list op) (r : request) : Prop :=
  match os with
  | [] => True
  | o :: os => fst (snd (perform reg n2 mk o (st, r))) = st /\ modest reg n2 mk st os (snd (snd (perform reg n2 mk o (st, r))))
  end.
Theorem C56_independent_partial :
  forall reg n2 mk st a b os,
    modest reg n2 mk st (side true os) a -> modest reg n2 mk st (side false os) b ->
    side true (answers2 reg n2 mk os (st, a, b)) = results reg n2 mk (side true os) (st, a) /\
    side false (answers2 reg n2 mk os (st, a, b)) = results reg n2 mk (side false os) (st, b) /\
    fold_left (step2 reg n2 mk) os (st, a, b) =
      (st, snd (after reg n2 mk (side true os) (st, a)), snd (after reg n2 mk (side false os) (st, b))).
Proof.
  intros reg n2 mk st a b os. revert a b. induction os as [|[i o] os IH]; intros a b Ha Hb; [easy|].
  destruct i; cbn [side filter map fst snd Bool.eqb answers2 answer2 fold_left step2] in *.
  - unfold side in *. cbn [filter map fst snd Bool.eqb modest results after fold_left] in *. destruct Ha as [Ha1 Ha2].
    destruct (perform reg n2 mk o (st, a)) as [x [st' a']] eqn:E. cbn [fst snd] in *. subst st'.
    destruct (IH a' b Ha2 Hb) as (I1 & I2 & I3). rewrite I1, I3. now repeat split.
  - unfold side in *. cbn [filter map fst snd Bool.eqb modest results after fold_left] in *. destruct Hb as [Hb1 Hb2].
    destruct (perform reg n2 mk o (st, b)) as [x [st' b']] eqn:E. cbn [fst snd] in *. subst st'.
    destruct (IH a b' Ha Hb2) as (I1 & I2 & I3). rewrite I2, I3. now repeat split.
Qed.
Print Assumptions C56_independent_partial.
(** parsing a header changes the Settings only through a charset parameter *)
Theorem C56_no_charset_no_change :
  forall reg st s r w, request_init reg st s = Ok r -> delivers s w -> max_ok (s_hdr st) ->
    (forall v c ps, last_value !"Content-Type" w v -> parse_header reg v = Ok (c, ps) -> dget !"charset" ps = None) ->
    fst (snd (parse_request_header reg (st, r))) = st.
Proof.
  intros reg st s r w Hi Hd Hm Hc. destruct (parse_wire reg st s r w Hi Hd Hm) as (q & s1 & d & -> & _ & Hwf & Hg & ->). cbv zeta.
  destruct (parse_request_line (w_line w)) as [l|e]; [|reflexivity]. rewrite populate_eq.
  assert (HN : forall host hs, pick_host l d = Ok (host, hs) -> dget !"Content-Type" hs = dget !"Content-Type" d).
  { intros host hs. unfold pick_host. destruct (nonempty (rl_domain l)); [now intros [= _ <-]|].
    destruct (header !"Host" d) as [v|]; [|discriminate]. intros [= _ <-]. now rewrite ddel_get_other. }
  destruct (pick_host l d) as [[host hs]|e]; [|reflexivity]. specialize (HN host hs eq_refl).
  assert (HC : match ctype_of reg hs with Ok (_, Some _) => False | _ => True end).
  { unfold ctype_of, header. rewrite HN, Hg. destruct (values_named !"Content-Type" (w_fields w)) as [|v0 vs] eqn:E; [easy|].
    cbn [option_map]. destruct (last_nonnil (v0 :: vs) [] ltac:(easy)) as [pre Hpre]. fold (last_of (v0 :: vs)) in Hpre.
    destruct (parse_header reg (last_of (v0 :: vs))) as [[c ps]|e] eqn:EP; [|easy]. cbn [bind snd].
    rewrite (Hc _ c ps ltac:(exists pre; rewrite E; exact Hpre) EP). easy. }
  destruct (ctype_of reg hs) as [[c [ch|]]|e]; [easy| |reflexivity]. cbn [r_meta set_flags set_stream fresh charset_after].
  cbv zeta. destruct (query_of reg st (rl_query l)); reflexivity.
Qed.
Print Assumptions C56_no_charset_no_change.
(** what is missing: a request that names a charset changes how the next one is read *)
Theorem C56_charset_leak_refuted :
  exists st a b os,
    side false (answers2 ex_reg no_cp ok_temp os (st, a, b)) = results ex_reg no_cp ok_temp (side false os) (st, b) /\
    r_get (snd (fold_left (step2 ex_reg no_cp ok_temp) os (st, a, b))) <>
    r_get (snd (after ex_reg no_cp ok_temp (side false os) (st, b))).
Proof.
  exists ex_set, (ex_req ex_set (ex_src !"text/plain; charset=utf-8" [])),
    (ex_req ex_set (req [!"GET /?a=%C3%A9 HTTP/1.1"; !"Host: b"] [])), [(true, OHeader); (false, OHeader)].
  vm_compute. split; [reflexivity|discriminate].
Qed.
Print Assumptions C56_charset_leak_refuted.
Example C56_case :
  let st := ex_set in let a := ex_req st (ex_src !"text/plain" []) in
  let b := ex_req st (req [!"GET /?a=%C3%A9 HTTP/1.1"; !"Host: b"] []) in
  let os := [(true, ORead (Some 3%Z)); (false, OHeader); (true, ORead (Some 2%Z)); (false, ORead None)] in
  modest ex_reg no_cp ok_temp st (side true os) a /\ modest ex_reg no_cp ok_temp st (side false os) b.
Proof. vm_compute. repeat split. Qed.

(** ** C57 is false: body() uses up the stream, and then there is no form *)
Theorem C57_body_first_refuted :
  forall reg n2 mk st s r w st1 r1 q, request_init reg st s = Ok r -> delivers s w -> max_ok (s_hdr st) ->
    parse_request_header reg (st, r) = (Ok tt, (st1, r1)) -> fits (length (w_body w)) (s_dmem st) ->
    querydict reg (Some (s_query st1)) None false = Ok q ->
    exists w2 r3, body reg (st1, r1) = (Ok (PB (w_body w)), w2) /\
      parse_request_body reg n2 mk w2 = (Ok tt, (st1, r3)) /\ r_post r3 = r_post r1.
Proof.
  intros reg n2 mk st s r w st1 r1 q Hi Hd Hm HP Hf Hq. pose proof (header_ready _ _ _ _ _ _ _ Hi Hd Hm HP) as R.
  destruct (ready_set _ _ _ _ _ R) as (_ & Hdm1 & _). destruct R. unfold fits in Hf. destruct (s_dmem st) as [m|] eqn:Em; [|easy].
  destruct (read_body_ok 3 st1 r1 (w_body w) m rd_stream0 ltac:(lia)) as (s2 & HB & HA2); [congruence|exact Hf|].
  set (r2 := set_body (Some (PB (w_body w))) (set_stream s2 r1)) in *.
  destruct (parse_body_none reg n2 mk 3 st1 r2 rd_bp0 rd_hp0 HA2 ltac:(lia)) as (s3 & _ & HN). rewrite Hq in HN.
  exists (st1, r2). eexists. rewrite body_reads; [|assumption|now left|assumption].
  split; [exact HB|]. split; [exact HN|]. reflexivity.
Qed.
Print Assumptions C57_body_first_refuted.
(** with and without: the same request, two different forms *)
Example C57_case :
  let s := ex_src !"application/x-www-form-urlencoded" !"a=1&b=%41" in
  exists w2 w3 w4 q, fst (body ex_reg (ex_ready ex10 s)) = Ok (PB !"a=1&b=%41") /\ w2 = snd (body ex_reg (ex_ready ex10 s)) /\
    parse_request_body ex_reg no_cp ok_temp w2 = (Ok tt, w3) /\ r_post (snd w3) = Some (PQuery (mkQD !"utf-8" true [])) /\
    parse_request_body ex_reg no_cp ok_temp (ex_ready ex10 s) = (Ok tt, w4) /\ r_post (snd w4) = Some (PQuery q) /\
    q_d q = [(!"a", [PU !"1"]); (!"b", [PU !"A"])].
Proof.
  pose proof (ex_in ex10 !"application/x-www-form-urlencoded" !"a=1&b=%41" ltac:(vm_compute; reflexivity) ltac:(vm_compute; reflexivity) eq_refl ltac:(discriminate)) as H.
  assert (HC : let '(st1, r1) := ex_ready ex10 (ex_src !"application/x-www-form-urlencoded" !"a=1&b=%41") in
    (a_ctype (r_attrs r1) = Some (Some !"application/x-www-form-urlencoded") /\ st1 = ex10) /\
    r_post r1 = Some (PQuery (mkQD !"utf-8" true []))) by (vm_compute; repeat split; reflexivity).
  cbv zeta. set (x := ex_ready ex10 _) in *. set (r := ex_req ex10 _) in *. set (s := ex_src _ _) in *. clearbody x r s.
  destruct x as [st1 r1]. destruct H as (I & D & P & _), HC as [[HC ->] HPo].
  destruct (C53_urlencoded_partial ex_reg no_cp ok_temp ex10 s r _ ex10 r1
    (mkQD !"utf-8" false [(!"a", [PU !"1"]); (!"b", [PU !"A"])]) !"a=1&b=%41" I D ltac:(discriminate) P HC ltac:(discriminate) ltac:(vm_compute; discriminate)
    ltac:(vm_compute; reflexivity) ltac:(vm_compute; reflexivity)) as (r2 & HP & Hp & _).
  destruct (C57_body_first_refuted ex_reg no_cp ok_temp ex10 s r _ ex10 r1 (mkQD !"utf-8" false []) I D ltac:(discriminate) P
    ltac:(vm_compute; discriminate) ltac:(vm_compute; reflexivity)) as (w2 & r3 & B1 & B2 & B3).
  exists w2, (ex10, r3), (ex10, r2). eexists. rewrite B1. cbn [fst snd]. split; [reflexivity|]. split; [reflexivity|].
  split; [exact B2|]. split; [cbn [snd]; now rewrite B3|]. split; [|split; [exact Hp|reflexivity]]. revert HP. unfold parse, mbind. now rewrite P.
Qed.

(** ** C58.  [unread] lists what the source has still to give: bytes and failures *)
Theorem C58_only_a_prefix_disappears :
  forall reg n2 mk os w, Forall (fun o => assigns o = false) os ->
    exists used, pending (r_stream (snd w)) = used ++ pending (r_stream (snd (after reg n2 mk os w))).
Proof.
  intros reg n2 mk os. induction os as [|o os IH]; intros w H; [now exists []|]. inversion_clear H as [|? ? H1 H2].
  destruct (IH (snd (perform reg n2 mk o w)) H2) as [u Hu]. destruct (perform_keeps reg n2 mk o H1 w) as [v Hv].
  cbn [after fold_left]. exists (v ++ u). rewrite Hv, <- app_assoc. f_equal. exact Hu.
Qed.
Print Assumptions C58_only_a_prefix_disappears.
(** reading hands out exactly the bytes that disappear *)
Theorem C58_read_returns_the_prefix :
  forall reg n2 mk n w d w', perform reg n2 mk (ORead n) w = (Ok (VText (PB d)), w') ->
    pending (r_stream (snd w)) = map Byte d ++ pending (r_stream (snd w')).
Proof.
  intros reg n2 mk n [st r] d w'. unfold perform, vmap, mbind, m_read, mstream, mret. cbn [snd fst].
  pose proof (read_pending n (r_stream r)) as H. destruct (l0_read n (r_stream r)) as [[x|e] s1]; [|now destruct e].
  intros [= -> <-]. exact H.
Qed.
Print Assumptions C58_read_returns_the_prefix.
(** a new object: everything is still to be read *)
Lemma C58_start : forall reg st s r, request_init reg st s = Ok r -> pending (r_stream r) = flat_map item_cells s.
Proof. intros reg st s r Hi. rewrite init_eq in Hi. destruct (querydict _ _ _ _); [|easy]. now injection Hi as <-. Qed.
Example C58_case :
  let w := (ex_set, ex_req ex_set [SData !"GET / HTTP/1.1"; SFail IOError; SData crlf; SData !"Host: a"; SData crlfcrlf; SData !"x"]) in
  pending (r_stream (snd w)) = map Byte !"GET / HTTP/1.1" ++ [Fail IOError] ++ map Byte (crlf ++ !"Host: a" ++ crlfcrlf ++ !"x") /\
  let w1 := after ex_reg no_cp ok_temp [OHeader; ORead (Some 2%Z); OParseBody; ORead (Some 4%Z)] w in
  pending (r_stream (snd w1)) = map Byte (!": a" ++ crlfcrlf ++ !"x").
Proof. vm_compute. split; reflexivity. Qed.

(** ** C59 is false: the exception never reaches the caller *)
Lemma loop_never : forall fuel max size chunk acc w e, fst (body_loop fuel max size chunk acc w) = Err e -> e <> UnreadablePostError /\ e <> IOError.
Proof.
  induction fuel as [|fuel IH]; intros max size chunk acc w e; cbn [body_loop]; [now intros [= <-]|].
  destruct (within_max size max && nonempty chunk); [|discriminate]. unfold mbind, m_read, mstream.
  destruct (l0_read (Some BLOCK) (r_stream (snd w))) as [[d|x] s1]; [apply IH|]. destruct x; now intros [= <-].
Qed.
Theorem C59_never_raised_refuted :
  forall reg w e, r_hp (snd w) = true -> fst (body reg w) = Err e -> e <> UnreadablePostError /\ e <> IOError.
Proof.
  intros reg w e H. rewrite body_hp by exact H. unfold body1, mbind at 1, mreq.
  destruct (r_bp (snd w) && _).
  { unfold mraise. cbn [fst]. destruct (a_ctype (r_attrs (snd w))); now intros [= <-]. }
  destruct (r_body (snd w)); [discriminate|]. rewrite H. unfold read_body. unfold mbind at 1, msett. unfold mbind at 1, mreq.
  unfold mbind at 1, m_read, mstream. destruct (l0_read (Some BLOCK) (r_stream (snd w))) as [[c|x] s1].
  2:{ destruct x; now intros [= <-]. }
  unfold mbind at 1. pose proof (loop_never (2 + l0_total (r_stream (snd w))) (s_dmem (fst w)) (zlen c) c [] (fst w, set_stream s1 (snd w))) as L.
  destruct (body_loop _ _ _ _ _ _) as [[y|x] w2]; [|intros [= <-]; now apply L].
  destruct (within_max (snd y) (s_dmem (fst w))); [discriminate|]. now intros [= <-].
Qed.
Print Assumptions C59_never_raised_refuted.
(** what the caller sees when the source fails in the first block of the body *)
Lemma byte_split e t : forall a d x, map Byte a ++ x = map Byte d ++ Fail e :: t -> exists d', d = a ++ d' /\ x = map Byte d' ++ Fail e :: t.
Proof.
  induction a as [|c a IH]; intros d x H; [now exists d|]. destruct d as [|c' d]; [discriminate H|]. cbn in H. injection H as -> H.
  destruct (IH d x H) as (d' & -> & H2). now exists d'.
Qed.
Lemma loop_fails e t : forall fuel n out s d, pending s = map Byte d ++ Fail e :: t -> (Z.of_nat (length d) < n)%Z ->
  src_items s + 2 <= fuel + (if nonempty (ls_left s) then 0 else 1) -> exists s', ls_read_loop it_next fuel n out s = (Err e, s').
Proof.
  induction fuel as [|fuel IH]; intros n out s d HP Hn Hf; [destruct (nonempty (ls_left s)); lia|]. cbn [ls_read_loop].
  assert (E0 : Z.eqb n 0 = false) by lia. assert (E1 : Z.ltb n 0 = false) by lia. rewrite E0, E1.
  unfold ls_next. unfold pending in HP. destruct (ls_left s) as [|c l] eqn:El.
  - cbn [map app] in HP. unfold src_items in Hf. destruct (ls_prod s) as [p|]; [|destruct d; discriminate HP].
    destruct p as [|[x|x] p]; cbn [flat_map] in HP; [destruct d; discriminate HP| |].
    + destruct (byte_split e t x d _ HP) as (d' & -> & HP2). cbn [it_next]. rewrite app_length in Hn.
      assert (L : length x <= Z.to_nat n) by lia. rewrite skipn_all2, firstn_all2 by exact L. cbn [ls_unget].
      apply (IH _ _ _ d'); [exact HP2|unfold zlen; lia|]. cbn in *. lia.
    + destruct d; [|discriminate HP]. cbn in HP. injection HP as -> _. cbn [it_next]. eexists. reflexivity.
  - destruct (byte_split e t (c :: l) d _ HP) as (d' & -> & HP2). rewrite app_length in Hn.
    assert (L : length (c :: l) <= Z.to_nat n) by lia. rewrite skipn_all2, firstn_all2 by exact L. cbn [ls_unget].
    apply (IH _ _ _ d'); [exact HP2|unfold zlen; lia|]. unfold src_items in *. cbn in *. lia.
Qed.
Theorem C59_type_error :
  forall reg w d e t, r_hp (snd w) = true -> r_bp (snd w) = false -> r_body (snd w) = None ->
    pending (r_stream (snd w)) = map Byte d ++ Fail e :: t -> (Z.of_nat (length d) < 65536)%Z ->
    fst (body reg w) = Err (match e with IOError | UnreadablePostError => TypeError | e => e end).
Proof.
  intros reg [st r] d e t H1 H2 H3 HP HL. cbn [snd] in *. rewrite body_reads; [|assumption|now left|assumption].
  unfold read_body, mbind, msett, mreq, m_read, mstream. cbn [fst snd].
  destruct (loop_fails e t (4 + src_items (r_stream r)) BLOCK [] (r_stream r) d HP HL) as (s' & HE); [destruct (nonempty _); lia|].
  unfold l0_read, ls_read. rewrite HE. now destruct e.
Qed.
Print Assumptions C59_type_error.
Example C59_case :
  let w := snd (hdr (ex_set, ex_req ex_set [SData !"GET / HTTP/1.1"; SData crlf; SData !"Host: a"; SData crlfcrlf; SData !"some of it"; SFail IOError])) in
  r_hp (snd w) = true /\ r_bp (snd w) = false /\ r_body (snd w) = None /\
  pending (r_stream (snd w)) = map Byte !"some of it" ++ Fail IOError :: [].
Proof. vm_compute. repeat split; reflexivity. Qed.
