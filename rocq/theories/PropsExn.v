(** * Theorem C133: which exceptions a request can provoke *)
From Verif Require Import Py PyFacts PyDict Spec StreamModel StreamSpec StreamFacts StreamCalm CodecModel QueryModel HeadModel HeadSpec HeadFacts HeaderModel
  HeaderFacts UploadModel MultipartModel MultipartInv RequestModel RequestSpec HeaderRun BodyRun ParseRun ExnFacts PropsPart PropsRequest.

(** the exceptions the package defines for bad requests (http/request.py:28-53,
    multipartparser.py:28, exceptions/exceptions.py) *)
Definition announced (e : exn) : Prop :=
  (exists r, e = InvalidHttpRequest r) \/
  In e [NoHostFoundException; RequestDataTooBig; TooManyFieldsSent; SuspiciousMultipartForm; MultiPartParserError].
(** the exceptions of Python that come out of the parsers; [OutOfFuel]: a loop that does not end *)
Definition leaked (e : exn) : Prop :=
  In e [UnicodeDecodeError; UnicodeEncodeError; LookupError; ValueError; TypeError; AttributeError; OverflowError; OutOfFuel].

Section Only.
  Context (reg : registry) (name2cp : str -> option N) (mk_temp : str -> res unit) (Src : exn -> Prop).

  Definition only (e : exn) : Prop := announced e \/ leaked e \/ temp_fails mk_temp e \/ Src e.
  (** the input still fails only with exceptions in [Src] *)
  Definition srcI (s : src) : Prop := forall e, In (SFail e) s -> Src e.
  (** sizes are not negative *)
  Definition WI (w : world) : Prop :=
    lsI srcI (r_stream (snd w)) /\ size_ok (s_hdr (fst w)) /\ size_ok (s_dmem (fst w)).

  Ltac ann := left; first [left; now eexists | right; cbn; tauto].
  Ltac lk := right; left; cbn; tauto.

  Lemma it_safe p : srcI p -> nsafe only srcI (it_next p).
  Proof.
    intros H. unfold it_next. destruct p as [|[d|e] r]; (split; [|]); cbn.
    - exact H.
    - exact Logic.I.
    - intros e He. apply H. now right.
    - exact Logic.I.
    - intros e0 He. apply H. now right.
    - right. right. right. apply H. now left.
  Qed.
  Lemma o_fuel : only OutOfFuel. Proof. lk. Qed.
  Lemma o_type : only TypeError. Proof. lk. Qed.
  Lemma o_susp : only SuspiciousMultipartForm. Proof. ann. Qed.
  Notation SI := (lsI srcI).
  Lemma l0_safe n s : size_ok n -> SI s -> safe only SI (l0_read n s).
  Proof. apply (read_safe it_next only srcI o_fuel o_type o_susp it_safe). Qed.
  Lemma l0_unget_safe b s : SI s -> safe only SI (ls_unget b s).
  Proof. apply unget_safe, o_susp. Qed.
  Lemma mp_safe st D fuel csize len hs s : size_ok (ms_dmem st) -> SI s ->
    safe only SI (mp_parse l0_rd l0_exh reg name2cp mk_temp st D fuel csize len hs s).
  Proof.
    intros Hd. apply mp_parse_safe; [|intros n r; apply l0_safe; cbn; lia|intros r; apply (drain_safe it_next only srcI o_fuel o_type it_safe)|exact Hd].
    intros e [H|H]; [|right; right; now left]. cbn in H.
    repeat destruct H as [<-|H]; try lk; try ann.
  Qed.

  (** ** Methods *)
  Definition msafe {A} (J : world -> Prop) (m : M A) : Prop := forall w, J w -> safe only J (m w).
  Lemma ms_bind {A B} J (m : M A) (f : A -> M B) : msafe J m -> (forall a, msafe J (f a)) -> msafe J (mbind m f).
  Proof.
    intros Hm Hf w H. unfold mbind. pose proof (Hm w H) as [H1 H2]. destruct (m w) as [[a|e] w1]; cbn [fst snd] in H1, H2; [now apply Hf|now split].
  Qed.
  Lemma ms_ret {A} J (a : A) : msafe J (mret a). Proof. intros w H. now split. Qed.
  Lemma ms_raise {A} J e : only e -> msafe J (@mraise A e). Proof. intros He w H. now split. Qed.
  Lemma ms_lift {A} J (x : res A) : (forall e, x = Err e -> only e) -> msafe J (mlift x).
  Proof. intros Hx w H. split; [exact H|]. cbn. destruct x; [easy|]. now apply Hx. Qed.
  Lemma ms_sett J : msafe J msett. Proof. intros w H. now split. Qed.
  Lemma ms_req J : msafe J mreq. Proof. intros w H. now split. Qed.
  Lemma ms_upd (J : world -> Prop) f : (forall w, J w -> J (fst w, f (snd w))) -> msafe J (mupd f).
  Proof. intros Hf w H. split; [now apply Hf|easy]. Qed.

  (** invariants that only look at the stream, the sizes and the two flags *)
  Definition J (hp : option bool) (bp : option bool) (w : world) : Prop :=
    WI w /\ match hp with Some b => r_hp (snd w) = b | None => True end /\ match bp with Some b => r_bp (snd w) = b | None => True end.
  Lemma ms_stream {A} hp bp (f : l0 -> res A * l0) : (forall s, SI s -> safe only SI (f s)) -> msafe (J hp bp) (mstream f).
  Proof.
    intros Hf [st r] [[H1 H2] H3]. unfold mstream. pose proof (Hf (r_stream r) H1) as [A1 A2]. cbn [fst snd].
    destruct (f (r_stream r)) as [x s]. cbn [fst snd] in *. split; [|exact A2]. now split.
  Qed.
  Lemma ms_quiet hp bp f : (forall r, r_stream (f r) = r_stream r /\ r_hp (f r) = r_hp r /\ r_bp (f r) = r_bp r) -> msafe (J hp bp) (mupd f).
  Proof.
    intros Hf. apply ms_upd. intros [st r] [[H1 H2] H3]. destruct (Hf r) as (E1 & E2 & E3). cbn [fst snd] in *.
    unfold J, WI. cbn [fst snd]. now rewrite E1, E2, E3.
  Qed.
  Lemma ms_query hp bp q mut : msafe (J hp bp) (new_query reg q mut).
  Proof.
    unfold new_query. apply ms_bind; [apply ms_sett|]. intros st. apply ms_lift. intros e He.
    apply querydict_err in He as [-> | ->]; [lk|ann].
  Qed.
  Lemma ms_encoding hp bp v : msafe (J hp bp) (set_encoding v).
  Proof. intros [st r] [[H1 H2] H3]. unfold set_encoding. split; [|exact Logic.I]. cbn. now split. Qed.

  Lemma parse_header_only line e : parse_header reg line = Err e -> only e.
  Proof. intros H. apply parse_header_err in H. right. left. cbn in *. tauto. Qed.

  Ltac quiet := apply ms_quiet; intros []; repeat split.
  Lemma ms_populate bp l h : msafe (J (Some true) bp) (populate reg l h).
  Proof.
    unfold populate. apply ms_bind.
    { apply ms_lift. intros e. unfold pick_host. destruct (nonempty _); [easy|]. destruct (header _ _); [easy|]. intros H. injection H as <-. ann. }
    intros [host hs]. destruct (split_domain_port host) as [domain port]. cbv zeta.
    apply ms_bind; [quiet|]. intros _. apply ms_bind.
    { destruct (header _ _); [|apply ms_ret]. apply ms_bind; [apply ms_lift; apply parse_header_only|]. intros p. apply ms_ret. }
    intros ch. apply ms_bind; [quiet|]. intros _. apply ms_bind.
    { destruct (snd ch); [apply ms_encoding|apply ms_ret]. }
    intros _. apply ms_bind; [apply ms_req|]. intros r. destruct (r_meta r) as [m|]; [|apply ms_raise; lk].
    apply ms_bind; [quiet|]. intros _. apply ms_bind; [destruct (nonempty _); apply ms_query|]. intros g. quiet.
  Qed.

  (** ** The header *)
  Lemma frame_loop_safe : forall f max hdr b s, size_ok max -> SI s ->
    match frame_loop f max hdr b s with
    | (Ok _, b1, s1) => SI s1 /\ b1 = true
    | (Err e, _, s1) => SI s1 /\ only e
    end.
  Proof.
    induction f as [|f IH]; intros max hdr b s Hm H; cbn [frame_loop]; [split; [exact H|lk]|].
    pose proof (l0_safe max s Hm H) as [A B]. destruct (l0_read max s) as [[c|e] s1]; cbn [fst snd] in A, B; [|now split].
    destruct c as [|c0 c]; [split; [exact A|ann]|]. destruct (find crlfcrlf (hdr ++ c0 :: c)); [now split|]. now apply IH.
  Qed.
  Lemma frame_safe max s : size_ok max -> SI s ->
    match frame max s with
    | (Ok _, b1, s1) => SI s1 /\ b1 = true
    | (Err e, _, s1) => SI s1 /\ only e
    end.
  Proof.
    intros Hm H. unfold frame. pose proof (frame_loop_safe (2 + l0_total s) max [] false s Hm H) as HL.
    destruct (frame_loop _ max [] false s) as [[[[h rest]|e] b] s1]; [|exact HL]. destruct HL as [A ->].
    pose proof (l0_unget_safe rest s1 A) as [C D]. destruct (ls_unget rest s1) as [[u|e] s2]; cbn [fst snd] in C, D; now split.
  Qed.
  Lemma ascii_encode_err s e : ascii_encode s = Err e -> e = UnicodeDecodeError.
  Proof. unfold ascii_encode. destruct (ascii_only s); [easy|]. intros H. now injection H. Qed.
  Lemma header_lines_only e : forall f s d, header_lines f s d = Err e -> only e.
  Proof.
    induction f as [|f IH]; intros s d; cbn [header_lines]; [intros H; injection H as <-; lk|].
    destruct (find_from crlf s 1) as [i|]; [|easy]. destruct (findc colon _) as [j|]; [|intros H; injection H as <-; ann].
    destruct (ascii_encode (firstn j _)) as [n|e1] eqn:E1; cbn [bind].
    - destruct (ascii_encode (strip _)) as [v|e2] eqn:E2; cbn [bind]; [apply IH|].
      intros H. injection H as <-. apply ascii_encode_err in E2 as ->. lk.
    - intros H. injection H as <-. apply ascii_encode_err in E1 as ->. lk.
  Qed.
  Lemma request_headers_only s e : parse_request_headers s = Err e -> only e.
  Proof.
    unfold parse_request_headers. destruct (find_from crlf s 1) as [i|]; [|intros H; injection H as <-; ann].
    cbv zeta. destruct (header_lines _ _ []) as [d|e1] eqn:E; cbn [bind].
    - destruct d; [|easy]. intros H. injection H as <-. ann.
    - intros H. injection H as <-. now apply header_lines_only in E.
  Qed.
  Lemma request_line_only s e : parse_request_line s = Err e -> only e.
  Proof.
    unfold parse_request_line. destruct (splitc space s) as [|a [|b [|c [|d l]]]]; try (intros H; injection H as <-; ann).
    unfold urlparse. destruct (ascii_only b); cbn [bind]; [|intros H; injection H as <-; lk].
    unfold urlparse_text, urlsplit. destruct (split_scheme b) as [x y]. destruct (split_netloc y) as [u v].
    match goal with |- context [if ?c then Err _ else _] => destruct c end; cbn [bind]; [intros H; injection H as <-; lk|].
    destruct (cut hash v) as [v1 v2]. destruct (cut qmark v1) as [v3 v4]. cbn [bind su_scheme su_path].
    match goal with |- context [let (path, params) := ?c in _] => destruct c end. easy.
  Qed.
  Definition hres (x : res unit * world) : Prop := safe only WI x /\ (fst x = Ok tt -> r_hp (snd (snd x)) = true).
  Lemma header_safe w : WI w -> hres (parse_request_header reg w).
  Proof.
    intros H. unfold parse_request_header, mreq, mbind at 1 2. cbv beta iota. destruct (r_hp (snd w)) eqn:Ehp; [now split|].
    unfold msett. unfold mbind at 1. destruct w as [st r]. cbn [fst snd] in *. destruct H as [H1 [H2 H3]]. cbn [fst snd] in *.
    pose proof (frame_safe (s_hdr st) (r_stream r) H2 H1) as HFr.
    destruct (frame (s_hdr st) (r_stream r)) as [[[h|e] b] s1]; destruct HFr as [A B]; [|split; [now split|easy]].
    subst b. set (w1 := (st, _) : world).
    assert (HJ : J (Some true) None w1) by (split; [split; [exact A|now split]|now split]).
    match goal with |- hres (?m w1) => assert (HM : msafe (J (Some true) None) m) end.
    { apply ms_bind; [apply ms_lift, request_headers_only|]. intros lh. apply ms_bind; [apply ms_lift, request_line_only|].
      intros l. apply ms_populate. }
    pose proof (HM w1 HJ) as [[C1 [C2 _]] C3]. split; [now split|]. intros _. exact C2.
  Qed.

  (** ** The body, with the header parsed and the body not *)
  Notation JB := (J (Some true) (Some false)).
  Lemma read_safe_m n : size_ok n -> msafe JB (m_read n).
  Proof.
    intros Hn. unfold m_read. apply ms_stream. intros s Hs. pose proof (l0_safe n s Hn Hs) as [A B].
    destruct (l0_read n s) as [[c|e] s1]; cbn [fst snd] in A, B; [now split|].
    destruct e; split; try exact A; try exact B; apply o_type.
  Qed.
  Lemma body_loop_safe : forall f max size chunk acc, msafe JB (body_loop f max size chunk acc).
  Proof.
    induction f as [|f IH]; intros max size chunk acc; cbn [body_loop]; [apply ms_raise; lk|].
    destruct (_ && _)%bool; [|apply ms_ret]. apply ms_bind; [apply read_safe_m; discriminate|]. intros c. apply IH.
  Qed.
  Lemma body_safe : msafe JB (body reg).
  Proof.
    intros w H. assert (Hhp : r_hp (snd w) = true) by apply H. assert (Hbp : r_bp (snd w) = false) by apply H.
    rewrite (body_hp reg w Hhp). unfold body1, mreq, mbind at 1. rewrite Hbp, Hhp. cbn [andb].
    destruct (r_body (snd w)); [now split|]. revert w H Hhp Hbp. intros w H _ _. revert w H.
    change (msafe JB read_body). unfold read_body. apply ms_bind; [apply ms_sett|]. intros st. apply ms_bind; [apply ms_req|].
    intros r. apply ms_bind; [apply read_safe_m; discriminate|]. intros c. apply ms_bind; [apply body_loop_safe|].
    intros x. destruct (within_max _ _); [|apply ms_raise; ann]. apply ms_bind; [quiet|]. intros _. apply ms_ret.
  Qed.
  Lemma empty_post_safe : msafe JB (empty_post reg).
  Proof. unfold empty_post. apply ms_bind; [apply ms_query|]. intros q. apply ms_bind; [quiet|]. intros _. apply ms_ret. Qed.
  Lemma mp_init_only ct cl e : mp_init reg ct cl = Err e -> only e.
  Proof.
    unfold mp_init. cbv zeta. set (v := match ct with Some v => v | None => [] end). clearbody v.
    destruct (negb (startswith v _)); [intros H; injection H as <-; ann|]. destruct (negb (ascii_only v)); [intros H; injection H as <-; lk|].
    destruct (parse_header reg v) as [h|e1] eqn:E1; cbn [bind]; [|intros H; injection H as <-; now apply parse_header_only in E1].
    destruct (dget !"boundary" (snd h)) as [b|]; cbn [bind]; [|intros H; injection H as <-; lk].
    destruct (_ && _)%bool; cbn [bind].
    - destruct (Z.ltb _ 0); [intros H; injection H as <-; ann|easy].
    - destruct (to_native b) as [n|e2] eqn:E2; cbn [bind]; [intros H; injection H as <-; ann|].
      intros H. injection H as <-. apply to_native_err in E2 as ->. lk.
  Qed.
  Lemma upload_safe : msafe JB (parse_file_upload reg name2cp mk_temp).
  Proof.
    intros w H. unfold parse_file_upload, mreq, msett, mbind at 1 2. destruct (r_meta (snd w)) as [m|]; [|split; [exact H|lk]].
    destruct (m_headers m) as [h|]; [|split; [exact H|lk]].
    assert (Hd : size_ok (s_dmem (fst w))) by apply H. revert w H Hd. intros w H Hd. set (st := fst w) in *. clearbody st. revert w H.
    match goal with |- forall w, _ -> safe _ _ (?m w) => change (msafe JB m) end.
    apply ms_bind; [apply ms_lift, mp_init_only|]. intros bl. apply ms_bind; [|intros pf; apply ms_ret].
    apply ms_stream. intros s Hs. apply mp_safe; [exact Hd|exact Hs].
  Qed.
  Lemma post_safe : msafe JB (parse_post reg name2cp mk_temp).
  Proof.
    intros w H. unfold parse_post, mreq, mbind at 1. destruct (a_ctype (r_attrs (snd w))) as [c|]; [|split; [exact H|lk]].
    revert w H. match goal with |- forall w, _ -> safe _ _ (?m w) => change (msafe JB m) end.
    destruct (match c with Some c => seqb c CT_MULTI | None => false end).
    - intros w H. pose proof (upload_safe w H) as [A B]. destruct (parse_file_upload reg name2cp mk_temp w) as [[pf|e] w1]; cbn [fst snd] in A, B.
      + split; [|exact Logic.I]. cbn. now destruct A as [[A1 A2] A3].
      + assert (HM : msafe JB (let! _ := empty_post reg in @mraise (postv * dict (list ufile)) MultiPartParserError)).
        { apply ms_bind; [apply empty_post_safe|]. intros _. apply ms_raise. ann. }
        destruct e; try (now split). now apply HM.
    - destruct (match c with Some c => seqb c CT_FORM | None => false end).
      + apply ms_bind; [apply body_safe|]. intros b. apply ms_bind; [apply ms_query|]. intros q. apply ms_bind; [quiet|]. intros _. apply ms_ret.
      + apply ms_bind; [apply empty_post_safe|]. intros p. apply ms_ret.
  Qed.
  Lemma decode_text_only enc p e : decode_text reg enc p = Err e -> only e.
  Proof.
    unfold decode_text, decode. destruct p as [b|u]; destruct (reg enc) as [c|].
    - destruct (c_dec c b); [easy|]. intros H. injection H as <-. lk.
    - intros H. injection H as <-. lk.
    - destruct (ascii_only u); [|intros H; injection H as <-; lk]. destruct (c_dec c u); [easy|]. intros H. injection H as <-. lk.
    - intros H. injection H as <-. lk.
  Qed.
  Lemma J_WI hp bp w : J hp bp w -> WI w. Proof. now intros [H _]. Qed.
  Lemma request_body_safe w : WI w -> r_hp (snd w) = true -> safe only WI (parse_request_body reg name2cp mk_temp w).
  Proof.
    intros H Hhp. unfold parse_request_body, mreq, msett, mbind at 1. destruct (r_bp (snd w)) eqn:Hbp; [now split|].
    unfold mbind at 1. rewrite Hhp. cbn [negb]. assert (HJ : JB w) by (now split; [|split]). clear Hhp Hbp H.
    set (st := fst w). clearbody st.
    (* everything but the last assignment keeps [JB] *)
    assert (HM : msafe JB (let! _ := mupd (set_handlers (Some (s_handlers st))) in
        let! data := mstream (l0_read (Some 1%Z)) in
        match data with
        | [] => let! _ := empty_post reg in mret None
        | _ => let! _ := mstream (ls_unget data) in
            let! pf := parse_post reg name2cp mk_temp in
            let! b := body reg in
            let! st := msett in
            let! t := mlift (decode_text reg (s_charset st) b) in
            mret (Some (pf, t))
        end)).
    { apply ms_bind; [quiet|]. intros _. apply ms_bind; [apply ms_stream; intros s; apply l0_safe; cbn; lia|].
      intros [|c0 c]; [apply ms_bind; [apply empty_post_safe|intros p; apply ms_ret]|].
      apply ms_bind; [apply ms_stream; intros s; apply l0_unget_safe|]. intros _. apply ms_bind; [apply post_safe|]. intros pf.
      apply ms_bind; [apply body_safe|]. intros b. apply ms_bind; [apply ms_sett|]. intros st1.
      apply ms_bind; [apply ms_lift; intros e; apply decode_text_only|]. intros t. apply ms_ret. }
    specialize (HM w HJ). unfold mbind in *.
    destruct (mupd _ w) as [[u|e] w1]; [|destruct HM as [A B]; split; [now apply J_WI in A|exact B]].
    destruct (mstream (l0_read (Some 1%Z)) w1) as [[data|e] w2]; [|destruct HM as [A B]; split; [now apply J_WI in A|exact B]].
    destruct data as [|c0 c].
    - destruct (empty_post reg w2) as [[p|e] w3]; destruct HM as [A B]; (split; [now apply J_WI in A|exact B]).
    - destruct (mstream (ls_unget (c0 :: c)) w2) as [[u3|e] w3]; [|destruct HM as [A B]; split; [now apply J_WI in A|exact B]].
      destruct (parse_post reg name2cp mk_temp w3) as [[pf|e] w4]; [|destruct HM as [A B]; split; [now apply J_WI in A|exact B]].
      destruct (body reg w4) as [[b|e] w5]; [|destruct HM as [A B]; split; [now apply J_WI in A|exact B]].
      cbn [msett] in *. unfold mlift in *. destruct (decode_text reg (s_charset (fst w5)) b) as [t|e]; [|destruct HM as [A B]; split; [now apply J_WI in A|exact B]].
      destruct HM as [A _]. split; [|exact Logic.I]. cbn in *. now destruct A as [[A1 A2] A3].
  Qed.
  Theorem parse_safe w : WI w -> safe only WI (parse reg name2cp mk_temp w).
  Proof.
    intros H. unfold parse, mbind. destruct (header_safe w H) as [[A B] HP].
    destruct (parse_request_header reg w) as [[[]|e] w1]; cbn [fst snd] in *; [|now split].
    now apply request_body_safe; [|apply HP].
  Qed.
End Only.

(** ** The header alone, from a source that does not fail *)
Definition header_error (e : exn) : Prop :=
  (exists r, e = InvalidHttpRequest r) \/
  In e [NoHostFoundException; TooManyFieldsSent; UnicodeDecodeError; ValueError; LookupError].

Lemma first_occ_rest p s u v : first_occ p s u v -> occurs v s.
Proof. intros [-> _]. exists (u ++ p), []. now rewrite app_nil_r, <- !app_assoc. Qed.
Lemma frame_cases max s : size_ok max -> src_error s = None ->
  (exists b s1, frame max (l0_init s) = (Err (InvalidHttpRequest NoTerminator), b, s1)) \/
  exists h s1 rest, frame max (l0_init s) = (Ok h, true, s1) /\ l0at 3 s1 rest /\ occurs rest (src_bytes s).
Proof.
  intros Hm Hs. destruct max as [z|]; [destruct (Z.eq_dec z 0) as [->|Hz]|].
  - left. unfold frame. cbn [Nat.add frame_loop]. change (l0_read (Some 0%Z) (l0_init s)) with (Ok (A := str) [], l0_init s). cbv iota beta. now eexists _, _.
  - assert (HM : max_ok (Some z)) by (cbn in *; lia). pose proof (l0at_init 1 s Hs) as HA.
    destruct (find crlfcrlf (src_bytes s)) as [i|] eqn:Ef.
    + apply find_first_occ in Ef as (h & b & HF & _). destruct (frame_found _ 1 _ _ h b HM ltac:(lia) HA HF) as (s1 & E1 & E2).
      right. exists (h ++ crlf), s1, b. split; [exact E1|]. split; [exact E2|]. apply first_occ_rest in HF. exact HF.
    + apply find_None in Ef. destruct (frame_missing _ 1 _ _ HM ltac:(lia) HA Ef) as (s1 & E1 & _). left. now exists true, s1.
  - pose proof (l0at_init 1 s Hs) as HA. destruct (find crlfcrlf (src_bytes s)) as [i|] eqn:Ef.
    + apply find_first_occ in Ef as (h & b & HF & _). destruct (frame_found None 1 _ _ h b Logic.I ltac:(lia) HA HF) as (s1 & E1 & E2).
      right. exists (h ++ crlf), s1, b. split; [exact E1|]. split; [exact E2|]. apply first_occ_rest in HF. exact HF.
    + apply find_None in Ef. destruct (frame_missing None 1 _ _ Logic.I ltac:(lia) HA Ef) as (s1 & E1 & _). left. now exists true, s1.
Qed.
Lemma find_from_len p s : forall a i, find_from p s a = Some i -> i + length p <= length s.
Proof.
  intros a i H. unfold find_from in H. destruct (Nat.ltb_spec (length s) a); [easy|]. destruct (find p (skipn a s)) as [j|] eqn:E; [|easy].
  pose proof (find_Some _ _ _ E) as [_ El]. rewrite skipn_length in El. cbn in H. injection H as <-. lia.
Qed.
Ltac he := first [left; now eexists | right; cbn; tauto].
Lemma header_lines_err e : forall f s d, length s < f -> header_lines f s d = Err e -> header_error e.
Proof.
  induction f as [|f IH]; intros s d Hl; [lia|]. cbn [header_lines].
  destruct (find_from crlf s 1) as [i|] eqn:Ei; [|easy]. destruct (findc colon _) as [j|]; [|intros H; injection H as <-; he].
  destruct (ascii_encode (firstn j _)) as [n|e1] eqn:E1; cbn [bind].
  - destruct (ascii_encode (strip _)) as [v|e2] eqn:E2; cbn [bind].
    + apply IH. apply find_from_len in Ei. cbn [crlf length] in Ei. pose proof (skipn_length (i + 2) s). unfold str in *. lia.
    + intros H. injection H as <-. apply ascii_encode_err in E2 as ->. he.
  - intros H. injection H as <-. apply ascii_encode_err in E1 as ->. he.
Qed.
Lemma request_headers_err s e : parse_request_headers s = Err e -> header_error e.
Proof.
  unfold parse_request_headers. destruct (find_from crlf s 1) as [i|]; [|intros H; injection H as <-; he].
  cbv zeta. destruct (header_lines _ _ []) as [d|e1] eqn:E; cbn [bind].
  - destruct d; [|easy]. intros H. injection H as <-. he.
  - intros H. injection H as <-. apply header_lines_err in E; [exact E|lia].
Qed.
Lemma request_line_err s e : parse_request_line s = Err e -> header_error e.
Proof.
  unfold parse_request_line. destruct (splitc space s) as [|a [|b [|c [|d l]]]]; try (intros H; injection H as <-; he).
  unfold urlparse. destruct (ascii_only b); cbn [bind]; [|intros H; injection H as <-; he].
  unfold urlparse_text, urlsplit. destruct (split_scheme b) as [x y]. destruct (split_netloc y) as [u v].
  match goal with |- context [if ?c then Err _ else _] => destruct c end; cbn [bind]; [intros H; injection H as <-; he|].
  destruct (cut hash v) as [v1 v2]. destruct (cut qmark v1) as [v3 v4]. cbn [bind su_scheme su_path].
  match goal with |- context [let (path, params) := ?c in _] => destruct c end. easy.
Qed.
Lemma header_outcome reg st s q : size_ok (s_hdr st) -> src_error s = None ->
  match parse_request_header reg (st, fresh q s) with
  | (Err e, _) => header_error e
  | (Ok _, (st1, r1)) => r_hp r1 = true /\ r_bp r1 = false /\ r_body r1 = None /\ (exists c, a_ctype (r_attrs r1) = Some c) /\
      (exists b, l0at 3 (r_stream r1) b /\ occurs b (src_bytes s)) /\ s_dmem st1 = s_dmem st /\
      exists q h, r_meta r1 = Some (mkMeta q (Some h))
  end.
Proof.
  intros Hm Hs. unfold parse_request_header, mreq, msett, mbind at 1 2 3. cbn [snd fst r_hp fresh r_stream].
  destruct (frame_cases (s_hdr st) s Hm Hs) as [(b & s1 & E)|(h & s1 & b & E & HA & HO)]; rewrite E; [he|].
  unfold mbind at 1, mlift at 1. destruct (parse_request_headers h) as [[line d]|e] eqn:E1; [|now apply request_headers_err in E1].
  cbn [fst snd]. unfold mbind at 1, mlift. destruct (parse_request_line line) as [l|e] eqn:E2; [|now apply request_line_err in E2].
  rewrite populate_eq. destruct (pick_host l d) as [[host hs]|e] eqn:E3.
  2:{ unfold pick_host in E3. destruct (nonempty _); [easy|]. destruct (header _ _); [easy|]. injection E3 as <-. he. }
  destruct (ctype_of reg hs) as [[c ch]|e] eqn:E4.
  2:{ unfold ctype_of in E4. destruct (header _ hs); [|easy]. destruct (parse_header reg s0) as [p|e1] eqn:E5; cbn [bind] in E4; [easy|].
    injection E4 as <-. apply parse_header_err in E5. right. cbn in *. tauto. }
  cbn [r_meta set_flags set_stream fresh]. cbv zeta. destruct (query_of reg (charset_after ch st) (rl_query l)) as [g|e] eqn:E5.
  2:{ unfold query_of in E5. destruct (nonempty _); apply querydict_err in E5 as [-> | ->]; he. }
  destruct ch; cbn; (split; [easy|]; split; [easy|]; split; [easy|]; split; [now exists c|]; split; [now exists b|]; split; [reflexivity|now eexists _, _]).
Qed.

(** ** C133 *)
(** Whatever bytes arrive, however they are cut, and whatever the input or the disk raise:
    parse() raises only exceptions of the package, these of Python, or what it was given. *)
Theorem C133_only :
  forall reg name2cp mk_temp st s r e, request_init reg st s = Ok r -> size_ok (s_hdr st) -> size_ok (s_dmem st) ->
    fst (parse reg name2cp mk_temp (st, r)) = Err e ->
    announced e \/ leaked e \/ (exists suffix, mk_temp suffix = Err e) \/ In (SFail e) s.
Proof.
  intros reg name2cp mk_temp st s r e Hi Hh Hd HP. rewrite init_eq in Hi.
  destruct (querydict reg (Some (s_query st)) None true) as [q|]; [|easy]. injection Hi as <-.
  pose proof (parse_safe reg name2cp mk_temp (fun e => In (SFail e) s) (st, fresh q s)) as HS.
  destruct HS as [_ H]; [split; [split; [intros x Hx; exact Hx|reflexivity]|now split]|]. rewrite HP in H. exact H.
Qed.
Print Assumptions C133_only.
(** so bad input never provokes these *)
Theorem C133_never :
  forall reg name2cp mk_temp st s r e, request_init reg st s = Ok r -> size_ok (s_hdr st) -> size_ok (s_dmem st) ->
    src_error s = None -> (forall x, exists y, mk_temp x = Ok y) ->
    fst (parse reg name2cp mk_temp (st, r)) = Err e ->
    ~ In e [KeyError; IndexError; AssertionError; ImportError; IOError; UnreadablePostError; InputStreamExhausted;
            StopFutureHandlers; RawPostDataException; RequestHeaderParseException].
Proof.
  intros reg name2cp mk_temp st s r e Hi Hh Hd Hs Hmk HP Hin.
  assert (HN : ~ In (SFail e) s).
  { clear -Hs. induction s as [|[d|x] s IH]; cbn in *; [easy| |easy]. intros [H|H]; [easy|now apply IH]. }
  destruct (C133_only reg name2cp mk_temp st s r e Hi Hh Hd HP) as [[[x H]|H]|[H|[[x H]|H]]]; [| | | |now apply HN].
  - subst e. cbn in Hin. now repeat destruct Hin as [Hin|Hin].
  - cbn in Hin, H. repeat destruct Hin as [<-|Hin]; try easy; now repeat destruct H as [H|H].
  - cbn in Hin, H. repeat destruct Hin as [<-|Hin]; try easy; now repeat destruct H as [H|H].
  - destruct (Hmk x) as [y Hy]. congruence.
Qed.
Print Assumptions C133_never.
(** any later call: the same holds from every state of the object *)
Theorem C133_any_state :
  forall reg name2cp mk_temp st r p e, ls_prod (r_stream r) = Some p -> ls_remaining (r_stream r) = None ->
    size_ok (s_hdr st) -> size_ok (s_dmem st) ->
    fst (parse reg name2cp mk_temp (st, r)) = Err e ->
    announced e \/ leaked e \/ (exists suffix, mk_temp suffix = Err e) \/ In (SFail e) p.
Proof.
  intros reg name2cp mk_temp st r p e Hp Hr Hh Hd HP.
  pose proof (parse_safe reg name2cp mk_temp (fun e => In (SFail e) p) (st, r)) as HS.
  destruct HS as [_ H]; [split; [split; [cbn; rewrite Hp; intros x Hx; exact Hx|exact Hr]|now split]|]. rewrite HP in H. exact H.
Qed.
Print Assumptions C133_any_state.
(** the header alone *)
Theorem C133_header :
  forall reg st s r e, request_init reg st s = Ok r -> size_ok (s_hdr st) -> src_error s = None ->
    fst (parse_request_header reg (st, r)) = Err e -> header_error e.
Proof.
  intros reg st s r e Hi Hh Hs HP. rewrite init_eq in Hi.
  destruct (querydict reg (Some (s_query st)) None true) as [q|]; [|easy]. injection Hi as <-.
  pose proof (header_outcome reg st s q Hh Hs) as H. destruct (parse_request_header reg (st, fresh q s)) as [[u|e1] w]; [easy|].
  now injection HP as ->.
Qed.
Print Assumptions C133_header.
(** bodies other than multipart ones *)
Theorem C133_other_bodies :
  forall reg name2cp mk_temp st s r st1 r1 e, request_init reg st s = Ok r -> size_ok (s_hdr st) -> src_error s = None ->
    parse_request_header reg (st, r) = (Ok tt, (st1, r1)) -> a_ctype (r_attrs r1) <> Some (Some CT_MULTI) ->
    fst (parse reg name2cp mk_temp (st, r)) = Err e ->
    In e [RequestDataTooBig; TooManyFieldsSent; LookupError; UnicodeDecodeError].
Proof.
  intros reg name2cp mk_temp st s r st1 r1 e Hi Hh Hs HP Hct. rewrite init_eq in Hi.
  destruct (querydict reg (Some (s_query st)) None true) as [q|]; [|easy]. injection Hi as <-.
  pose proof (header_outcome reg st s q Hh Hs) as H. unfold parse, mbind. rewrite HP in *.
  destruct H as (Hhp & Hbp & Hbo & [c Hc] & (b & HA & _) & _).
  assert (HQ : forall qs mut e1, querydict reg (Some (s_query st1)) qs mut = Err e1 -> In e1 [RequestDataTooBig; TooManyFieldsSent; LookupError; UnicodeDecodeError]).
  { intros qs mut e1 He. apply querydict_err in He as [-> | ->]; cbn; tauto. }
  assert (HD : forall b e1, decode reg (s_charset st1) b = Err e1 -> In e1 [RequestDataTooBig; TooManyFieldsSent; LookupError; UnicodeDecodeError]).
  { intros b0 e1. unfold decode. destruct (reg _) as [k|]; [destruct (c_dec k b0); [easy|]|]; intros E; injection E as <-; cbn; tauto. }
  destruct (list_eq_dec N.eq_dec b []) as [->|Hb].
  { destruct (parse_body_none reg name2cp mk_temp 3 st1 r1 Hbp Hhp HA ltac:(lia)) as (s1 & _ & ->).
    destruct (querydict _ _ _ _) as [q1|e1] eqn:E1; [easy|]. cbn [fst]. intros E. injection E as <-. now apply HQ in E1. }
  destruct (parse_body_some reg name2cp mk_temp 3 st1 r1 b Hbp Hhp HA ltac:(lia) Hb) as (s2 & HA2 & ->).
  set (r2 := set_stream s2 (at_body st1 r1)).
  assert (HB : match s_dmem st1 with Some m => (m < zlen b)%Z | None => True end -> fst (finish reg name2cp mk_temp (st1, r2)) = Err e ->
    In e [RequestDataTooBig; TooManyFieldsSent; LookupError; UnicodeDecodeError]).
  { intros Hbig. unfold finish. unfold mbind at 1. unfold parse_post. unfold mbind at 1, mreq. cbn [snd].
    change (a_ctype (r_attrs r2)) with (a_ctype (r_attrs r1)). rewrite Hc.
    destruct (match c with Some c => seqb c CT_MULTI | None => false end) eqn:E1.
    { destruct c as [c|]; [|easy]. apply seqb_eq in E1. subst c. now rewrite Hc in Hct. }
    destruct (match c with Some c => seqb c CT_FORM | None => false end).
    - unfold mbind at 1. rewrite body_reads; [|exact Hhp|now left|exact Hbo].
      destruct (read_body_big 5 st1 r2 b HA2 ltac:(lia) Hbig) as (s3 & ->). cbn [fst]. intros E. injection E as <-. now left.
    - unfold mbind at 1. rewrite empty_post_eq. destruct (querydict _ _ _ _) as [q1|e1] eqn:E2.
      2:{ cbn [fst]. intros E. injection E as <-. now apply HQ in E2. }
      unfold mret, mbind at 1. rewrite body_reads; [|exact Hhp|now left|exact Hbo].
      destruct (read_body_big 5 st1 (set_hasfiles true r2) b HA2 ltac:(lia) Hbig) as (s3 & ->). cbn [fst]. intros E. injection E as <-. now left. }
  destruct (s_dmem st1) as [m|] eqn:Em; [destruct (Z_le_gt_dec (zlen b) m) as [Hle|Hgt]|].
  - destruct (is_form c) eqn:Ef.
    + unfold is_form in Ef. destruct c as [c|]; [|easy]. destruct (seqb c CT_MULTI) eqn:E1.
      * apply seqb_eq in E1. subst c. now rewrite Hc in Hct.
      * rewrite orb_false_r in Ef. apply seqb_eq in Ef. subst c.
        destruct (finish_form reg name2cp mk_temp 5 st1 r2 b m Hbp Hhp Hbo Hc HA2 ltac:(lia) Em Hle) as (s' & _ & EF). cbv zeta in EF. rewrite EF.
        destruct (querydict _ _ _ _) as [q1|e1] eqn:E2; [|cbn [fst]; intros E; injection E as <-; now apply HQ in E2].
        destruct (decode _ _ _) as [t|e1] eqn:E3; [easy|]. cbn [fst]. intros E. injection E as <-. now apply HD in E3.
    + destruct (finish_other reg name2cp mk_temp 5 st1 r2 b m c Hbp Hhp Hbo Hc Ef HA2 ltac:(lia) Em Hle) as (s' & _ & EF). cbv zeta in EF. rewrite EF.
      destruct (querydict _ _ _ _) as [q1|e1] eqn:E2; [|cbn [fst]; intros E; injection E as <-; now apply HQ in E2].
      destruct (decode _ _ _) as [t|e1] eqn:E3; [easy|]. cbn [fst]. intros E. injection E as <-. now apply HD in E3.
  - apply HB. lia.
  - now apply HB.
Qed.
Print Assumptions C133_other_bodies.

(** ** C133 is false: each of the exceptions of Python is provoked by some request *)
Definition ex_form (ct : str) (body : str) : src := req [!"POST / HTTP/1.1"; !"Host: a"; !"Content-Length: 9"; !"Content-Type: " ++ ct] body.
Definition ex_part (head body : str) : src :=
  ex_form !"multipart/form-data; boundary=X" (!"--X" ++ crlf ++ !"Content-Disposition: form-data; " ++ head ++ crlfcrlf ++ body ++ crlf ++ !"--X--").
Definition ex_leak (e : exn) : src :=
  match e with
  | UnicodeDecodeError => req [!"GET / HTTP/1.1"; !"Host: a"; !"X: " ++ [233%N]] []
  | ValueError => req [!"GET http://[a HTTP/1.1"; !"Host: a"] []
  | LookupError => req [!"GET / HTTP/1.1"; !"Host: a"; !"Content-Type: text/plain; charset=x"] []
  | AttributeError => ex_form !"multipart/form-data" !"x"
  | TypeError => ex_part (!"name=a" ++ crlf ++ !"Content-Transfer-Encoding: base64") !"YQ"
  | OverflowError => ex_part !"name=a; filename=""&#9223372036854775808;""" !"x"
  | UnicodeEncodeError => ex_part !"name*=utf-8''%C3%A9" !"x"
  | _ => ex_part (!"name=a; filename=b" ++ crlf ++ !"Content-Transfer-Encoding: base64") !"YQ"
  end.
Theorem C133_bad_input_refuted :
  forall e, leaked e -> exists s, src_error s = None /\ fst (run (parse ex_reg no_cp ok_temp) ex_set s) = Err e.
Proof.
  intros e H. exists (ex_leak e). cbn in H.
  repeat destruct H as [<-|H]; try easy; (split; [reflexivity|vm_compute; reflexivity]).
Qed.
Print Assumptions C133_bad_input_refuted.
(** the announced ones are reached too, all but SuspiciousMultipartForm (C32) *)
Definition ex_low : sett := mkS (Some 16%Z) (Some 30%Z) (Some 3%Z) (Some 1%Z) !"ISO-8859-1" [KConv].
Example C133_case :
  map (fun s => fst (run (parse ex_reg no_cp ok_temp) ex_low s))
    [ [SData !"junk"]; req [!"GET / HTTP/1.1"; !"X: 1"] []; req [!"GET /?a=1;b=2 HTTP/1.1"; !"Host: a"] [];
      ex_form !"multipart/form-data; boundary=" !"x"; ex_form !"text/plain" !"abcd" ] =
  [ Err (InvalidHttpRequest NoTerminator); Err NoHostFoundException; Err TooManyFieldsSent; Err MultiPartParserError; Err RequestDataTooBig ].
Proof. vm_compute. reflexivity. Qed.
(** hypotheses of C133_other_bodies *)
Example C133_other_case :
  let s := ex_form !"text/plain; charset=utf-8" [233%N] in
  exists r st1 r1, request_init ex_reg ex_set s = Ok r /\ size_ok (s_hdr ex_set) /\ src_error s = None /\
    parse_request_header ex_reg (ex_set, r) = (Ok tt, (st1, r1)) /\ a_ctype (r_attrs r1) <> Some (Some CT_MULTI) /\
    fst (parse ex_reg no_cp ok_temp (ex_set, r)) = Err UnicodeDecodeError.
Proof.
  cbv zeta. eexists _, _, _. split; [vm_compute; reflexivity|]. split; [cbn; lia|]. split; [reflexivity|].
  split; [vm_compute; reflexivity|]. split; [vm_compute; discriminate|]. vm_compute. reflexivity.
Qed.
