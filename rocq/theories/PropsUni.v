(** * Theorem C135: the boundary in extended notation *)
From Verif Require Import Py Spec PyFacts PyDict StreamModel StreamSpec StreamFacts CodecModel CodecFacts QueryModel QuerySpec Base64Model HeaderModel HeaderFacts
  HeaderSpec BoundaryModel UploadModel MultipartModel MultipartDet FormSpec HeadModel RequestModel UniModel UniFacts PropsPart PropsMultipart PropsExt PropsRequest MultipartInv ExnFacts PropsExn PropsExn2.

(** ** Sources *)
(** everything that is delivered is ASCII *)
Definition ascii_src (s : src) : Prop := forall d, In (SData d) s -> ascii_only d = true.
Lemma ascii_src_read n : forall s, ascii_src s -> match src_read n s with (Ok d, s1) => ascii_only d = true /\ ascii_src s1 | (Err _, s1) => ascii_src s1 end.
Proof.
  induction s as [|[d|e] s IH]; intros H; cbn [src_read]; [now split| |].
  - destruct d as [|x d]; [apply IH; intros d Hd; apply H; now right|].
    pose proof (H (x :: d) (or_introl eq_refl)) as Hx. split; [now apply ascii_firstn|].
    intros d1 Hd1. destruct (skipn n (x :: d)) as [|y r] eqn:E; [apply H; now right|]. destruct Hd1 as [Hd1|Hd1].
    + injection Hd1 as <-. rewrite <- E. now apply ascii_skipn.
    + apply H. now right.
  - intros d Hd. apply H. now right.
Qed.

(** ** The constructor *)
(** what the parser makes of a boundary [v] and a Content-Length *)
Definition init_of (v : option pystr) (clen : option str) : res (pystr * Z) :=
  match v with
  | None => Err AttributeError
  | Some b =>
      if pnonempty b && valid_boundary (pchars b)
      then let n := match clen with None => 0%Z | Some c => match py_int 10 c with Some z => z | None => 0%Z end end in
           if Z.ltb n 0 then Err MultiPartParserError else Ok (b, n)
      else let* _ := to_native b in Err MultiPartParserError
  end.
Lemma init_pars reg main ps clen : startswith main !"multipart/" = true -> ascii_only (render_pars main ps) = true ->
  ~ In 59%N main -> ~ In 34%N main -> Forall (par_good reg) ps ->
  mp_init reg (Some (render_pars main ps)) clen = init_of (last_par !"boundary" ps) clen.
Proof.
  intros Hm Ha H1 H2 HF. assert (Ham : ascii_only main = true).
  { unfold render_pars in Ha. rewrite ascii_only_app in Ha. now apply andb_prop in Ha as [Ha _]. }
  destruct (C113_extended_parameters reg main ps Ham H1 H2 HF) as (d & E & HD).
  assert (HS : startswith (render_pars main ps) !"multipart/" = true).
  { unfold startswith in *. apply prefixb_iff in Hm as (t & ->). unfold render_pars. rewrite <- app_assoc. apply prefixb_app. }
  unfold mp_init. cbv zeta. rewrite HS, Ha. cbn [negb]. rewrite E. cbn [bind snd]. rewrite HD. unfold init_of.
  destruct (last_par !"boundary" ps) as [b|]; cbn [bind]; [|reflexivity].
  destruct (pnonempty b && valid_boundary (pchars b))%bool; cbn [bind]; [reflexivity|]. now destruct (to_native b).
Qed.

(** two ways to write the same boundary [b]: as bytes and as text, between any other parameters *)
Definition notations (reg : registry) (main : str) (ps1 ps2 : list par) (b : str) : Prop :=
  startswith main !"multipart/" = true /\ ~ In 59%N main /\ ~ In 34%N main /\
  ascii_only (render_pars main ps1) = true /\ ascii_only (render_pars main ps2) = true /\
  Forall (par_good reg) ps1 /\ Forall (par_good reg) ps2 /\
  last_par !"boundary" ps1 = Some (PB b) /\ last_par !"boundary" ps2 = Some (PU b) /\ ascii_only b = true.
(** the parser on a source *)
Definition multipart reg name2cp mk_temp st fuel csize hs ctype clen (s : src) :=
  u_multipart src_read it_exhaust reg name2cp mk_temp st fuel csize hs (Some ctype) clen s.

Lemma notations_init reg main ps1 ps2 b clen : notations reg main ps1 ps2 b ->
  (exists n, mp_init reg (Some (render_pars main ps1)) clen = Ok (PB b, n) /\ mp_init reg (Some (render_pars main ps2)) clen = Ok (PU b, n)) \/
  (exists e, mp_init reg (Some (render_pars main ps1)) clen = Err e /\ mp_init reg (Some (render_pars main ps2)) clen = Err e).
Proof.
  intros (H1 & H2 & H3 & H4 & H5 & H6 & H7 & H8 & H9 & H10). rewrite !init_pars by assumption. rewrite H8, H9. cbn [init_of pchars pnonempty]. unfold pnonempty. cbn [pchars].
  destruct (nonempty b && valid_boundary b)%bool.
  - cbv zeta. destruct (Z.ltb _ 0); [right; now eexists|left; now eexists].
  - right. unfold to_native. rewrite H10. cbn [bind]. now eexists.
Qed.

(** the same outcome, or UnicodeDecodeError; with ASCII input the same outcome *)
Theorem C135_notation_partial :
  forall reg name2cp mk_temp st fuel csize hs main ps1 ps2 b clen s, notations reg main ps1 ps2 b ->
    let plain := multipart reg name2cp mk_temp st fuel csize hs (render_pars main ps1) clen s in
    let extended := multipart reg name2cp mk_temp st fuel csize hs (render_pars main ps2) clen s in
    (extended = plain \/ fst extended = Err UnicodeDecodeError) /\ (ascii_src s -> extended = plain).
Proof.
  intros reg name2cp mk_temp st fuel csize hs main ps1 ps2 b clen s HN. cbv zeta. unfold multipart, u_multipart.
  destruct (notations_init reg main ps1 ps2 b clen HN) as [(n & -> & ->)|(e & -> & ->)]; [|now split; [left|intros _]].
  cbn [is_unicode pchars].
  assert (HP : u_parse src_read it_exhaust reg name2cp mk_temp st false (!"--" ++ b) fuel csize n hs s =
               mp_parse src_read it_exhaust reg name2cp mk_temp st (!"--" ++ b) fuel csize n hs s).
  { destruct (up_parse false src_read it_exhaust reg name2cp mk_temp st (!"--" ++ b) fuel csize n hs s) as [E|[E _]]; [exact E|discriminate E]. }
  rewrite HP. split.
  - destruct (up_parse true src_read it_exhaust reg name2cp mk_temp st (!"--" ++ b) fuel csize n hs s) as [E|[_ E]]; [now left|now right].
  - intros HA. apply (pure_parse src_read it_exhaust ascii_src); [|exact HA]. intros k r. apply ascii_src_read.
Qed.
Print Assumptions C135_notation_partial.

(** every body outside ASCII that is accepted with the plain notation is refused with the extended one *)
Theorem C135_nonascii_refuted :
  forall reg name2cp mk_temp st fuel csize hs main ps1 ps2 b clen s x, notations reg main ps1 ps2 b ->
    0 < csize -> src_error s = None -> ascii_only (src_bytes s) = false ->
    (exists c z, clen = Some c /\ py_int 10 c = Some z /\ (0 < z)%Z) ->
    fst (multipart reg name2cp mk_temp st fuel csize hs (render_pars main ps1) clen s) = Ok x ->
    fst (multipart reg name2cp mk_temp st fuel csize hs (render_pars main ps2) clen s) = Err UnicodeDecodeError.
Proof.
  intros reg name2cp mk_temp st fuel csize hs main ps1 ps2 b clen s x HN Hc Hs Ha (c & z & -> & Hz & Hp) HX.
  destruct (C135_notation_partial reg name2cp mk_temp st fuel csize hs main ps1 ps2 b (Some c) s HN) as [[E|E] _]; [|exact E].
  exfalso. rewrite <- E in HX. unfold multipart, u_multipart in HX.
  assert (HI : mp_init reg (Some (render_pars main ps2)) (Some c) = init_of (Some (PU b)) (Some c)).
  { destruct HN as (H1 & H2 & H3 & H4 & H5 & H6 & H7 & H8 & H9 & H10). rewrite <- H9. now apply init_pars. }
  rewrite HI in HX. unfold init_of in HX. destruct (_ && _)%bool; [|now destruct (to_native _)]. rewrite Hz in HX. cbv zeta in HX.
  destruct (Z.ltb_spec z 0); [lia|]. cbn [is_unicode pchars] in HX.
  assert (HA : src_error s = None -> ascii_only (src_bytes s) = true); [|now rewrite HA in Ha].
  set (AR := fun r => src_error r = None -> ascii_only (src_bytes r) = true). change (AR s).
  refine (asc_parse src_read it_exhaust AR csize _ _ _ reg name2cp mk_temp st (!"--" ++ b) fuel z hs s x _ HX); [| | |lia].
  - intros r d r1 Er Hd H1 H0. pose proof (src_read_spec csize r Hc) as HR. rewrite Er in HR. destruct d as [|y d].
    + destruct HR as (HR & _). now rewrite HR.
    + destruct HR as (-> & HR & _). rewrite ascii_only_app, Hd. apply H1. congruence.
  - intros r d r1 Er -> _. pose proof (src_read_spec csize r Hc) as HR. rewrite Er in HR. destruct HR as (_ & _ & ->). reflexivity.
  - intros r r1 Er H0. pose proof (src_read_spec csize r Hc) as HR. rewrite Er in HR. destruct HR as [_ HR]. congruence.
Qed.
Print Assumptions C135_nonascii_refuted.

(** a boundary written in both ways, and a form with one field: "caf" and an accented letter, in Latin-1; and one in ASCII *)
Definition ex_plain : list par := [Ord !"charset" (Tok !"x"); Ord !"boundary" (Tok !"a-b")].
Definition ex_ext : list par := [Ord !"charset" (Tok !"x"); Ext !"Boundary" !"utf-8" [] !"a%2Db" !"a-b"].
Lemma ex_notations : notations ex_reg !"multipart/form-data" ex_plain ex_ext !"a-b".
Proof.
  assert (HO : forall n v, is_token n = true -> endswith n !"*" = false -> is_token v = true -> par_good ex_reg (Ord n (Tok v))) by (intros n v H1 H2 H3; now repeat split).
  split; [reflexivity|]. split; [now vm_compute; intuition discriminate|]. split; [now vm_compute; intuition discriminate|].
  split; [reflexivity|]. split; [reflexivity|]. split; [|split; [|now repeat split]].
  - constructor; [now apply HO|]. constructor; [now apply HO|]. constructor.
  - constructor; [now apply HO|]. constructor; [|constructor]. repeat (split; [reflexivity|]). split.
    + exists (utf8 (fun s => s)), !"a-b". split; [reflexivity|]. split; [apply utf8_ok|]. split; [reflexivity|].
      apply pct_plain; [discriminate|]. apply (pct_hex _ _ 2 13); [left; reflexivity|left; reflexivity|]. apply pct_plain; [discriminate|]. apply pct_nil.
    + intros [w H]. discriminate H.
Qed.
Definition ex_field (v : str) : str := render_form !"--a-b" [mkPart !"f" None None false v v].
Definition ex_multipart (ps : list par) (v : str) :=
  fst (multipart ex_reg no_cp ok_temp ex_ms 300 64 [new_handler KConv] (render_pars !"multipart/form-data" ps) (Some !"100") [SData (ex_field v)]).
Example C135_case :
  ex_multipart ex_plain !"cafe" = Ok ([(!"f", [mkEntry !"cafe" [] [] []])], []) /\ ex_multipart ex_ext !"cafe" = ex_multipart ex_plain !"cafe" /\
  ex_multipart ex_plain [99; 97; 102; 233]%N = Ok ([(!"f", [mkEntry [99; 97; 102; 233]%N [] [] []])], []) /\
  ex_multipart ex_ext [99; 97; 102; 233]%N = Err UnicodeDecodeError.
Proof. vm_compute. repeat split. Qed.

(** ** Requests *)
Section Request.
  Context (reg : registry) (name2cp : str -> option N) (mk_temp : str -> res unit).
  Definition um {A} (u p : M A) : Prop := forall w, u w = p w \/ fst (u w) = Err UnicodeDecodeError.
  Lemma um_refl {A} (m : M A) : um m m. Proof. intros w. now left. Qed.
  Lemma um_bind {A B} (u p : M A) (f g : A -> M B) : um u p -> (forall a, um (f a) (g a)) -> um (mbind u f) (mbind p g).
  Proof.
    intros H1 H2 w. unfold mbind. destruct (H1 w) as [->|E].
    - destruct (p w) as [[a|e] w1]; [apply H2|now left].
    - destruct (u w) as [r w1]. cbn in E. subst r. now right.
  Qed.
  Lemma um_upload : um (u_file_upload reg name2cp mk_temp) (parse_file_upload reg name2cp mk_temp).
  Proof.
    unfold u_file_upload, parse_file_upload. apply um_bind; [apply um_refl|]. intros r. apply um_bind; [apply um_refl|]. intros st.
    destruct (r_meta r) as [m|]; [|apply um_refl]. destruct (m_headers m) as [h|]; [|apply um_refl].
    apply um_bind; [apply um_refl|]. intros bl. apply um_bind; [|intros pf; apply um_refl]. intros [st1 r1]. unfold mstream. cbn [snd fst].
    match goal with |- context [u_parse ?a ?b ?c ?d ?e ?f ?g ?h ?i ?j ?k ?l ?m] => destruct (up_parse g a b c d e f h i j k l m) as [->|[_ E]]; [now left|];
      destruct (u_parse a b c d e f g h i j k l m) as [x s1] end. cbn in E. subst x. now right.
  Qed.
  Lemma um_post : um (u_post reg name2cp mk_temp) (parse_post reg name2cp mk_temp).
  Proof.
    unfold u_post, parse_post. apply um_bind; [apply um_refl|]. intros r. destruct (a_ctype (r_attrs r)) as [c|]; [|apply um_refl].
    destruct (match c with Some c => seqb c CT_MULTI | None => false end); [|apply um_refl]. intros w.
    destruct (um_upload w) as [->|E]; [now left|]. destruct (u_file_upload reg name2cp mk_temp w) as [x w1]. cbn in E. subst x. now right.
  Qed.
  Lemma um_request : um (u_request reg name2cp mk_temp) (parse reg name2cp mk_temp).
  Proof.
    unfold u_request, parse. apply um_bind; [apply um_refl|]. intros _. unfold u_request_body, parse_request_body.
    apply um_bind; [apply um_refl|]. intros r. destruct (r_bp r); [apply um_refl|]. apply um_bind; [apply um_refl|]. intros st.
    apply um_bind; [apply um_refl|]. intros _. destruct (negb (r_hp r)); [apply um_refl|]. apply um_bind; [apply um_refl|]. intros [|x d]; [apply um_refl|].
    apply um_bind; [apply um_refl|]. intros _. apply um_bind; [apply um_post|]. intros pf. apply um_refl.
  Qed.
End Request.
(** what the other theorems say of parse() holds for requests with any boundary, unless UnicodeDecodeError comes out *)
Theorem C135_requests :
  forall reg name2cp mk_temp w,
    u_request reg name2cp mk_temp w = parse reg name2cp mk_temp w \/ fst (u_request reg name2cp mk_temp w) = Err UnicodeDecodeError.
Proof. intros reg name2cp mk_temp w. apply um_request. Qed.
Print Assumptions C135_requests.
(** in particular the exceptions of C133 are those of all requests *)
Theorem C135_exceptions :
  forall reg name2cp mk_temp st s r e, request_init reg st s = Ok r -> size_ok (s_hdr st) -> size_ok (s_dmem st) ->
    src_error s = None -> (forall x, exists y, mk_temp x = Ok y) ->
    fst (u_request reg name2cp mk_temp (st, r)) = Err e ->
    (exists why, e = InvalidHttpRequest why) \/
    In e [NoHostFoundException; RequestDataTooBig; TooManyFieldsSent; MultiPartParserError;
          UnicodeDecodeError; UnicodeEncodeError; LookupError; ValueError; TypeError; AttributeError; OverflowError] \/
    e = OutOfFuel /\ exists t, occurs t (src_bytes s) /\ b64_part reg name2cp t.
Proof.
  intros reg name2cp mk_temp st s r e Hi Hh Hd Hs Hmk HP. destruct (C135_requests reg name2cp mk_temp (st, r)) as [E|E].
  - rewrite E in HP. exact (C133_multipart reg name2cp mk_temp st s r e Hi Hh Hd Hs Hmk HP).
  - rewrite E in HP. injection HP as <-. right. left. cbn. tauto.
Qed.
Print Assumptions C135_exceptions.
