(** * C140: parsing a parsed request again *)
From Verif Require Import Py Spec HeadSpec PyFacts PyDict StreamModel StreamSpec StreamFacts StreamCalm CodecModel PercentModel
  QueryModel HeadModel HeadFacts HeaderModel UploadModel MultipartModel RequestModel RequestSpec HeaderRun BodyRun ParseRun
  RequestRel PropsRequest PropsPart PropsBody PropsEnd.

Local Arguments querydict : simpl never.

(** a stream that said it was at its end says so again, and does not move *)
Lemma loop_end : forall f s s1, ls_read_loop it_next f 1 [] s = (Ok [], s1) -> ls_left s1 = [] /\ ls_prod s1 = Some [].
Proof.
  induction f as [|f IH]; intros s s1; cbn [ls_read_loop]; [easy|]. change (Z.eqb 1 0) with false. change (Z.ltb 1 0) with false. cbn match.
  unfold ls_next. destruct (ls_left s) as [|c l] eqn:EL.
  - destruct (ls_prod s) as [p|]; [|easy]. destruct p as [|[d|e] p]; cbn [it_next]; [now intros [= <-]| |easy].
    change (Z.to_nat 1) with 1%nat. destruct d as [|c d].
    + cbn [firstn skipn ls_unget app]. change (1 - zlen [])%Z with 1%Z. apply IH.
    + cbn [firstn skipn]. destruct (ls_unget d _) as [[u|e] s2]; [|easy]. change (1 - zlen [c])%Z with 0%Z. cbn [app]. destruct f; [easy|]. cbn [ls_read_loop]. easy.
  - change (Z.to_nat 1) with 1%nat. cbn [firstn skipn]. destruct (ls_unget l _) as [[u|e] s2]; [|easy]. change (1 - zlen [c])%Z with 0%Z. cbn [app].
    destruct f; [easy|]. cbn [ls_read_loop]. easy.
Qed.
Lemma peek_end s s1 : l0_read (Some 1%Z) s = (Ok [], s1) -> l0_read (Some 1%Z) s1 = (Ok [], s1).
Proof.
  unfold l0_read, ls_read. intros H. apply loop_end in H as [H1 H2]. destruct s1 as [p l q h m]. cbn in H1, H2. subst. reflexivity.
Qed.

Section Twice.
  Context (reg : registry) (n2 : str -> option N) (mk : str -> res unit).
  Notation parse_request_body := (parse_request_body reg n2 mk).
  Lemma finish_flags w w' : ParseRun.finish reg n2 mk w = (Ok tt, w') -> r_bp (snd w') = true.
  Proof.
    unfold ParseRun.finish. unfold mbind at 1. destruct (parse_post reg n2 mk w) as [[pf|e] w1]; [|easy].
    unfold mbind at 1. destruct (body reg w1) as [[b|e] w2]; [|easy].
    unfold mbind, msett, mlift. destruct (decode_text _ _ _); [|easy]. unfold mupd. now intros [= <-].
  Qed.
  Lemma body_twice w w' : r_hp (snd w) = true -> parse_request_body w = (Ok tt, w') ->
    r_hp (snd w') = true /\ parse_request_body w' = (Ok tt, w').
  Proof.
    destruct w as [st r]. cbn [snd]. intros H2 HP. destruct (r_bp r) eqn:H1.
    { rewrite parse_body_done in HP by exact H1. injection HP as <-. split; [exact H2|now apply parse_body_done]. }
    rewrite parse_body_eq in HP by assumption. destruct (l0_read (Some 1%Z) (r_stream r)) as [[[|c d]|e] s1] eqn:ER; [| |easy].
    - destruct (querydict reg (Some (s_query st)) None false) as [q|e] eqn:Q; [|easy]. injection HP as <-. split; [exact H2|].
      rewrite parse_body_eq by assumption. change (r_stream (set_hasfiles true (set_stream s1 (at_body st r)))) with s1.
      rewrite (peek_end _ _ ER), Q. destruct r. reflexivity.
    - destruct (ls_unget (c :: d) s1) as [[u|e] s2]; [|easy]. pose proof (finish_flags _ _ HP) as HB.
      pose proof (still_finish reg n2 mk (st, set_stream s2 (at_body st r)) H2) as HS. rewrite HP in HS. destruct HS as (_ & HS & _).
      split; [exact HS|]. destruct w' as [st' r']. now apply parse_body_done.
  Qed.
End Twice.

(** the calls that parse *)
Inductive parsing := PAll | PHeader | PBody.
Definition call (reg : registry) (n2 : str -> option N) (mk : str -> res unit) (c : parsing) : M unit :=
  match c with PAll => parse reg n2 mk | PHeader => parse_request_header reg | PBody => parse_request_body reg n2 mk end.
Fixpoint calls (reg : registry) (n2 : str -> option N) (mk : str -> res unit) (cs : list parsing) : M unit :=
  match cs with [] => mret tt | c :: r => let! _ := call reg n2 mk c in calls reg n2 mk r end.

(** ** C140.  Once [parse] has succeeded, [parse], [parse_request_header] and [parse_request_body] succeed whenever they are called,
    in any order and number, and change nothing at all: no attribute, no flag, not the position of the stream. *)
Theorem C140_parsing_is_final :
  forall reg n2 mk w w', parse reg n2 mk w = (Ok tt, w') -> forall cs, calls reg n2 mk cs w' = (Ok tt, w').
Proof.
  intros reg n2 mk w w' H. unfold parse, mbind in H. destruct (parse_request_header reg w) as [[[]|e] w1] eqn:EH; [|easy].
  assert (Hh : r_hp (snd w1) = true).
  { destruct (r_hp (snd w)) eqn:E.
    - destruct w as [st r]. rewrite header_done in EH by exact E. now injection EH as <-.
    - pose proof (C18_success_is_final _ _ _ EH) as E2. destruct w1 as [st r]. destruct (r_hp r) eqn:E3; [exact E3|].
      exfalso. rewrite header_eq in E2 by exact E3. destruct (frame (s_hdr st) (r_stream r)) as [[x b] s1] eqn:EF. cbn zeta in E2.
      destruct x as [h|e]; [|discriminate]. apply frame_ok_flag in EF. subst b.
      destruct (parse_request_headers h) as [[line hs]|e]; [|discriminate].
      destruct (parse_request_line line) as [l|e]; [|discriminate].
      destruct (populate_hp reg l hs st (set_flags true (r_bp r) (set_stream s1 r))) as [Hp _]. rewrite E2 in Hp. cbn in Hp. congruence. }
  destruct (body_twice reg n2 mk w1 w' Hh H) as [H1 H2].
  assert (H3 : parse_request_header reg w' = (Ok tt, w')) by (destruct w' as [st r]; now apply header_done).
  induction cs as [|c cs IH]; [reflexivity|]. cbn [calls]. unfold mbind.
  assert (E : call reg n2 mk c w' = (Ok tt, w')) by (destruct c; cbn [call]; [unfold parse, mbind; rewrite H3|..]; assumption).
  rewrite E. exact IH.
Qed.
Print Assumptions C140_parsing_is_final.

Example C140_case :
  let form := req [!"POST /p HTTP/1.1"; !"Host: b"; !"Content-Type: application/x-www-form-urlencoded"] !"a=1&b=2" in
  let empty := req [!"GET /p HTTP/1.1"; !"Host: b"] [] in
  fst (run (parse ex_reg no_cp ok_temp) ex_set form) = Ok tt /\ fst (run (parse ex_reg no_cp ok_temp) ex_set empty) = Ok tt /\
  r_bp (snd (snd (run (parse ex_reg no_cp ok_temp) ex_set form))) = true /\ r_bp (snd (snd (run (parse ex_reg no_cp ok_temp) ex_set empty))) = false.
Proof. vm_compute. repeat split. Qed.
