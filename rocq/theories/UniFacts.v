(** * The parser with a unicode boundary: the same results, or UnicodeDecodeError; and what a success says about the input *)
From Verif Require Import Py PyFacts PyDict StreamModel CodecModel QueryModel Base64Model HeaderModel
  BoundaryModel UploadModel MultipartModel UniModel.

Ltac csplit t := let E := fresh "E" in destruct t as [[?|?] ?] eqn:E.

(** ** Simulation *)
Section Sim.
  Context (uni : bool).
  (** the same, or the exception of the implicit decoding *)
  Definition up {A S} (u p : res A * S) : Prop := u = p \/ (uni = true /\ fst u = Err UnicodeDecodeError).
  Definition upn {S} (u p : nxt * S) : Prop := u = p \/ (uni = true /\ fst u = Raise UnicodeDecodeError).
  Lemma up_refl {A S} (u : res A * S) : up u u. Proof. now left. Qed.

  Section Streams.
    Context {P : Type} (pu pp : P -> nxt * P) (HP : forall b, upn (pu b) (pp b)).
    Lemma up_ls_next s : upn (ls_next pu s) (ls_next pp s).
    Proof.
      unfold ls_next. destruct (ls_left s); [|now left]. destruct (ls_prod s) as [p|]; [|now left].
      destruct (HP p) as [->|[U E]]; [now left|]. right. split; [exact U|]. destruct (pu p) as [r q]. cbn in E. now subst r.
    Qed.
    Lemma up_read_loop : forall fuel n out s, up (ls_read_loop pu fuel n out s) (ls_read_loop pp fuel n out s).
    Proof.
      induction fuel as [|f IH]; intros n out s; [now left|]. cbn [ls_read_loop].
      destruct (Z.eqb n 0); [now left|]. destruct (Z.ltb n 0); [now left|].
      destruct (up_ls_next s) as [->|[U E]].
      - destruct (ls_next pp s) as [[c| |e] s1]; try now left.
        destruct (ls_unget (skipn (Z.to_nat n) c) s1) as [[x|e] s2]; [apply IH|now left].
      - destruct (ls_next pu s) as [r s1]. cbn in E. subst r. now right.
    Qed.
    Lemma up_join : forall fuel out s, up (ls_join pu fuel out s) (ls_join pp fuel out s).
    Proof.
      induction fuel as [|f IH]; intros out s; [now left|]. cbn [ls_join]. destruct (up_ls_next s) as [->|[U E]].
      - destruct (ls_next pp s) as [[c| |e] s1]; try now left. apply IH.
      - destruct (ls_next pu s) as [r s1]. cbn in E. subst r. now right.
    Qed.
    Lemma up_read fuel size s : up (ls_read pu fuel size s) (ls_read pp fuel size s).
    Proof. unfold ls_read. destruct (match size with None => ls_remaining s | Some n => Some n end); [apply up_read_loop|apply up_join]. Qed.
  End Streams.

  Section Parser.
    Context {R : Type} (rd : nat -> R -> res str * R) (exh : R -> res unit * R).
    Context (reg : registry) (name2cp : str -> option N) (mk_temp : str -> res unit).
    Context (st : mset) (D : str) (fuel : nat).
    Notation pn1 := (ci_next rd).

    Lemma up_next (b : biter (chunkiter R)) : upn (u_next pn1 uni fuel b) (bi_next pn1 fuel b).
    Proof.
      unfold u_next, bi_next. destruct (bi_done b); [now left|].
      destruct (bi_collect pn1 fuel _ 0 [] (bi_stream b)) as [[[chunks ended]|e] s1]; [|now left].
      destruct chunks as [|c cs]; [now left|]. destruct uni eqn:U; cbn [andb]; [|now left].
      destruct (ascii_only (concat (c :: cs))); cbn [negb]; [now left|]. right. now split.
    Qed.
    Lemma up_pbs s : up (u_parse_boundary_stream rd reg uni fuel s) (parse_boundary_stream rd reg fuel s).
    Proof.
      unfold u_parse_boundary_stream, parse_boundary_stream.
      destruct (up_read _ _ up_next fuel (Some MAX_PART_HEADER) s) as [->|[U E]]; [now left|].
      destruct (ls_read (u_next pn1 uni fuel) fuel _ s) as [r s1]. cbn in E. subst r. now right.
    Qed.
    Lemma up_field name tenc m p s : up (u_read_field rd reg st uni fuel name tenc m p s) (read_field rd reg st fuel name tenc m p s).
    Proof.
      unfold u_read_field, read_field. cbv zeta. destruct (match ms_dnum st with Some n => _ | None => _ end); [now left|].
      destruct (up_read _ _ up_next fuel (option_map (fun n => (n - p_bytes p)%Z) (ms_dmem st)) s) as [->|[U E]]; [now left|].
      destruct (ls_read (u_next pn1 uni fuel) fuel _ s) as [r s1]. cbn in E. subst r. now right.
    Qed.
    Lemma up_fill : forall n acc s, up (u_b64_fill rd uni fuel n acc s) (b64_fill rd fuel n acc s).
    Proof.
      induction n as [|n IH]; intros acc s; [now left|]. cbn [u_b64_fill b64_fill]. cbv zeta.
      destruct (Nat.eqb (Nat.modulo (length acc) 4) 0); [now left|].
      destruct (up_read _ _ up_next fuel (Some (Z.of_nat (4 - Nat.modulo (length acc) 4))) s) as [->|[U E]].
      - destruct (ls_read (bi_next pn1 fuel) fuel _ s) as [[over|e] s1]; [apply IH|now left].
      - destruct (ls_read (u_next pn1 uni fuel) fuel _ s) as [r s1]. cbn in E. subst r. now right.
    Qed.
    Lemma up_file_loop b64 : forall n hs cs s, up (u_file_loop rd mk_temp st uni fuel n b64 hs cs s) (file_loop rd mk_temp st fuel n b64 hs cs s).
    Proof.
      induction n as [|n IH]; intros hs cs s; [now left|]. cbn [u_file_loop file_loop].
      destruct (up_ls_next _ _ up_next s) as [->|[U E]].
      2:{ destruct (ls_next (u_next pn1 uni fuel) s) as [r s1]. cbn in E. subst r. now right. }
      destruct (ls_next (bi_next pn1 fuel) s) as [[c| |e] s1]; try now left. destruct b64.
      - destruct (up_fill fuel (remove_ws c) s1) as [->|[U E]].
        2:{ destruct (u_b64_fill rd uni fuel fuel (remove_ws c) s1) as [r s2]. cbn in E. subst r. now right. }
        destruct (b64_fill rd fuel fuel (remove_ws c) s1) as [[g|e] s2]; [|now left].
        destruct (b64decode g) as [d|e]; [|now left]. destruct (feed mk_temp (ms_fmem st) d hs cs) as [[hs1 cs1]|e]; [apply IH|now left].
      - destruct (feed mk_temp (ms_fmem st) c hs cs) as [[hs1 cs1]|e]; [apply IH|now left].
    Qed.
    Lemma up_file name tenc disp m p s :
      up (u_read_file rd name2cp mk_temp st uni fuel name tenc disp m p s) (read_file rd name2cp mk_temp st fuel name tenc disp m p s).
    Proof.
      unfold u_read_file, read_file. destruct (match dget !"filename" disp with Some f => _ | None => _ end) as [[|c f]|e]; try now left.
      destruct (match dget !"content-type" m with Some v => v | None => _ end) as [ct extra].
      destruct (new_files mk_temp _ (p_hs p)) as [hs|e]; [|now left].
      destruct (up_file_loop (match tenc with Some t => seqb t !"base64" | None => false end) fuel hs (map (fun _ => 0) hs) s) as [->|[U E]]; [now left|].
      destruct (u_file_loop rd mk_temp st uni fuel fuel _ hs _ s) as [r s1]. cbn in E. subst r. now right.
    Qed.
    Lemma up_part ty m p s : up (u_one_part rd reg name2cp mk_temp st uni fuel ty m p s) (one_part rd reg name2cp mk_temp st fuel ty m p s).
    Proof.
      unfold u_one_part, one_part. destruct (dget CDISP m) as [[v disp]|]; [|now left]. destruct (dget !"name" disp) as [raw|]; [|now left].
      cbv zeta. destruct (to_native (pstrip raw)) as [name|e]; [|now left]. destruct ty; [now left|apply up_file|apply up_field].
    Qed.
    Lemma up_parts : forall n p s, up (u_parts_loop rd reg name2cp mk_temp st uni D fuel n p s) (parts_loop rd reg name2cp mk_temp st D fuel n p s).
    Proof.
      induction n as [|n IH]; intros p s; [now left|]. cbn [u_parts_loop parts_loop].
      destruct (bi_init pn1 fuel s D) as [[b|e] s1]; [|now left].
      destruct (up_pbs (ls_init b None)) as [->|[U E]].
      2:{ destruct (u_parse_boundary_stream rd reg uni fuel (ls_init b None)) as [r s2]. cbn in E. subst r. now right. }
      destruct (parse_boundary_stream rd reg fuel (ls_init b None)) as [[[ty m]|e] s2]; [|now left].
      destruct (finish_file p) as [p1|e]; [|now left]. destruct (up_part ty m p1 s2) as [->|[U E]].
      2:{ destruct (u_one_part rd reg name2cp mk_temp st uni fuel ty m p1 s2) as [r s3]. cbn in E. subst r. now right. }
      destruct (one_part rd reg name2cp mk_temp st fuel ty m p1 s2) as [[p2|e] s3]; [apply IH|now left].
    Qed.
    Theorem up_parse csize len hs r :
      up (u_parse rd exh reg name2cp mk_temp st uni D fuel csize len hs r) (mp_parse rd exh reg name2cp mk_temp st D fuel csize len hs r).
    Proof.
      unfold u_parse, mp_parse. destruct (querydict reg (Some (ms_query st)) None true); [|now left]. destruct (Z.eqb len 0); [now left|]. cbv zeta.
      match goal with |- up (match u_parts_loop _ _ _ _ _ _ _ _ _ ?p ?s with _ => _ end) _ => destruct (up_parts fuel p s) as [->|[U E]]; [now left|];
        destruct (u_parts_loop rd reg name2cp mk_temp st uni D fuel fuel p s) as [x s1] end.
      cbn in E. subst x. now right.
    Qed.
  End Parser.
End Sim.

(** ** What a success says: everything was ASCII *)
Section Ascii.
  Context {R : Type} (rd : nat -> R -> res str * R) (exh : R -> res unit * R) (AR : R -> Prop) (csize : nat).
  (** [AR r]: what [r] still delivers is ASCII *)
  Context (HRead : forall r d r1, rd csize r = (Ok d, r1) -> ascii_only d = true -> AR r1 -> AR r).
  Context (HEnd : forall r d r1, rd csize r = (Ok d, r1) -> d = [] -> AR r1).
  Context (HExh : forall r r1, rd csize r = (Err InputStreamExhausted, r1) -> AR r).
  Context (reg : registry) (name2cp : str -> option N) (mk_temp : str -> res unit).
  Context (st : mset) (D : str) (fuel : nat).
  Notation pn1 := (ci_next rd).
  Notation pn2 := (u_next pn1 true fuel).
  Notation L1 := (lstream (chunkiter R)).
  Notation L2 := (lstream (biter (chunkiter R))).

  Definition ok1 (s : L1) : Prop := exists c, ls_prod s = Some c /\ ci_size c = csize.
  Definition asc (s : L1) : Prop := ascii_only (ls_left s) = true /\ forall c, ls_prod s = Some c -> AR (ci_flo c).
  Lemma ascii_app a b : ascii_only (a ++ b) = ascii_only a && ascii_only b.
  Proof. apply forallb_app. Qed.

  (** one step of the outer stream *)
  Lemma asc_next s : ok1 s -> match ls_next pn1 s with
    | (Chunk c, s1) => ok1 s1 /\ (ascii_only c = true -> asc s1 -> asc s)
    | (Stop, s1) => ok1 s1 /\ asc s
    | (Raise _, s1) => True
    end.
  Proof.
    intros (c & E & Hc). unfold ls_next. rewrite E. destruct (ls_left s) as [|x l] eqn:El.
    - assert (HB : AR (ci_flo c) -> asc s) by (intros HA; split; [now rewrite El|rewrite E; now intros c0 [= <-]]).
      unfold ci_next. rewrite Hc. destruct (rd csize (ci_flo c)) as [[d|e] r1] eqn:Er.
      + destruct d as [|y d].
        * split; [exists (mkCI r1 csize); now split|]. apply HB. eapply HRead; [exact Er|reflexivity|]. eapply HEnd; [exact Er|reflexivity].
        * split; [exists (mkCI r1 csize); now split|]. intros Hd [_ H2]. apply HB. eapply HRead; [exact Er|exact Hd|]. now apply (H2 (mkCI r1 csize)).
      + destruct e; try exact I. split; [exists (mkCI r1 csize); now split|]. apply HB. exact (HExh _ _ Er).
    - split; [exists c; now split|]. intros Hx [_ H2]. split; [now rewrite El|]. intros c0 E0. apply H2. cbn. congruence.
  Qed.
  Lemma asc_unget b s s1 : ok1 s -> ls_unget b s = (Ok tt, s1) -> ok1 s1 /\ (asc s1 -> ascii_only b = true /\ asc s) /\ ls_left s1 = b ++ ls_left s.
  Proof.
    intros (c & E & Hc) H. unfold ls_unget in H. destruct b as [|x b]; [injection H as <-; split; [now exists c|now split]|].
    destruct (Nat.ltb 40 _) in H; [discriminate H|]. injection H as <-. split; [exists c; now split|]. split; [|reflexivity].
    intros [H1 H2]. change (ascii_only ((x :: b) ++ ls_left s) = true) in H1. rewrite ascii_app in H1. apply andb_prop in H1. split; [now apply H1|]. split; [now apply H1|exact H2].
  Qed.
  Lemma asc_collect rb : forall n read acc s chunks ended s1, ok1 s -> bi_collect pn1 n rb read acc s = (Ok (chunks, ended), s1) ->
    ok1 s1 /\ (ascii_only (concat chunks) = true -> asc s1 -> asc s) /\ exists l, chunks = acc ++ l.
  Proof.
    induction n as [|n IH]; intros read acc s chunks ended s1 Hs H; cbn [bi_collect] in H; [discriminate H|].
    pose proof (asc_next s Hs) as HN. destruct (ls_next pn1 s) as [[c| |e] s2]; [| |discriminate H].
    - destruct HN as (H1 & H2).
      assert (Hfin : (acc ++ [c], false) = (chunks, ended) -> s2 = s1 ->
        ok1 s1 /\ (ascii_only (concat chunks) = true -> asc s1 -> asc s) /\ exists l, chunks = acc ++ l).
      { intros [= <- _] <-. split; [exact H1|]. split; [|now exists [c]]. intros Ha Hb. apply H2; [|exact Hb].
        rewrite concat_app, ascii_app in Ha. apply andb_prop in Ha. destruct Ha as [_ Ha]. cbn [concat] in Ha. now rewrite app_nil_r in Ha. }
      cbv zeta in H. destruct (Nat.ltb rb (read + length c)).
      + injection H as H4 H5 H6. apply Hfin; [now rewrite H4, H5|exact H6].
      + destruct c as [|x c]; [injection H as H4 H5 H6; apply Hfin; [now rewrite H4, H5|exact H6]|].
        destruct (IH _ _ _ _ _ _ H1 H) as (A & B & l & ->). split; [exact A|]. split; [|exists ((x :: c) :: l); now rewrite <- app_assoc].
        intros Ha Hb. apply H2; [|now apply B]. rewrite !concat_app, !ascii_app in Ha. apply andb_prop in Ha. destruct Ha as [Ha _].
        apply andb_prop in Ha. destruct Ha as [_ Ha]. cbn [concat] in Ha. now rewrite app_nil_r in Ha.
    - injection H as <- <- <-. destruct HN as (H1 & H2). split; [exact H1|]. split; [now intros _ _|exists []; now rewrite app_nil_r].
  Qed.
  Definition okb (b : biter (chunkiter R)) : Prop := ok1 (bi_stream b).
  Definition ab (b : biter (chunkiter R)) : Prop := asc (bi_stream b).
  (** nothing but ASCII is passed over *)
  Lemma asc_bnext b : okb b -> match pn2 b with (Raise _, _) => True | (_, b1) => okb b1 /\ (ab b1 -> ab b) end.
  Proof.
    intros Hb. unfold u_next. destruct (bi_done b); [now split|].
    destruct (bi_collect pn1 fuel _ 0 [] (bi_stream b)) as [[[chunks ended]|e] s1] eqn:EC; [|exact I].
    destruct (asc_collect _ _ _ _ _ _ _ _ Hb EC) as (A & B & _). destruct chunks as [|c cs]; [split; [exact A|exact (B eq_refl)]|].
    cbv zeta. cbn [andb]. destruct (ascii_only (concat (c :: cs))) eqn:EA; cbn [negb]; [|exact I]. specialize (B eq_refl).
    destruct (find_boundary (bi_boundary b) (concat (c :: cs))) as [[e next]|].
    - destruct (ls_unget (skipn next (concat (c :: cs))) s1) as [[[]|x] s2] eqn:EU; [|exact I].
      destruct (asc_unget _ _ _ A EU) as (U1 & U2 & _). split; [exact U1|]. intros H. apply B. now apply U2.
    - destruct (upto_neg (rollback (bi_boundary b)) (concat (c :: cs))) as [|y l]; [now split|].
      destruct (ls_unget (from_neg (rollback (bi_boundary b)) (concat (c :: cs))) s1) as [[[]|x] s2] eqn:EU; [|exact I].
      destruct (asc_unget _ _ _ A EU) as (U1 & U2 & _). split; [exact U1|]. intros H. apply B. now apply U2.
  Qed.

  (** the streams of the parts *)
  Definition good (s : L2) : Prop := exists b, ls_prod s = Some b /\ okb b.
  Definition a2 (s : L2) : Prop := forall b, ls_prod s = Some b -> ab b.
  Definition goes (s s1 : L2) : Prop := good s1 /\ (a2 s1 -> a2 s).
  Lemma goes_trans s s1 s2 : goes s s1 -> goes s1 s2 -> goes s s2.
  Proof. intros [_ H1] [G2 H2]. split; [exact G2|]. intros H. now apply H1, H2. Qed.
  Lemma goes_refl s : good s -> goes s s. Proof. intros G. now split. Qed.
  Lemma goes_unget b s u s1 : good s -> ls_unget b s = (Ok u, s1) -> goes s s1.
  Proof.
    intros (p & E & Hp) H. assert (Hq : ls_prod s1 = ls_prod s).
    { unfold ls_unget in H. destruct b; [now injection H as _ <-|]. destruct (Nat.ltb 40 _) in H; [discriminate H|]. now injection H as _ <-. }
    split; [exists p; now rewrite Hq|]. unfold a2. now rewrite Hq.
  Qed.
  Lemma goes_next s : good s -> match ls_next pn2 s with (Raise _, _) => True | (_, s1) => goes s s1 end.
  Proof.
    intros (p & E & Hp). unfold ls_next. rewrite E. destruct (ls_left s) as [|x l].
    - pose proof (asc_bnext p Hp) as H. destruct (pn2 p) as [[c| |e] p1]; [| |exact I].
      + destruct H as [H1 H2]. split; [exists p1; now split|]. intros Ha b Eb. rewrite E in Eb. injection Eb as <-. apply H2. now apply Ha.
      + destruct H as [H1 H2]. split; [exists p1; now split|]. intros Ha b Eb. rewrite E in Eb. injection Eb as <-. apply H2. now apply Ha.
    - split; [exists p; now split|]. intros Ha b Eb. apply Ha. cbn. congruence.
  Qed.
  Lemma goes_read_loop : forall n k out s d s1, good s -> ls_read_loop pn2 n k out s = (Ok d, s1) -> goes s s1.
  Proof.
    induction n as [|n IH]; intros k out s d s1 G H; cbn [ls_read_loop] in H; [discriminate H|].
    destruct (Z.eqb k 0); [injection H as _ <-; now apply goes_refl|]. destruct (Z.ltb k 0); [discriminate H|].
    pose proof (goes_next s G) as HN. destruct (ls_next pn2 s) as [[c| |e] s2]; [| |discriminate H].
    - destruct (ls_unget (skipn (Z.to_nat k) c) s2) as [[u|e] s3] eqn:EU; [|discriminate H].
      pose proof (goes_unget _ _ _ _ (proj1 HN) EU) as HU. pose proof (IH _ _ _ _ _ (proj1 HU) H) as HI.
      exact (goes_trans _ _ _ HN (goes_trans _ _ _ HU HI)).
    - now injection H as _ <-.
  Qed.
  Lemma goes_join : forall n out s d s1, good s -> ls_join pn2 n out s = (Ok d, s1) -> goes s s1.
  Proof.
    induction n as [|n IH]; intros out s d s1 G H; cbn [ls_join] in H; [discriminate H|].
    pose proof (goes_next s G) as HN. destruct (ls_next pn2 s) as [[c| |e] s2]; [| |discriminate H].
    - exact (goes_trans _ _ _ HN (IH _ _ _ _ (proj1 HN) H)).
    - now injection H as _ <-.
  Qed.
  Lemma goes_read n size s d s1 : good s -> ls_read pn2 n size s = (Ok d, s1) -> goes s s1.
  Proof. intros G. unfold ls_read. destruct (match size with None => ls_remaining s | Some k => Some k end); [now apply goes_read_loop|now apply goes_join]. Qed.
  Lemma goes_pbs s t s1 : good s -> u_parse_boundary_stream rd reg true fuel s = (Ok t, s1) -> goes s s1.
  Proof.
    intros G H. unfold u_parse_boundary_stream in H. destruct (ls_read pn2 fuel (Some MAX_PART_HEADER) s) as [[c|e] s2] eqn:ER; [|discriminate H].
    pose proof (goes_read _ _ _ _ _ G ER) as H2. apply (goes_trans _ _ _ H2). destruct (find crlfcrlf c) as [i|].
    - destruct (ls_unget (skipn (i + 4) c) s2) as [[u|e] s3] eqn:EU; [|discriminate H].
      pose proof (goes_unget _ _ _ _ (proj1 H2) EU) as H3. apply (goes_trans _ _ _ H3).
      destruct (header_meta reg _ RAW []) as [[[] m]|e]; [| | |discriminate H].
      + destruct (ls_unget c s3) as [[u2|e] s4] eqn:EU2; [|discriminate H]. injection H as _ <-. exact (goes_unget _ _ _ _ (proj1 H3) EU2).
      + injection H as _ <-. now apply goes_refl, H3.
      + injection H as _ <-. now apply goes_refl, H3.
    - destruct (ls_unget c s2) as [[u|e] s3] eqn:EU; [|discriminate H]. injection H as _ <-. exact (goes_unget _ _ _ _ (proj1 H2) EU).
  Qed.
  Lemma goes_field name tenc m p s q s1 : good s -> u_read_field rd reg st true fuel name tenc m p s = (Ok q, s1) -> goes s s1.
  Proof.
    intros G H. unfold u_read_field in H. cbv zeta in H. destruct (match ms_dnum st with Some n => _ | None => _ end) in H; [discriminate H|].
    destruct (ls_read pn2 fuel _ s) as [[c|e] s2] eqn:ER; [|discriminate H]. pose proof (goes_read _ _ _ _ _ G ER) as H2.
    destruct (match tenc with Some t => _ | None => _ end) as [d|e] in H; [|discriminate H].
    destruct (match ms_dmem st with Some n => _ | None => _ end) in H; [discriminate H|].
    destruct (match dget !"content-type" m with Some v => v | None => _ end) as [ct extra] in H.
    destruct (post_append reg _ name _ (p_post p)) in H; [|discriminate H]. now injection H as _ <-.
  Qed.
  Lemma goes_fill : forall n acc s d s1, good s -> u_b64_fill rd true fuel n acc s = (Ok d, s1) -> goes s s1.
  Proof.
    induction n as [|n IH]; intros acc s d s1 G H; cbn [u_b64_fill] in H; [discriminate H|]. cbv zeta in H.
    destruct (Nat.eqb _ 0) in H; [injection H as _ <-; now apply goes_refl|].
    destruct (ls_read pn2 fuel _ s) as [[c|e] s2] eqn:ER; [|discriminate H]. pose proof (goes_read _ _ _ _ _ G ER) as H2.
    exact (goes_trans _ _ _ H2 (IH _ _ _ _ (proj1 H2) H)).
  Qed.
  Lemma goes_file_loop b64 : forall n hs cs s x s1, good s -> u_file_loop rd mk_temp st true fuel n b64 hs cs s = (Ok x, s1) -> goes s s1.
  Proof.
    induction n as [|n IH]; intros hs cs s x s1 G H; cbn [u_file_loop] in H; [discriminate H|].
    pose proof (goes_next s G) as HN. destruct (ls_next pn2 s) as [[c| |e] s2]; [| |discriminate H]; [|now injection H as _ <-].
    apply (goes_trans _ _ _ HN). destruct b64.
    - destruct (u_b64_fill rd true fuel fuel (remove_ws c) s2) as [[g|e] s3] eqn:EF; [|discriminate H].
      pose proof (goes_fill _ _ _ _ _ (proj1 HN) EF) as H3. apply (goes_trans _ _ _ H3).
      destruct (b64decode g) as [d|e]; [|discriminate H]. destruct (feed mk_temp (ms_fmem st) d hs cs) as [[hs1 cs1]|e]; [|discriminate H].
      exact (IH _ _ _ _ _ (proj1 H3) H).
    - destruct (feed mk_temp (ms_fmem st) c hs cs) as [[hs1 cs1]|e]; [|discriminate H]. exact (IH _ _ _ _ _ (proj1 HN) H).
  Qed.
  Lemma goes_file name tenc disp m p s q s1 : good s -> u_read_file rd name2cp mk_temp st true fuel name tenc disp m p s = (Ok q, s1) -> goes s s1.
  Proof.
    intros G H. unfold u_read_file in H. destruct (match dget !"filename" disp with Some f => _ | None => _ end) as [[|c f]|e] in H; [injection H as _ <-; now apply goes_refl| |discriminate H].
    destruct (match dget !"content-type" m with Some v => v | None => _ end) as [ct extra] in H. cbv zeta in H.
    destruct (new_files mk_temp _ (p_hs p)) as [hs|e] in H; [|discriminate H].
    destruct (u_file_loop rd mk_temp st true fuel fuel _ hs _ s) as [[[hs1 cs1]|e] s2] eqn:EF in H; [|discriminate H].
    injection H as _ <-. exact (goes_file_loop _ _ _ _ _ _ _ G EF).
  Qed.
  Lemma goes_part ty m p s q s1 : good s -> u_one_part rd reg name2cp mk_temp st true fuel ty m p s = (Ok q, s1) -> goes s s1.
  Proof.
    intros G H. unfold u_one_part in H. destruct (dget CDISP m) as [[v disp]|]; [|injection H as _ <-; now apply goes_refl].
    destruct (dget !"name" disp) as [raw|]; [|injection H as _ <-; now apply goes_refl].
    cbv zeta in H. destruct (to_native (pstrip raw)) as [name|e]; [|discriminate H].
    destruct ty; [injection H as _ <-; now apply goes_refl|exact (goes_file _ _ _ _ _ _ _ _ G H)|exact (goes_field _ _ _ _ _ _ _ G H)].
  Qed.

  (** reading one byte of the outer stream and putting it back *)
  Lemma asc_read1 : forall n s d s1, ok1 s -> ls_read_loop pn1 n 1 [] s = (Ok d, s1) ->
    ok1 s1 /\ ((d = [] /\ asc s) \/ exists x, d = [x] /\ (asc s1 -> ascii_only [x] = true -> asc s)).
  Proof.
    induction n as [|n IH]; intros s d s1 Hs H; cbn [ls_read_loop] in H; [discriminate H|].
    change (1 =? 0)%Z with false in H. change (1 <? 0)%Z with false in H. cbv iota in H. change (Z.to_nat 1) with 1 in H.
    pose proof (asc_next s Hs) as HN. destruct (ls_next pn1 s) as [[c| |e] s2]; [| |discriminate H].
    - destruct HN as (N1 & N2). destruct c as [|x c]; cbn [skipn firstn] in H.
      + cbn in H. destruct (IH _ _ _ N1 H) as (A & B). split; [exact A|]. destruct B as [(B1 & B2)|(x & B1 & B2)].
        * left. split; [exact B1|]. now apply N2.
        * right. exists x. split; [exact B1|]. intros Ha Hx. apply N2; [reflexivity|]. now apply B2.
      + destruct (ls_unget c s2) as [[[]|e] s3] eqn:EU; [|discriminate H]. destruct (asc_unget _ _ _ N1 EU) as (U1 & U2 & _).
        destruct n as [|n]; [discriminate H|]. cbn in H. injection H as <- <-. split; [exact U1|]. right. exists x. split; [reflexivity|].
        intros Ha Hx. destruct (U2 Ha) as [V1 V2]. apply N2; [|exact V2]. change (x :: c) with ([x] ++ c). now rewrite ascii_app, Hx.
    - injection H as <- <-. destruct HN as (N1 & N2). split; [exact N1|]. left. exact (conj eq_refl N2).
  Qed.
  Lemma read1_exh : forall n s e s1, ok1 s -> ls_read_loop pn1 n 1 [] s = (Err e, s1) -> e <> InputStreamExhausted.
  Proof.
    induction n as [|n IH]; intros s e s1 Hs H; cbn [ls_read_loop] in H; [now injection H as <- _|].
    change (1 =? 0)%Z with false in H. change (1 <? 0)%Z with false in H. cbv iota in H. change (Z.to_nat 1) with 1 in H.
    pose proof (asc_next s Hs) as HN. destruct (ls_next pn1 s) as [[c| |x] s2] eqn:EN; [| discriminate H|].
    - destruct HN as (N1 & N2). destruct c as [|x c]; cbn [skipn firstn] in H; [exact (IH _ _ _ N1 H)|].
      destruct (ls_unget c s2) as [[[]|e1] s3] eqn:EU.
      + destruct n as [|n]; [now injection H as <- _|]. discriminate H.
      + injection H as <- <-. unfold ls_unget in EU. destruct c; [discriminate EU|]. destruct (Nat.ltb 40 _) in EU; [|discriminate EU]. now injection EU as <- _.
    - injection H as <- _. destruct Hs as (c & E & Hc). unfold ls_next in EN. rewrite E in EN. destruct (ls_left s); [|discriminate EN].
      unfold ci_next in EN. destruct (rd (ci_size c) (ci_flo c)) as [[[|? ?]|e1] r1]; try discriminate EN. destruct e1; try discriminate EN; now injection EN as <- _.
  Qed.
  Lemma asc_init s : ok1 s -> match bi_init pn1 fuel s D with
    | (Ok b, s1) => ok1 s1 /\ bi_stream b = s1 /\ (asc s1 -> asc s)
    | (Err InputStreamExhausted, s1) => asc s
    | _ => True end.
  Proof.
    intros Hs. unfold bi_init, ls_read. destruct (ls_read_loop pn1 fuel 1 [] s) as [[d|e] s1] eqn:ER.
    2:{ apply read1_exh in ER; [|exact Hs]. destruct e; try exact I. now elim ER. }
    destruct (asc_read1 _ _ _ _ Hs ER) as (A & [(-> & B)|(x & -> & B)]); [exact B|].
    destruct (ls_unget [x] s1) as [[[]|e] s2] eqn:EU.
    2:{ unfold ls_unget in EU. destruct (Nat.ltb 40 _) in EU; [|discriminate EU]. now injection EU as <- _. }
    destruct (asc_unget _ _ _ A EU) as (U1 & U2 & _). split; [exact U1|]. split; [reflexivity|]. intros Ha. destruct (U2 Ha) as [V1 V2]. now apply B.
  Qed.
  Lemma asc_parts : forall n p s q s1, ok1 s -> u_parts_loop rd reg name2cp mk_temp st true D fuel n p s = (Ok q, s1) -> asc s.
  Proof.
    induction n as [|n IH]; intros p s q s1 Hs H; cbn [u_parts_loop] in H; [discriminate H|].
    pose proof (asc_init s Hs) as HI. destruct (bi_init pn1 fuel s D) as [[b|e] s2]; [|destruct e; try discriminate H; exact HI].
    destruct HI as (I1 & I2 & I3). apply I3. assert (G : good (ls_init b None)).
    { exists b. split; [reflexivity|]. unfold okb. now rewrite I2. }
    destruct (u_parse_boundary_stream rd reg true fuel (ls_init b None)) as [[[ty m]|e] s3] eqn:EP; [|discriminate H].
    pose proof (goes_pbs _ _ _ G EP) as G1. destruct (finish_file p) as [p1|e]; [|discriminate H].
    destruct (u_one_part rd reg name2cp mk_temp st true fuel ty m p1 s3) as [[p2|e] s4] eqn:EO; [|discriminate H].
    pose proof (goes_trans _ _ _ G1 (goes_part _ _ _ _ _ _ (proj1 G1) EO)) as [(b1 & E1 & O1) G2].
    assert (Ho : outer_of s2 s4 = bi_stream b1) by (unfold outer_of; now rewrite E1). rewrite Ho in H.
    pose proof (IH _ _ _ _ O1 H) as HA. rewrite <- I2. apply (G2); [|reflexivity]. intros b2 E2. rewrite E1 in E2. injection E2 as <-. exact HA.
  Qed.
  Theorem asc_parse len hs r x : len <> 0%Z ->
    fst (u_parse rd exh reg name2cp mk_temp st true D fuel csize len hs r) = Ok x -> AR r.
  Proof.
    intros Hl H. unfold u_parse in H. destruct (querydict reg (Some (ms_query st)) None true); [|discriminate H].
    apply Z.eqb_neq in Hl. rewrite Hl in H. cbv zeta in H.
    match type of H with fst (match u_parts_loop _ _ _ _ _ _ _ _ _ ?p ?s with _ => _ end) = _ =>
      destruct (u_parts_loop rd reg name2cp mk_temp st true D fuel fuel p s) as [[q|e] s1] eqn:E; [|discriminate H];
      assert (HA : asc s) by (eapply asc_parts; [|exact E]; exists (mkCI r csize); now split) end.
    destruct HA as [_ HA]. exact (HA (mkCI r csize) eq_refl).
  Qed.
End Ascii.

(** ** ASCII input: no difference *)
Section Pure.
  Context {R : Type} (rd : nat -> R -> res str * R) (exh : R -> res unit * R) (AF : R -> Prop).
  Context (HF : forall n r, AF r -> match rd n r with (Ok d, r1) => ascii_only d = true /\ AF r1 | (Err _, r1) => AF r1 end).
  Context (reg : registry) (name2cp : str -> option N) (mk_temp : str -> res unit).
  Context (st : mset) (uni : bool) (D : str) (fuel : nat).
  Notation pn1 := (ci_next rd).
  Notation pu := (u_next pn1 uni fuel).
  Notation pp := (bi_next pn1 fuel).
  Notation L1 := (lstream (chunkiter R)).
  Notation L2 := (lstream (biter (chunkiter R))).

  Definition pure (s : L1) : Prop := ascii_only (ls_left s) = true /\ forall c, ls_prod s = Some c -> AF (ci_flo c).
  Lemma pure_next s : pure s -> pure (snd (ls_next pn1 s)) /\ forall c, fst (ls_next pn1 s) = Chunk c -> ascii_only c = true.
  Proof.
    intros [H1 H2]. unfold ls_next. destruct (ls_left s) as [|x l] eqn:El.
    - destruct (ls_prod s) as [p|] eqn:Ep; [|cbn [fst snd]; split; [split; [now rewrite El|now rewrite Ep]|discriminate]].
      specialize (H2 p eq_refl). pose proof (HF (ci_size p) (ci_flo p) H2) as HR. unfold ci_next.
      destruct (rd (ci_size p) (ci_flo p)) as [[d|e] r1].
      + destruct HR as [HR1 HR2]. destruct d as [|y d]; cbn [fst snd]; (split; [split; [reflexivity|intros c [= <-]; exact HR2]|]); [discriminate|].
        intros c [= <-]. exact HR1.
      + destruct e; cbn [fst snd]; (split; [split; [reflexivity|intros c [= <-]; exact HR]|discriminate]).
    - cbn [fst snd]. split; [split; [reflexivity|exact H2]|]. intros c [= <-]. exact H1.
  Qed.
  Lemma ascii_firstn n s : ascii_only s = true -> ascii_only (firstn n s) = true.
  Proof. intros H. rewrite <- (firstn_skipn n s), ascii_app in H. now apply andb_prop in H. Qed.
  Lemma ascii_skipn n s : ascii_only s = true -> ascii_only (skipn n s) = true.
  Proof. intros H. rewrite <- (firstn_skipn n s), ascii_app in H. now apply andb_prop in H. Qed.
  Lemma pure_unget b s : pure s -> ascii_only b = true -> pure (snd (ls_unget b s)).
  Proof.
    intros [H1 H2] Hb. unfold ls_unget. destruct b as [|x b]; [now split|]. destruct (Nat.ltb 40 _); cbn [snd]; split; try assumption.
    change (ascii_only ((x :: b) ++ ls_left s) = true). now rewrite ascii_app, Hb.
  Qed.
  Lemma pure_collect rb : forall n read acc s, pure s -> ascii_only (concat acc) = true ->
    pure (snd (bi_collect pn1 n rb read acc s)) /\
    forall l e, fst (bi_collect pn1 n rb read acc s) = Ok (l, e) -> ascii_only (concat l) = true.
  Proof.
    induction n as [|n IH]; intros read acc s Hs Ha; cbn [bi_collect]; [split; [exact Hs|discriminate]|].
    destruct (pure_next s Hs) as [H1 H2]. destruct (ls_next pn1 s) as [[c| |e] s1]; cbn [fst snd] in *.
    - assert (Hc : ascii_only (concat (acc ++ [c])) = true).
      { rewrite concat_app, ascii_app, Ha. cbn [concat]. rewrite app_nil_r. now apply H2. }
      cbv zeta. destruct (Nat.ltb rb (read + length c)); [split; [exact H1|]; intros l e [= <- <-]; exact Hc|].
      destruct c as [|x c]; [split; [exact H1|]; intros l e [= <- <-]; exact Hc|]. now apply IH.
    - split; [exact H1|]. intros l e [= <- <-]. exact Ha.
    - split; [exact H1|discriminate].
  Qed.
  Lemma pure_read1 : forall n k out s, pure s -> ascii_only out = true -> pure (snd (ls_read_loop pn1 n k out s)) /\
    forall d, fst (ls_read_loop pn1 n k out s) = Ok d -> ascii_only d = true.
  Proof.
    induction n as [|n IH]; intros k out s Hs Ho; cbn [ls_read_loop]; [split; [exact Hs|discriminate]|].
    destruct (Z.eqb k 0); [split; [exact Hs|now intros d [= <-]]|]. destruct (Z.ltb k 0); [split; [exact Hs|discriminate]|].
    destruct (pure_next s Hs) as [H1 H2]. destruct (ls_next pn1 s) as [[c| |e] s1]; cbn [fst snd] in *.
    - specialize (H2 c eq_refl). pose proof (pure_unget (skipn (Z.to_nat k) c) s1 H1 (ascii_skipn _ _ H2)) as HU.
      destruct (ls_unget (skipn (Z.to_nat k) c) s1) as [[u|e] s2]; cbn [snd] in *; [|split; [exact HU|discriminate]].
      apply IH; [exact HU|]. rewrite ascii_app, Ho. now apply ascii_firstn.
    - split; [exact H1|now intros d [= <-]].
    - split; [exact H1|discriminate].
  Qed.
  Lemma pure_init s : pure s -> match bi_init pn1 fuel s D with (Ok b, s1) => bi_stream b = s1 /\ pure s1 | (Err _, s1) => pure s1 end.
  Proof.
    intros Hs. unfold bi_init, ls_read. destruct (pure_read1 fuel 1%Z [] s Hs eq_refl) as [H1 H2].
    destruct (ls_read_loop pn1 fuel 1 [] s) as [[d|e] s1]; cbn [fst snd] in *; [|exact H1]. destruct d as [|x d]; [exact H1|].
    pose proof (pure_unget (x :: d) s1 H1 (H2 _ eq_refl)) as HU. destruct (ls_unget (x :: d) s1) as [[u|e] s2]; cbn [snd] in HU; [now split|exact HU].
  Qed.
  Definition pb (b : biter (chunkiter R)) : Prop := pure (bi_stream b).
  Lemma ascii_upto n s : ascii_only s = true -> ascii_only (from_neg n s) = true.
  Proof. intros H. unfold from_neg. now apply ascii_skipn. Qed.
  Lemma pure_collect_eq rb n read acc s x s1 : pure s -> ascii_only (concat acc) = true -> bi_collect pn1 n rb read acc s = (x, s1) ->
    pure s1 /\ forall l e, x = Ok (l, e) -> ascii_only (concat l) = true.
  Proof. intros H1 H2 E. pose proof (pure_collect rb n read acc s H1 H2) as H. now rewrite E in H. Qed.
  Lemma pure_bnext b : pb b -> pu b = pp b /\ pb (snd (pp b)).
  Proof.
    intros Hb. unfold u_next, bi_next. cbv zeta. destruct (bi_done b); [split; [reflexivity|exact Hb]|].
    destruct (bi_collect pn1 fuel _ 0 [] (bi_stream b)) as [[[chunks ended]|e] s1] eqn:EC; destruct (pure_collect_eq _ _ _ [] _ _ _ Hb eq_refl EC) as [H1 H2]; [|split; [reflexivity|exact H1]].
    destruct chunks as [|c cs]; [split; [reflexivity|exact H1]|]. cbv zeta. specialize (H2 _ _ eq_refl). rewrite H2. cbn [negb]. rewrite Bool.andb_false_r. split; [reflexivity|].
    destruct (find_boundary (bi_boundary b) (concat (c :: cs))) as [[e next]|].
    - pose proof (pure_unget (skipn next (concat (c :: cs))) s1 H1 (ascii_skipn _ _ H2)) as HU.
      destruct (ls_unget (skipn next (concat (c :: cs))) s1) as [[u|x] s2]; exact HU.
    - destruct (upto_neg (rollback (bi_boundary b)) (concat (c :: cs))) as [|y l]; [exact H1|].
      pose proof (pure_unget (from_neg (rollback (bi_boundary b)) (concat (c :: cs))) s1 H1 (ascii_upto _ _ H2)) as HU.
      destruct (ls_unget (from_neg (rollback (bi_boundary b)) (concat (c :: cs))) s1) as [[u|x] s2]; exact HU.
  Qed.
  Definition p2 (s : L2) : Prop := forall b, ls_prod s = Some b -> pb b.
  (** equal, and the input still is ASCII *)
  Definition pe {A} (u p : A * L2) : Prop := u = p /\ p2 (snd p).
  Lemma p2_unget b (s : L2) : p2 s -> p2 (snd (ls_unget b s)).
  Proof. intros H. unfold ls_unget. destruct b; [exact H|]. destruct (Nat.ltb 40 _); exact H. Qed.
  Lemma pe_next s : p2 s -> pe (ls_next pu s) (ls_next pp s).
  Proof.
    intros H. unfold ls_next. destruct (ls_left s) as [|x l]; [|now split]. destruct (ls_prod s) as [p|] eqn:E; [|split; [reflexivity|exact H]].
    destruct (pure_bnext p (H p E)) as [-> HP]. split; [reflexivity|]. destruct (pp p) as [[c| |e] q]; intros b [= <-]; exact HP.
  Qed.
  Lemma pe_read_loop : forall n k out s, p2 s -> pe (ls_read_loop pu n k out s) (ls_read_loop pp n k out s).
  Proof.
    induction n as [|n IH]; intros k out s Hs; cbn [ls_read_loop]; [now split|].
    destruct (Z.eqb k 0); [now split|]. destruct (Z.ltb k 0); [now split|]. destruct (pe_next s Hs) as [-> H1].
    destruct (ls_next pp s) as [[c| |e] s1]; [|now split|now split]. pose proof (p2_unget (skipn (Z.to_nat k) c) s1 H1) as HU.
    destruct (ls_unget (skipn (Z.to_nat k) c) s1) as [[u|e] s2]; [now apply IH|now split].
  Qed.
  Lemma pe_join : forall n out s, p2 s -> pe (ls_join pu n out s) (ls_join pp n out s).
  Proof.
    induction n as [|n IH]; intros out s Hs; cbn [ls_join]; [now split|]. destruct (pe_next s Hs) as [-> H1].
    destruct (ls_next pp s) as [[c| |e] s1]; [now apply IH|now split|now split].
  Qed.
  Lemma pe_read size s : p2 s -> pe (ls_read pu fuel size s) (ls_read pp fuel size s).
  Proof. intros H. unfold ls_read. destruct (match size with None => ls_remaining s | Some k => Some k end); [now apply pe_read_loop|now apply pe_join]. Qed.
  Lemma pe_pbs s : p2 s -> pe (u_parse_boundary_stream rd reg uni fuel s) (parse_boundary_stream rd reg fuel s).
  Proof.
    intros Hs. unfold u_parse_boundary_stream, parse_boundary_stream. destruct (pe_read (Some MAX_PART_HEADER) s Hs) as [-> H1]. split; [reflexivity|].
    destruct (ls_read pp fuel (Some MAX_PART_HEADER) s) as [[c|e] s1]; [|exact H1]. cbn [snd] in H1. destruct (find crlfcrlf c) as [i|].
    - pose proof (p2_unget (skipn (i + 4) c) s1 H1) as HU. destruct (ls_unget (skipn (i + 4) c) s1) as [[u|e] s2]; [|exact HU]. cbn [snd] in HU.
      destruct (header_meta reg _ RAW []) as [[[] m]|e]; try exact HU. pose proof (p2_unget c s2 HU) as HV. destruct (ls_unget c s2) as [[u2|e] s3]; exact HV.
    - pose proof (p2_unget c s1 H1) as HU. destruct (ls_unget c s1) as [[u|e] s2]; exact HU.
  Qed.
  Lemma pe_field name tenc m p s : p2 s -> pe (u_read_field rd reg st uni fuel name tenc m p s) (read_field rd reg st fuel name tenc m p s).
  Proof.
    intros Hs. unfold u_read_field, read_field. cbv zeta. destruct (match ms_dnum st with Some n => _ | None => _ end); [now split|].
    destruct (pe_read (option_map (fun n => (n - p_bytes p)%Z) (ms_dmem st)) s Hs) as [-> H1]. split; [reflexivity|].
    destruct (ls_read pp fuel _ s) as [[c|e] s1]; [|exact H1]. cbn [snd] in H1.
    destruct (match tenc with Some t => _ | None => _ end) as [d|e]; [|exact H1]. destruct (match ms_dmem st with Some n => _ | None => _ end); [exact H1|].
    destruct (match dget !"content-type" m with Some v => v | None => _ end) as [ct extra]. destruct (post_append reg _ name _ (p_post p)); exact H1.
  Qed.
  Lemma pe_fill : forall n acc s, p2 s -> pe (u_b64_fill rd uni fuel n acc s) (b64_fill rd fuel n acc s).
  Proof.
    induction n as [|n IH]; intros acc s Hs; cbn [u_b64_fill b64_fill]; [now split|]. cbv zeta. destruct (Nat.eqb _ 0); [now split|].
    destruct (pe_read (Some (Z.of_nat (4 - Nat.modulo (length acc) 4))) s Hs) as [-> H1].
    destruct (ls_read pp fuel _ s) as [[c|e] s1]; [now apply IH|now split].
  Qed.
  Lemma pe_file_loop b64 : forall n hs cs s, p2 s -> pe (u_file_loop rd mk_temp st uni fuel n b64 hs cs s) (file_loop rd mk_temp st fuel n b64 hs cs s).
  Proof.
    induction n as [|n IH]; intros hs cs s Hs; cbn [u_file_loop file_loop]; [now split|]. destruct (pe_next s Hs) as [-> H1].
    destruct (ls_next pp s) as [[c| |e] s1]; [|now split|now split]. cbn [snd] in H1. destruct b64.
    - destruct (pe_fill fuel (remove_ws c) s1 H1) as [-> H2]. destruct (b64_fill rd fuel fuel (remove_ws c) s1) as [[g|e] s2]; [|now split]. cbn [snd] in H2.
      destruct (b64decode g) as [d|e]; [|now split]. destruct (feed mk_temp (ms_fmem st) d hs cs) as [[hs1 cs1]|e]; [now apply IH|now split].
    - destruct (feed mk_temp (ms_fmem st) c hs cs) as [[hs1 cs1]|e]; [now apply IH|now split].
  Qed.
  Lemma pe_file name tenc disp m p s : p2 s ->
    pe (u_read_file rd name2cp mk_temp st uni fuel name tenc disp m p s) (read_file rd name2cp mk_temp st fuel name tenc disp m p s).
  Proof.
    intros Hs. unfold u_read_file, read_file. destruct (match dget !"filename" disp with Some f => _ | None => _ end) as [[|c f]|e]; try now split.
    destruct (match dget !"content-type" m with Some v => v | None => _ end) as [ct extra]. cbv zeta.
    destruct (new_files mk_temp _ (p_hs p)) as [hs|e]; [|now split].
    destruct (pe_file_loop (match tenc with Some t => seqb t !"base64" | None => false end) fuel hs (map (fun _ => 0) hs) s Hs) as [-> H1].
    split; [reflexivity|]. destruct (file_loop rd mk_temp st fuel fuel _ hs _ s) as [[[hs1 cs1]|e] s1]; exact H1.
  Qed.
  Lemma pe_part ty m p s : p2 s -> pe (u_one_part rd reg name2cp mk_temp st uni fuel ty m p s) (one_part rd reg name2cp mk_temp st fuel ty m p s).
  Proof.
    intros Hs. unfold u_one_part, one_part. destruct (dget CDISP m) as [[v disp]|]; [|now split]. destruct (dget !"name" disp) as [raw|]; [|now split].
    cbv zeta. destruct (to_native (pstrip raw)) as [name|e]; [|now split]. destruct ty; [now split|now apply pe_file|now apply pe_field].
  Qed.
  Lemma pe_parts : forall n p s, pure s -> u_parts_loop rd reg name2cp mk_temp st uni D fuel n p s = parts_loop rd reg name2cp mk_temp st D fuel n p s.
  Proof.
    induction n as [|n IH]; intros p s Hs; cbn [u_parts_loop parts_loop]; [reflexivity|].
    pose proof (pure_init s Hs) as HI. destruct (bi_init pn1 fuel s D) as [[b|e] s1]; [|reflexivity]. destruct HI as [I1 I2].
    assert (HL : p2 (ls_init b None)) by (intros b1 [= <-]; unfold pb; now rewrite I1).
    destruct (pe_pbs _ HL) as [-> H2]. destruct (parse_boundary_stream rd reg fuel (ls_init b None)) as [[[ty m]|e] s2]; [|reflexivity]. cbn [snd] in H2.
    destruct (finish_file p) as [p1|e]; [|reflexivity]. destruct (pe_part ty m p1 s2 H2) as [-> H3].
    destruct (one_part rd reg name2cp mk_temp st fuel ty m p1 s2) as [[q|e] s3]; [|reflexivity]. cbn [snd] in H3. apply IH.
    unfold outer_of. destruct (ls_prod s3) as [b3|] eqn:E3; [exact (H3 b3 E3)|exact I2].
  Qed.
  Theorem pure_parse csize len hs r : AF r ->
    u_parse rd exh reg name2cp mk_temp st uni D fuel csize len hs r = mp_parse rd exh reg name2cp mk_temp st D fuel csize len hs r.
  Proof.
    intros H. unfold u_parse, mp_parse. destruct (querydict reg (Some (ms_query st)) None true); [|reflexivity]. destruct (Z.eqb len 0); [reflexivity|]. cbv zeta.
    rewrite pe_parts; [reflexivity|]. split; [reflexivity|]. intros c [= <-]. exact H.
  Qed.
End Pure.
