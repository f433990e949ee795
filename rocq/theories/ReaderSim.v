(** * A multipart parse depends on what its input delivers, not on what the input is:
    two inputs that answer every read alike give the same result *)
From Verif Require Import Py PyFacts PyDict StreamModel CodecModel QueryModel Base64Model HeaderModel BoundaryModel UploadModel MultipartModel.

(** same answer, related states *)
Definition sim2 {A S S'} (RS : S -> S' -> Prop) (x : A * S) (y : A * S') : Prop := fst x = fst y /\ RS (snd x) (snd y).
Definition simo {P P'} (RP : P -> P' -> Prop) (a : option P) (b : option P') : Prop :=
  match a, b with Some x, Some y => RP x y | None, None => True | _, _ => False end.
Record sims {P P'} (RP : P -> P' -> Prop) (s : lstream P) (t : lstream P') : Prop := {
  sm_prod : simo RP (ls_prod s) (ls_prod t); sm_left : ls_left s = ls_left t; sm_pos : ls_pos s = ls_pos t;
  sm_hist : ls_hist s = ls_hist t; sm_rem : ls_remaining s = ls_remaining t }.

Section Lazy.
  Context {P P' : Type} (RP : P -> P' -> Prop) (pn : P -> nxt * P) (pn' : P' -> nxt * P').
  Context (H : forall p p', RP p p' -> sim2 RP (pn p) (pn' p')).
  Notation RS := (sims RP).
  Lemma sims_init p p' l : RP p p' -> RS (ls_init p l) (ls_init p' l).
  Proof. now constructor. Qed.
  Lemma sims_next s t : RS s t -> sim2 RS (ls_next pn s) (ls_next pn' t).
  Proof.
    intros [Hp Hl Ho Hh Hr]. unfold ls_next. rewrite <- Hl. destruct (ls_left s) as [|c l] eqn:El.
    - destruct (ls_prod s) as [p|] eqn:Ep, (ls_prod t) as [p'|] eqn:Ep'; try easy.
      + specialize (H p p' Hp). destruct (pn p) as [n q], (pn' p') as [n' q']. destruct H as [E Hq]. cbn in E, Hq. subst n'.
        destruct n; (split; [reflexivity|constructor]); cbn; congruence.
      + split; [reflexivity|]. constructor; cbn [snd]; try assumption; [now rewrite Ep, Ep'|congruence].
    - split; [reflexivity|]. constructor; cbn; congruence.
  Qed.
  Lemma sims_unget b s t : RS s t -> sim2 RS (ls_unget b s) (ls_unget b t).
  Proof.
    intros [Hp Hl Ho Hh Hr]. destruct b as [|c b]; [now repeat split|]. cbn [ls_unget]. rewrite <- Hh.
    destruct (Nat.ltb 40 _); (split; [reflexivity|constructor]); cbn; congruence.
  Qed.
  Lemma sims_read_loop : forall fuel n out s t, RS s t -> sim2 RS (ls_read_loop pn fuel n out s) (ls_read_loop pn' fuel n out t).
  Proof.
    induction fuel as [|f IH]; intros n out s t HS; cbn [ls_read_loop]; [now split|].
    destruct (Z.eqb n 0); [now split|]. destruct (Z.ltb n 0); [now split|].
    pose proof (sims_next s t HS) as HN. destruct (ls_next pn s) as [[c| |e] s1], (ls_next pn' t) as [[c'| |e'] t1];
      destruct HN as [E HN]; cbn in E, HN; try discriminate E; try (injection E as <-); try (now split).
    pose proof (sims_unget (skipn (Z.to_nat n) c) s1 t1 HN) as HU.
    destruct (ls_unget _ s1) as [[u|e] s2], (ls_unget _ t1) as [[u'|e'] t2]; destruct HU as [E HU]; cbn in E, HU;
      try discriminate E; try (injection E as <-); [now apply IH|now split].
  Qed.
  Lemma sims_join : forall fuel out s t, RS s t -> sim2 RS (ls_join pn fuel out s) (ls_join pn' fuel out t).
  Proof.
    induction fuel as [|f IH]; intros out s t HS; cbn [ls_join]; [now split|].
    pose proof (sims_next s t HS) as HN. destruct (ls_next pn s) as [[c| |e] s1], (ls_next pn' t) as [[c'| |e'] t1];
      destruct HN as [E HN]; cbn in E, HN; try discriminate E; try (injection E as <-); [now apply IH|now split|now split].
  Qed.
  Lemma sims_read fuel n s t : RS s t -> sim2 RS (ls_read pn fuel n s) (ls_read pn' fuel n t).
  Proof.
    intros HS. unfold ls_read. rewrite <- (sm_rem _ _ _ HS). destruct (match n with Some n0 => Some n0 | None => ls_remaining s end).
    - now apply sims_read_loop.
    - now apply sims_join.
  Qed.

  (** BoundaryIter *)
  Record simb (b : biter P) (b' : biter P') : Prop := {
    sb_stream : RS (bi_stream b) (bi_stream b'); sb_bound : bi_boundary b = bi_boundary b'; sb_done : bi_done b = bi_done b' }.
  Lemma simb_init fuel s t D : RS s t ->
    match bi_init pn fuel s D, bi_init pn' fuel t D with
    | (Ok b, s1), (Ok b', t1) => simb b b' /\ RS s1 t1
    | (Err e, s1), (Err e', t1) => e = e' /\ RS s1 t1
    | _, _ => False
    end.
  Proof.
    intros HS. unfold bi_init. pose proof (sims_read fuel (Some 1%Z) s t HS) as HR.
    destruct (ls_read pn fuel _ s) as [[[|c d]|e] s1], (ls_read pn' fuel _ t) as [[[|c' d']|e'] t1]; destruct HR as [E HR]; cbn in E, HR;
      try discriminate E; try (now split).
    - injection E as <- <-. pose proof (sims_unget (c :: d) s1 t1 HR) as HU.
      destruct (ls_unget _ s1) as [[u|e] s2], (ls_unget _ t1) as [[u'|e'] t2]; destruct HU as [E HU]; cbn in E, HU; try discriminate E.
      + split; [now constructor|exact HU].
      + injection E as <-. now split.
    - injection E as <-. now split.
  Qed.
  Lemma simb_collect : forall fuel rb n acc s t, RS s t -> sim2 RS (bi_collect pn fuel rb n acc s) (bi_collect pn' fuel rb n acc t).
  Proof.
    induction fuel as [|f IH]; intros rb n acc s t HS; cbn [bi_collect]; [now split|].
    pose proof (sims_next s t HS) as HN. destruct (ls_next pn s) as [[c| |e] s1], (ls_next pn' t) as [[c'| |e'] t1];
      destruct HN as [E HN]; cbn in E, HN; try discriminate E; try (injection E as <-); [|now split|now split].
    cbn zeta. destruct (Nat.ltb rb (n + length c)); [now split|]. destruct c; [now split|]. now apply IH.
  Qed.
  Lemma simb_next fuel b b' : simb b b' -> sim2 simb (bi_next pn fuel b) (bi_next pn' fuel b').
  Proof.
    intros [Hs Hb Hd]. unfold bi_next. cbn zeta. rewrite <- Hd, <- Hb. destruct (bi_done b) eqn:Ed; [split; [reflexivity|constructor; [exact Hs|exact Hb|cbn [snd]; congruence]]|].
    pose proof (simb_collect fuel (rollback (bi_boundary b)) 0 [] _ _ Hs) as HC.
    destruct (bi_collect pn _ _ _ _ _) as [[[cs en]|e] s1], (bi_collect pn' _ _ _ _ _) as [[[cs' en']|e'] t1]; destruct HC as [E HC];
      cbn in E, HC; try discriminate E; [injection E as <- <-|injection E as <-; (split; [reflexivity|now constructor])].
    destruct cs as [|c cs]; [(split; [reflexivity|now constructor])|]. set (chunk := concat (c :: cs)).
    destruct (find_boundary (bi_boundary b) chunk) as [[e nx]|].
    - pose proof (sims_unget (skipn nx chunk) s1 t1 HC) as HU.
      destruct (ls_unget _ s1) as [[u|x] s2], (ls_unget _ t1) as [[u'|x'] t2]; destruct HU as [E HU]; cbn in E, HU; try discriminate E.
      + (split; [reflexivity|now constructor]).
      + injection E as <-. (split; [reflexivity|now constructor]).
    - destruct (upto_neg (rollback (bi_boundary b)) chunk) as [|y l]; [(split; [reflexivity|now constructor])|].
      pose proof (sims_unget (from_neg (rollback (bi_boundary b)) chunk) s1 t1 HC) as HU.
      destruct (ls_unget _ s1) as [[u|x] s2], (ls_unget _ t1) as [[u'|x'] t2]; destruct HU as [E HU]; cbn in E, HU; try discriminate E.
      + (split; [reflexivity|now constructor]).
      + injection E as <-. (split; [reflexivity|now constructor]).
  Qed.
End Lazy.

Section Parser.
  Context {R R' : Type} (Q : R -> R' -> Prop) (rd : nat -> R -> res str * R) (rd' : nat -> R' -> res str * R').
  Context (exh : R -> res unit * R) (exh' : R' -> res unit * R').
  Context (Hrd : forall n r r', Q r r' -> sim2 Q (rd n r) (rd' n r')).
  Context (Hexh : forall r r', Q r r' -> sim2 Q (exh r) (exh' r')).
  Context (reg : registry) (name2cp : str -> option N) (mk_temp : str -> res unit) (st : mset) (D : str) (fuel : nat).
  Definition simc (c : chunkiter R) (c' : chunkiter R') : Prop := Q (ci_flo c) (ci_flo c') /\ ci_size c = ci_size c'.
  Notation RL1 := (sims simc).
  Notation RB := (simb simc).
  Notation RL2 := (sims RB).
  Notation pn1 := (ci_next rd). Notation pn1' := (ci_next rd').
  Notation pn2 := (bi_next pn1 fuel). Notation pn2' := (bi_next pn1' fuel).

  Lemma simc_next c c' : simc c c' -> sim2 simc (pn1 c) (pn1' c').
  Proof.
    intros [H1 H2]. unfold ci_next. rewrite <- H2. specialize (Hrd (ci_size c) _ _ H1).
    destruct (rd _ _) as [[[|x d]|e] s], (rd' _ _) as [[[|x' d']|e'] t]; destruct Hrd as [E HQ]; cbn in E, HQ; try discriminate E.
    - (split; [reflexivity|now constructor]).
    - injection E as <- <-. (split; [reflexivity|now constructor]).
    - injection E as <-. destruct e; (split; [reflexivity|now constructor]).
  Qed.
  Lemma sim2_next b b' : RB b b' -> sim2 RB (pn2 b) (pn2' b').
  Proof. apply simb_next. exact simc_next. Qed.
  Notation nx2 := (sims_next RB pn2 pn2' sim2_next).
  Notation rd2 := (sims_read RB pn2 pn2' sim2_next).
  Notation un2 := (sims_unget RB).

  Ltac pair x y H E :=
    let a := fresh "a" in let s := fresh "s" in let b := fresh "b" in let t := fresh "t" in
    destruct x as [[a|a] s], y as [[b|b] t]; destruct H as [E H]; cbn [fst snd] in E, H; try discriminate E; injection E as <-.

  Lemma sim_boundary s t : RL2 s t ->
    sim2 RL2 (parse_boundary_stream rd reg fuel s) (parse_boundary_stream rd' reg fuel t).
  Proof.
    intros HS. unfold parse_boundary_stream. pose proof (rd2 fuel (Some MAX_PART_HEADER) s t HS) as HR.
    pair (ls_read pn2 fuel (Some MAX_PART_HEADER) s) (ls_read pn2' fuel (Some MAX_PART_HEADER) t) HR E; [|now split].
    destruct (find crlfcrlf a) as [i|].
    - pose proof (un2 (skipn (i + 4) a) s0 t0 HR) as HU.
      pair (ls_unget (skipn (i + 4) a) s0) (ls_unget (skipn (i + 4) a) t0) HU E; [|now split].
      destruct (header_meta reg (split crlf (firstn i a)) RAW []) as [[[] m]|e]; [|now split..].
      pose proof (un2 a s1 t1 HU) as HV. pair (ls_unget a s1) (ls_unget a t1) HV E; now split.
    - pose proof (un2 a s0 t0 HR) as HV. pair (ls_unget a s0) (ls_unget a t0) HV E; now split.
  Qed.
  Lemma sim_field name tenc m p s t : RL2 s t -> sim2 RL2 (read_field rd reg st fuel name tenc m p s) (read_field rd' reg st fuel name tenc m p t).
  Proof.
    intros HS. unfold read_field. cbn zeta. match goal with |- context [if ?c then (Err TooManyFieldsSent, _) else _] => destruct c end; [now split|].
    match goal with |- context [ls_read _ _ ?z s] => pose proof (rd2 fuel z s t HS) as HR; pair (ls_read pn2 fuel z s) (ls_read pn2' fuel z t) HR E end; [|now split].
    match goal with |- context [match ?x with Ok _ => _ | Err e => (Err e, s0) end] => destruct x end; [|now split].
    match goal with |- context [if ?c then (Err RequestDataTooBig, _) else _] => destruct c end; [now split|].
    destruct (match dget _ m with Some v => v | None => _ end) as [ct ex].
    destruct (post_append _ _ _ _ _); now split.
  Qed.
  Lemma sim_fill : forall n acc s t, RL2 s t -> sim2 RL2 (b64_fill rd fuel n acc s) (b64_fill rd' fuel n acc t).
  Proof.
    induction n as [|n IH]; intros acc s t HS; cbn [b64_fill]; [now split|]. destruct (Nat.eqb _ 0); [now split|].
    match goal with |- context [ls_read _ _ ?z s] => pose proof (rd2 fuel z s t HS) as HR; pair (ls_read pn2 fuel z s) (ls_read pn2' fuel z t) HR E end; [|now split].
    now apply IH.
  Qed.
  Lemma sim_file_loop : forall n b64 hs cs s t, RL2 s t ->
    sim2 RL2 (file_loop rd mk_temp st fuel n b64 hs cs s) (file_loop rd' mk_temp st fuel n b64 hs cs t).
  Proof.
    induction n as [|n IH]; intros b64 hs cs s t HS; cbn [file_loop]; [now split|].
    pose proof (nx2 s t HS) as HN. destruct (ls_next pn2 s) as [[c| |e] s1], (ls_next pn2' t) as [[c'| |e'] t1];
      destruct HN as [E HN]; cbn [fst snd] in E, HN; try discriminate E; try (injection E as <-); [|now split|now split].
    assert (HB : sim2 RL2 (if b64 then match b64_fill rd fuel fuel (remove_ws c) s1 with
                     | (Err e, s2) => (Err e, s2)
                     | (Ok g, s2) => (match b64decode g with Ok d => Ok d | Err _ => Err TypeError end, s2) end else (Ok c, s1))
                  (if b64 then match b64_fill rd' fuel fuel (remove_ws c) t1 with
                     | (Err e, s2) => (Err e, s2)
                     | (Ok g, s2) => (match b64decode g with Ok d => Ok d | Err _ => Err TypeError end, s2) end else (Ok c, t1))).
    { destruct b64; [|now split]. pose proof (sim_fill fuel (remove_ws c) s1 t1 HN) as HF.
      pair (b64_fill rd fuel fuel (remove_ws c) s1) (b64_fill rd' fuel fuel (remove_ws c) t1) HF E; now split. }
    match type of HB with sim2 _ ?x ?y => pair x y HB E end; [|now split].
    destruct (feed mk_temp (ms_fmem st) a hs cs) as [[hs1 cs1]|e]; [now apply IH|now split].
  Qed.
  Lemma sim_file name tenc disp m p s t : RL2 s t ->
    sim2 RL2 (read_file rd name2cp mk_temp st fuel name tenc disp m p s) (read_file rd' name2cp mk_temp st fuel name tenc disp m p t).
  Proof.
    intros HS. unfold read_file.
    match goal with |- context [match ?x with Ok _ => _ | Err e => (Err e, s) end] => destruct x as [[|f0 f]|e] end; [now split| |now split].
    destruct (match dget _ m with Some v => v | None => _ end) as [ct ex].
    destruct (new_files mk_temp _ (p_hs p)) as [hs|e]; [|now split].
    match goal with |- context [file_loop rd mk_temp st fuel fuel ?b hs ?cs s] =>
      pose proof (sim_file_loop fuel b hs cs s t HS) as HF; pair (file_loop rd mk_temp st fuel fuel b hs cs s) (file_loop rd' mk_temp st fuel fuel b hs cs t) HF E end;
      [|now split].
    destruct a as [hs1 cs1]. now split.
  Qed.
  Lemma sim_part ty m p s t : RL2 s t ->
    sim2 RL2 (one_part rd reg name2cp mk_temp st fuel ty m p s) (one_part rd' reg name2cp mk_temp st fuel ty m p t).
  Proof.
    intros HS. unfold one_part. destruct (dget CDISP m) as [[v disp]|]; [|now split]. destruct (dget !"name" disp) as [raw|]; [|now split].
    destruct (to_native (pstrip raw)) as [name|e]; [|now split]. destruct ty; solve [now split|now apply sim_field|now apply sim_file].
  Qed.
  Lemma sim_outer d d' s t : RL1 d d' -> RL2 s t -> RL1 (outer_of d s) (outer_of d' t).
  Proof.
    intros H1 [H2 _ _ _ _]. unfold outer_of. destruct (ls_prod s), (ls_prod t); try easy. apply H2.
  Qed.
  Lemma sim_loop : forall n p s t, RL1 s t ->
    sim2 RL1 (parts_loop rd reg name2cp mk_temp st D fuel n p s) (parts_loop rd' reg name2cp mk_temp st D fuel n p t).
  Proof.
    induction n as [|n IH]; intros p s t HS; cbn [parts_loop]; [now split|].
    pose proof (simb_init simc pn1 pn1' simc_next fuel s t D HS) as HI.
    destruct (bi_init pn1 fuel s D) as [[b|e] s1], (bi_init pn1' fuel t D) as [[b'|e'] t1]; try easy.
    2:{ destruct HI as [<- HI]. destruct e; now split. }
    destruct HI as [HB HI]. pose proof (sim_boundary (ls_init b None) (ls_init b' None) ltac:(now apply sims_init)) as HP.
    pair (parse_boundary_stream rd reg fuel (ls_init b None)) (parse_boundary_stream rd' reg fuel (ls_init b' None)) HP E;
      [|split; [reflexivity|now apply sim_outer]].
    destruct a as [ty m]. destruct (finish_file p) as [p1|e]; [|split; [reflexivity|now apply sim_outer]].
    pose proof (sim_part ty m p1 s0 t0 HP) as HO.
    pair (one_part rd reg name2cp mk_temp st fuel ty m p1 s0) (one_part rd' reg name2cp mk_temp st fuel ty m p1 t0) HO E.
    - apply IH. now apply sim_outer.
    - split; [reflexivity|]. now apply sim_outer.
  Qed.
  Lemma sim_input d d' s t : Q d d' -> RL1 s t -> Q (input_of d s) (input_of d' t).
  Proof. intros H1 [H2 _ _ _ _]. unfold input_of. destruct (ls_prod s), (ls_prod t); try easy. apply H2. Qed.

  Theorem sim_parse csize len hs r r' : Q r r' ->
    sim2 Q (mp_parse rd exh reg name2cp mk_temp st D fuel csize len hs r) (mp_parse rd' exh' reg name2cp mk_temp st D fuel csize len hs r').
  Proof.
    intros HQ. unfold mp_parse. destruct (querydict reg (Some (ms_query st)) None true); [|now split].
    destruct (Z.eqb len 0); [now split|]. cbn zeta.
    match goal with |- context [parts_loop rd _ _ _ _ _ _ _ ?p (ls_init (mkCI r ?c) _)] =>
      assert (HL : sim2 RL1 (parts_loop rd reg name2cp mk_temp st D fuel fuel p (ls_init (mkCI r c) None))
                            (parts_loop rd' reg name2cp mk_temp st D fuel fuel p (ls_init (mkCI r' c) None)))
        by (apply sim_loop, sims_init; now split);
      pair (parts_loop rd reg name2cp mk_temp st D fuel fuel p (ls_init (mkCI r c) None)) (parts_loop rd' reg name2cp mk_temp st D fuel fuel p (ls_init (mkCI r' c) None)) HL E
    end.
    - pose proof (Hexh _ _ (sim_input r r' s t HQ HL)) as HE.
      pair (exh (input_of r s)) (exh' (input_of r' t)) HE E; now split.
    - split; [reflexivity|]. now apply sim_input.
  Qed.
End Parser.
