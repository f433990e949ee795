(** * Which exceptions can come out (claim C133).
    [E] is a set of exceptions; a step is [safe] when it raises only members of [E]
    and keeps an invariant of the object it reads from. *)
From Verif Require Import Py PyFacts PyDict Spec StreamModel CodecModel QueryModel QueryFacts Base64Model HeaderModel
  HeaderSpec HeaderFacts HeadModel BoundaryModel UploadModel MultipartModel UploadFacts MultipartInv RequestModel.

Definition safe {A S} (E : exn -> Prop) (I : S -> Prop) (x : res A * S) : Prop :=
  I (snd x) /\ match fst x with Ok _ => True | Err e => E e end.
Definition nsafe {S} (E : exn -> Prop) (I : S -> Prop) (x : nxt * S) : Prop :=
  I (snd x) /\ match fst x with Raise e => E e | _ => True end.
(** a LazyStream without a length whose producer has [I] *)
Definition lsI {P} (I : P -> Prop) (s : lstream P) : Prop :=
  match ls_prod s with Some p => I p | None => True end /\ ls_remaining s = None.
Definition size_ok (n : option Z) : Prop := match n with Some z => (0 <= z)%Z | None => True end.

(** ** LazyStream *)
Section Stream.
  Context {P : Type} (pnext : P -> nxt * P) (E : exn -> Prop) (I : P -> Prop).
  Context (HF : E OutOfFuel) (HT : E TypeError) (HS : E SuspiciousMultipartForm).
  Context (HP : forall p, I p -> nsafe E I (pnext p)).

  Lemma next_safe s : lsI I s -> nsafe E (lsI I) (ls_next pnext s).
  Proof.
    intros [H1 H2]. unfold ls_next. destruct (ls_left s) as [|c l].
    - destruct (ls_prod s) as [p|] eqn:Ep.
      + pose proof (HP p H1) as [A B]. destruct (pnext p) as [[c| |e] p']; cbn in *; (split; [split; [exact A|exact H2]|easy]).
      + split; [split; [cbn; now rewrite Ep|exact H2]|exact HT].
    - split; [split; [exact H1|exact H2]|exact Logic.I].
  Qed.
  Lemma unget_safe b s : lsI I s -> safe E (lsI I) (ls_unget b s).
  Proof.
    intros H. unfold ls_unget. destruct b as [|c b]; [now split|]. destruct (Nat.ltb _ _); split; try exact H; try easy.
  Qed.
  Lemma read_loop_safe : forall f n out s, (0 <= n)%Z -> lsI I s -> safe E (lsI I) (ls_read_loop pnext f n out s).
  Proof.
    induction f as [|f IH]; intros n out s Hn H; cbn [ls_read_loop]; [now split|].
    destruct (Z.eqb_spec n 0); [now split|]. destruct (Z.ltb_spec n 0); [lia|].
    pose proof (next_safe s H) as [A B]. destruct (ls_next pnext s) as [[c| |e] s1]; cbn in A, B; [|now split|now split].
    pose proof (unget_safe (skipn (Z.to_nat n) c) s1 A) as [C D].
    destruct (ls_unget _ s1) as [[u|e] s2]; cbn [fst snd] in C, D; [|now split].
    apply IH; [|exact C]. unfold zlen. pose proof (firstn_le_length (Z.to_nat n) c).
    assert (length (firstn (Z.to_nat n) c) <= Z.to_nat n) by (rewrite firstn_length; lia). lia.
  Qed.
  Lemma join_safe : forall f out s, lsI I s -> safe E (lsI I) (ls_join pnext f out s).
  Proof.
    induction f as [|f IH]; intros out s H; cbn [ls_join]; [now split|].
    pose proof (next_safe s H) as [A B]. destruct (ls_next pnext s) as [[c| |e] s1]; cbn in A, B; [now apply IH|now split|now split].
  Qed.
  Lemma read_safe f n s : size_ok n -> lsI I s -> safe E (lsI I) (ls_read pnext f n s).
  Proof.
    intros Hn H. unfold ls_read. destruct n as [z|].
    - now apply read_loop_safe.
    - destruct H as [H1 H2]. rewrite H2. apply join_safe. now split.
  Qed.
  Lemma drain_safe : forall f s, lsI I s -> safe E (lsI I) (ls_drain pnext f s).
  Proof.
    induction f as [|f IH]; intros s H; cbn [ls_drain]; [now split|].
    pose proof (next_safe s H) as [A B]. destruct (ls_next pnext s) as [[c| |e] s1]; cbn in A, B; [now apply IH|now split|now split].
  Qed.

  (** ** BoundaryIter *)
  Definition biI (b : biter P) : Prop := lsI I (bi_stream b).
  Lemma bi_init_safe f s D : lsI I s ->
    match bi_init pnext f s D with
    | (Err InputStreamExhausted, s1) => lsI I s1
    | (Err e, s1) => lsI I s1 /\ E e
    | (Ok b, s1) => lsI I s1 /\ biI b
    end.
  Proof.
    intros H. unfold bi_init. pose proof (read_safe f (Some 1%Z) s ltac:(cbn; lia) H) as [A B].
    destruct (ls_read pnext f (Some 1%Z) s) as [[c|e] s1]; cbn [fst snd] in A, B; [|now destruct e].
    destruct c as [|c0 c]; [exact A|]. pose proof (unget_safe (c0 :: c) s1 A) as [C D'].
    destruct (ls_unget (c0 :: c) s1) as [[u|e] s2]; cbn [fst snd] in C, D'; [now split|now destruct e].
  Qed.
  Lemma collect_safe rb : forall f n acc s, lsI I s -> safe E (lsI I) (bi_collect pnext f rb n acc s).
  Proof.
    induction f as [|f IH]; intros n acc s H; cbn [bi_collect]; [now split|].
    pose proof (next_safe s H) as [A B]. destruct (ls_next pnext s) as [[c| |e] s1]; cbn in A, B; [|now split|now split].
    destruct (Nat.ltb rb _); [now split|]. destruct c; [now split|]. now apply IH.
  Qed.
  Lemma bi_next_safe f b : biI b -> nsafe E biI (bi_next pnext f b).
  Proof.
    intros H. unfold bi_next. destruct (bi_done b); [now split|].
    pose proof (collect_safe (rollback (bi_boundary b)) f 0 [] (bi_stream b) H) as [A B].
    destruct (bi_collect _ _ _ _ _ _) as [[[chunks ended]|e] s1]; cbn [fst snd] in A, B; [|now split].
    destruct chunks as [|c0 chunks]; [now split|]. destruct (find_boundary _ _) as [[e n]|].
    - pose proof (unget_safe (skipn n (concat (c0 :: chunks))) s1 A) as [C D].
      destruct (ls_unget _ s1) as [[u|x] s2]; cbn [fst snd] in C, D; now split.
    - destruct (upto_neg _ _) as [|x y]; [now split|].
      pose proof (unget_safe (from_neg (rollback (bi_boundary b)) (concat (c0 :: chunks))) s1 A) as [C D].
      destruct (ls_unget _ s1) as [[u|z] s2]; cbn [fst snd] in C, D; now split.
  Qed.
End Stream.

(** ** QueryDict *)
Lemma unquote_err reg enc s e : unquote reg enc s = Err e -> e = LookupError.
Proof. unfold unquote. destruct (mem _ _); [|easy]. destruct (reg enc); [easy|]. intros H. now injection H. Qed.
Lemma qsl_loop_err reg enc blank e : forall l, qsl_loop reg enc blank l = Err e -> e = LookupError.
Proof.
  induction l as [|nv l IH]; cbn [qsl_loop]; [easy|]. destruct (qsl_field blank nv) as [[n v]|]; [|exact IH].
  destruct (unquote reg enc (replacec plus 32%N n)) as [x|e1] eqn:E1; cbn [bind].
  - destruct (unquote reg enc (replacec plus 32%N v)) as [y|e2] eqn:E2; cbn [bind].
    + destruct (qsl_loop reg enc blank l) as [r|e3]; cbn [bind]; [easy|]. intros H. injection H as <-. now apply IH.
    + intros H. injection H as <-. now apply unquote_err in E2.
  - intros H. injection H as <-. now apply unquote_err in E1.
Qed.
Lemma querydict_err reg st qs mut e : querydict reg (Some st) qs mut = Err e -> e = LookupError \/ e = TooManyFieldsSent.
Proof.
  unfold querydict. set (p := match qs with Some p => _ | None => _ end). clearbody p.
  assert (HQ : forall e1, query_text reg (qs_charset st) p = Err e1 -> e1 = LookupError).
  { intros e1. unfold query_text, decode. destruct p as [b|u]; [|easy]. destruct (reg _) as [c|].
    - destruct (c_dec c b); [easy|]. easy.
    - intros H. now injection H. }
  destruct (query_text _ _ _) as [text|e1]; cbn [bind].
  - unfold limited_parse_qsl. destruct (qsl_pairs (qs_limit st) text) as [l|e2] eqn:E2; cbn [bind].
    + destruct (qsl_loop _ _ _ l) as [r|e3] eqn:E3; cbn [bind].
      * pose proof (q_fill_spec reg r (mkQD (qs_charset st) true []) eq_refl) as Hf.
        destruct (q_fill reg r _) as [r1 q]. destruct Hf as (-> & _). easy.
      * intros H. injection H as <-. left. now apply qsl_loop_err in E3.
    + intros H. injection H as <-. right. unfold qsl_pairs in E2. destruct (qs_limit st) as [z|]; [|easy].
      destruct (Z.eqb z 0); [easy|]. destruct (Z.ltb z _); [|easy]. now injection E2.
  - intros H. injection H as <-. left. now apply HQ.
Qed.

(** ** The multipart parser *)
Section Multi.
  Context {R : Type} (rd : nat -> R -> res str * R) (exh : R -> res unit * R).
  Context (reg : registry) (name2cp : str -> option N) (mk_temp : str -> res unit).
  Context (st : mset) (D : str) (fuel : nat).
  Context (E : exn -> Prop) (I : R -> Prop).
  Context (HE : forall e, In e [OutOfFuel; TypeError; SuspiciousMultipartForm; LookupError; TooManyFieldsSent; RequestDataTooBig;
             AttributeError; UnicodeDecodeError; UnicodeEncodeError; OverflowError] \/ temp_fails mk_temp e -> E e).
  Context (HR : forall n r, I r -> safe E I (rd n r)) (HX : forall r, I r -> safe E I (exh r)).

  Ltac ine := apply HE; left; cbn; tauto.
  Lemma E_fuel : E OutOfFuel. Proof. ine. Qed.
  Lemma E_type : E TypeError. Proof. ine. Qed.
  Lemma E_susp : E SuspiciousMultipartForm. Proof. ine. Qed.
  Lemma E_attr : E AttributeError. Proof. ine. Qed.

  Definition I1 (c : chunkiter R) : Prop := I (ci_flo c).
  Lemma ci_next_safe c : I1 c -> nsafe E I1 (ci_next rd c).
  Proof.
    intros H. unfold ci_next. pose proof (HR (ci_size c) (ci_flo c) H) as [A B].
    destruct (rd (ci_size c) (ci_flo c)) as [[d|e] s]; cbn [fst snd] in A, B.
    - destruct d; now split.
    - destruct e; now split.
  Qed.
  Notation L1I := (lsI I1).
  Notation L2I := (lsI (biI I1)).
  Notation pn1 := (ci_next rd).
  Notation pn2 := (bi_next pn1 fuel).
  Lemma pn2_safe b : biI I1 b -> nsafe E (biI I1) (pn2 b).
  Proof. apply bi_next_safe; [apply E_fuel|apply E_type|apply E_susp|apply ci_next_safe]. Qed.

  Definition inner_read := read_safe pn2 E (biI I1) E_fuel E_type E_susp pn2_safe.
  Definition inner_next := next_safe pn2 E (biI I1) E_type pn2_safe.
  Definition inner_unget := unget_safe (P := biter (chunkiter R)) E (biI I1) E_susp.

  Lemma boundary_stream_safe s : L2I s -> safe E L2I (parse_boundary_stream rd reg fuel s).
  Proof.
    intros H. unfold parse_boundary_stream.
    pose proof (inner_read fuel (Some MAX_PART_HEADER) s ltac:(discriminate) H) as [A B].
    destruct (ls_read _ fuel (Some MAX_PART_HEADER) s) as [[c|e] s1]; cbn [fst snd] in A, B; [|now split].
    destruct (find crlfcrlf c) as [i|].
    - pose proof (inner_unget (skipn (i + 4) c) s1 A) as [A1 B1].
      destruct (ls_unget _ s1) as [[u|e] s2]; cbn [fst snd] in A1, B1; [|now split].
      destruct (header_meta _ _ _ _) as [[ty m]|e] eqn:EM.
      + destruct ty; try (now split). pose proof (inner_unget c s2 A1) as [A2 B2].
        destruct (ls_unget c s2) as [[u2|e] s3]; cbn [fst snd] in A2, B2; now split.
      + split; [exact A1|]. apply header_meta_err in EM as ->. ine.
    - pose proof (inner_unget c s1 A) as [A1 B1]. destruct (ls_unget c s1) as [[u|e] s2]; cbn [fst snd] in A1, B1; now split.
  Qed.

  (** the fields counted so far are within the limit *)
  Definition bounded (p : pst) : Prop := match ms_dmem st with Some n => (p_bytes p <= n)%Z | None => True end.
  Definition presult (p : pst) (x : res pst * lstream (biter (chunkiter R))) : Prop :=
    L2I (snd x) /\ match fst x with Ok q => bounded q | Err e => E e end.

  Lemma read_field_safe name tenc m p s : bounded p -> L2I s -> presult p (read_field rd reg st fuel name tenc m p s).
  Proof.
    intros Hp H. unfold read_field.
    destruct (match ms_dnum st with Some n => _ | None => false end); [split; [exact H|ine]|].
    pose proof (inner_read fuel (option_map (fun n => (n - p_bytes p)%Z) (ms_dmem st)) s) as HRD.
    destruct HRD as [A B]; [unfold bounded in Hp; destruct (ms_dmem st); cbn; [lia|exact Logic.I]|exact H|].
    destruct (ls_read _ fuel _ s) as [[raw|e] s1]; cbn [fst snd] in A, B; [|now split].
    match goal with |- presult _ (match ?x with _ => _ end) => destruct x as [data|e] eqn:ED end.
    2:{ split; [exact A|]. cbn. destruct tenc as [t|]; [|easy]. destruct (seqb t _); [|easy]. apply b64decode_err in ED as ->. ine. }
    destruct (match ms_dmem st with Some n => Z.ltb n _ | None => false end) eqn:EL; [split; [exact A|ine]|].
    match goal with |- presult _ (let (ct, extra) := ?x in _) => destruct x as [ct extra] end.
    match goal with |- presult _ (match ?x with _ => _ end) => destruct x as [post|e] eqn:EP end.
    - split; [exact A|]. cbn. unfold bounded. destruct (ms_dmem st) as [n|]; [|exact Logic.I]. cbn [p_bytes].
      apply Z.ltb_ge in EL. exact EL.
    - split; [exact A|]. cbn. apply post_append_err in EP as [-> | ->]; ine.
  Qed.

  Lemma b64_fill_safe : forall n acc s, L2I s -> safe E L2I (b64_fill rd fuel n acc s).
  Proof.
    induction n as [|n IH]; intros acc s H; cbn [b64_fill]; [split; [exact H|apply E_fuel]|].
    destruct (Nat.eqb _ 0); [now split|].
    pose proof (inner_read fuel (Some (Z.of_nat (4 - Nat.modulo (length acc) 4))) s ltac:(cbn [size_ok]; lia) H) as [A B].
    destruct (ls_read _ fuel _ s) as [[over|e] s1]; cbn [fst snd] in A, B; [now apply IH|now split].
  Qed.
  Lemma file_loop_safe b64 : forall n hs cs s, L2I s -> safe E L2I (file_loop rd mk_temp st fuel n b64 hs cs s).
  Proof.
    induction n as [|n IH]; intros hs cs s H; cbn [file_loop]; [split; [exact H|apply E_fuel]|].
    pose proof (inner_next s H) as [A B].
    destruct (ls_next _ s) as [[c| |e] s1]; cbn [fst snd] in A, B; [|now split|now split].
    match goal with |- safe _ _ (match ?x with _ => _ end) => assert (HX2 : safe E L2I x) end.
    { destruct b64; [|now split]. pose proof (b64_fill_safe fuel (remove_ws c) s1 A) as [A1 B1].
      destruct (b64_fill _ _ _ _ s1) as [[g|e] s2]; cbn [fst snd] in A1, B1; [|now split].
      destruct (b64decode g); split; try exact A1; [exact Logic.I|apply E_type]. }
    match goal with |- safe _ _ (match ?x with _ => _ end) => destruct x as [[d|e] s2] end; destruct HX2 as [A1 B1]; cbn [fst snd] in A1, B1; [|now split].
    destruct (feed mk_temp (ms_fmem st) d hs cs) as [[hs1 cs1]|e] eqn:EF; [now apply IH|].
    split; [exact A1|]. cbn. apply feed_err in EF as [->|EF]; [apply E_attr|]. apply HE. now right.
  Qed.
  Lemma read_file_safe name tenc disp m p s : bounded p -> L2I s ->
    presult p (read_file rd name2cp mk_temp st fuel name tenc disp m p s).
  Proof.
    intros Hp H. unfold read_file.
    match goal with |- presult _ (match ?x with _ => _ end) => destruct x as [fn|e] eqn:EN end.
    2:{ split; [exact H|]. cbn. destruct (dget !"filename" disp) as [f|]; [|easy]. destruct (pnonempty f); [|easy].
      destruct (to_native f) as [f1|e1] eqn:E1; cbn [bind] in EN.
      - destruct (unescape_entities name2cp f1) as [f2|e2] eqn:E2; cbn [bind] in EN; [easy|].
        injection EN as <-. apply unescape_err in E2 as ->. ine.
      - injection EN as <-. apply to_native_err in E1 as ->. ine. }
    destruct fn as [|c0 fn]; [now split|].
    match goal with |- presult _ (let (ct, extra) := ?x in _) => destruct x as [ct extra] end.
    match goal with |- presult _ (match ?x with _ => _ end) => destruct x as [hs|e] eqn:EH end.
    2:{ split; [exact H|]. cbn. apply new_files_err in EH as [->|EH]; [apply E_attr|]. apply HE. now right. }
    match goal with |- presult _ (match file_loop ?rd ?mk ?st ?fuel ?n ?b ?hs ?cs ?s with _ => _ end) =>
      pose proof (file_loop_safe b n hs cs s H) as [A B]; destruct (file_loop rd mk st fuel n b hs cs s) as [[[hs1 cs1]|e] s1] end;
      cbn [fst snd] in A, B; [|now split].
    split; [exact A|exact Hp].
  Qed.
  Lemma one_part_safe ty m p s : bounded p -> L2I s -> presult p (one_part rd reg name2cp mk_temp st fuel ty m p s).
  Proof.
    intros Hp H. unfold one_part. destruct (dget CDISP m) as [[v disp]|]; [|now split].
    destruct (dget !"name" disp) as [raw|]; [|now split].
    destruct (to_native (pstrip raw)) as [name|e] eqn:EN.
    - destruct ty; [now split|now apply read_file_safe|now apply read_field_safe].
    - split; [exact H|]. cbn. apply to_native_err in EN as ->. ine.
  Qed.
  Lemma outer_I s1 s2 : L1I s1 -> L2I s2 -> L1I (outer_of s1 s2).
  Proof. intros H [H2 _]. unfold outer_of. destruct (ls_prod s2); [exact H2|exact H]. Qed.
  Lemma finish_bounded p p1 : finish_file p = Ok p1 -> bounded p -> bounded p1.
  Proof.
    unfold finish_file. destruct (p_old p); [intros HH; now injection HH as <-|].
    destruct (file_complete _ _ _ _); cbn [bind]; [|easy]. intros HH. injection HH as <-. easy.
  Qed.
  Lemma parts_loop_safe : forall n p s, bounded p -> L1I s ->
    safe E L1I (parts_loop rd reg name2cp mk_temp st D fuel n p s).
  Proof.
    induction n as [|n IH]; intros p s Hp H; cbn [parts_loop]; [split; [exact H|apply E_fuel]|].
    pose proof (bi_init_safe pn1 E I1 E_fuel E_type E_susp ci_next_safe fuel s D H) as HB.
    destruct (bi_init pn1 fuel s D) as [[b|e] s1].
    2:{ destruct e; now split. }
    destruct HB as [A HB]. pose proof (boundary_stream_safe (ls_init b None) (conj HB eq_refl)) as [A1 B1].
    destruct (parse_boundary_stream rd reg fuel (ls_init b None)) as [[[ty m]|e] s2]; cbn [fst snd] in A1, B1.
    2:{ split; [now apply outer_I|exact B1]. }
    destruct (finish_file p) as [p1|e] eqn:EF.
    2:{ split; [now apply outer_I|]. cbn. apply finish_err in EF as ->. apply E_attr. }
    pose proof (one_part_safe ty m p1 s2 (finish_bounded _ _ EF Hp) A1) as [A2 B2].
    destruct (one_part rd reg name2cp mk_temp st fuel ty m p1 s2) as [[p2|e] s3]; cbn [fst snd] in A2, B2.
    - apply IH; [exact B2|now apply outer_I].
    - split; [now apply outer_I|exact B2].
  Qed.
  Lemma input_I r s : I r -> L1I s -> I (input_of r s).
  Proof. intros H [H2 _]. unfold input_of. destruct (ls_prod s); [exact H2|exact H]. Qed.

  Theorem mp_parse_safe csize len hs r : size_ok (ms_dmem st) -> I r ->
    safe E I (mp_parse rd exh reg name2cp mk_temp st D fuel csize len hs r).
  Proof.
    intros Hd H. unfold mp_parse. destruct (querydict reg (Some (ms_query st)) None true) as [q|e] eqn:EQ.
    2:{ split; [exact H|]. cbn. apply querydict_err in EQ as [-> | ->]; ine. }
    destruct (Z.eqb len 0); [now split|]. cbv zeta.
    match goal with |- safe _ _ (match parts_loop _ _ _ _ _ _ _ _ ?p ?s with _ => _ end) =>
      assert (HL : safe E L1I (parts_loop rd reg name2cp mk_temp st D fuel fuel p s)) end.
    { apply parts_loop_safe; [|now split]. unfold bounded. cbn. unfold size_ok in Hd. now destruct (ms_dmem st). }
    match goal with |- safe _ _ (match ?x with _ => _ end) => destruct x as [[p|e] s1] end; destruct HL as [A B]; cbn [fst snd] in A, B.
    - pose proof (HX (input_of r s1) (input_I _ _ H A)) as [A1 B1].
      destruct (exh (input_of r s1)) as [[u|e] r1]; now split.
    - split; [now apply input_I|exact B].
  Qed.
End Multi.
