(** * C137: what has not arrived yet cannot change what was decided *)
From Coq Require Import ZifyBool ZifyN ZifyNat.
From Verif Require Import Py PyFacts PyDict Spec StreamModel StreamSpec StreamFacts CodecModel QueryModel
  Base64Model HeaderModel BoundaryModel UploadModel MultipartModel MultipartDet FormSpec CustomModel CustomLib CustomCausal
  PropsData PropsPart PropsMultipart PropsCustom.

(** the same items are still to come, then a failure or something else *)
Definition until (e : exn) (t : src) (a b : src) : Prop := exists x, a = x ++ [SFail e] /\ b = x ++ t.
Lemma until_read e t n : forall a b, until e t a b -> rup e (until e t) (src_read n a) (src_read n b).
Proof.
  intros a b (x & -> & ->). induction x as [|[d|y] x IH]; cbn [app src_read].
  - now left.
  - destruct d as [|c d]; [exact IH|]. right. cbn [fst snd]. split; [reflexivity|]. destruct (skipn n (c :: d)) as [|c1 d1]; [now exists x|].
    now exists (SData (c1 :: d1) :: x).
  - right. split; [reflexivity|]. now exists x.
Qed.
Lemma until_exhaust e t : forall a b, until e t a b -> rup e (until e t) (it_exhaust a) (it_exhaust b).
Proof.
  intros a b (x & -> & ->). induction x as [|[d|y] x IH]; cbn [app it_exhaust]; [now left|exact IH|]. right. split; [reflexivity|]. now exists x.
Qed.

(** [s ++ [SFail e]]: the input fails, with an exception that did not come out, after [s].  Then whatever comes after
    [s] instead, the outcome, the handlers and what was left of [s] are the same. *)
Theorem C137_handlers :
  forall reg name2cp st D fuel S F X (O : ops S F X) truthy len csize hs s e t,
  let run x := c_parse src_read it_exhaust reg name2cp st D fuel O truthy len csize hs x in
  e <> InputStreamExhausted -> fst (fst (run (s ++ [SFail e]))) <> Bad (CExn e) ->
  fst (run (s ++ t)) = fst (run (s ++ [SFail e])) /\
  exists left, snd (run (s ++ [SFail e])) = left ++ [SFail e] /\ snd (run (s ++ t)) = left ++ t.
Proof.
  intros reg name2cp st D fuel S F X O truthy len csize hs s e t run Hne H.
  destruct (parse_up e Hne src_read src_read (until e t) (fun n => until_read e t n) reg name2cp st D fuel O truthy it_exhaust it_exhaust (until_exhaust e t)
    len csize hs (s ++ [SFail e]) (s ++ t) ltac:(now exists s)) as [E|[E (x & E1 & E2)]]; [now contradiction H|]. split; [now symmetry|now exists x].
Qed.
Print Assumptions C137_handlers.

Theorem C137_parser :
  forall reg name2cp mk_temp st D fuel csize len hs s e t,
  let run x := fst (parse_src reg name2cp mk_temp st D fuel csize len hs x) in
  e <> InputStreamExhausted -> run (s ++ [SFail e]) <> Err e -> run (s ++ t) = run (s ++ [SFail e]).
Proof.
  intros reg name2cp mk_temp st D fuel csize len hs s e t run Hne H. unfold run, parse_src in *.
  destruct (lib_parse src_read it_exhaust reg name2cp mk_temp st D fuel csize len hs (s ++ [SFail e])) as [H1 _].
  destruct (lib_parse src_read it_exhaust reg name2cp mk_temp st D fuel csize len hs (s ++ t)) as [H2 _]. cbv zeta in H1, H2.
  destruct (C137_handlers reg name2cp st D fuel _ _ _ (lib_ops mk_temp (ms_fmem st)) file_truthy len csize hs s e t Hne) as [E _].
  - intros E. rewrite E in H1. destruct (fst (mp_parse src_read it_exhaust reg name2cp mk_temp st D fuel csize len hs (s ++ [SFail e]))) as [[post files]|x]; [discriminate H1|].
    apply H. now injection H1 as ->.
  - rewrite E in H2. destruct (fst (mp_parse src_read it_exhaust reg name2cp mk_temp st D fuel csize len hs (s ++ [SFail e]))) as [[post files]|x],
      (fst (mp_parse src_read it_exhaust reg name2cp mk_temp st D fuel csize len hs (s ++ t))) as [[post2 files2]|y]; rewrite H1 in H2; try discriminate H2; now injection H2 as -> ->  || injection H2 as ->.
Qed.
Print Assumptions C137_parser.

(** one field is allowed; two fields and the start of a third have arrived *)
Definition ex_one : mset := mkMS !"utf-8" (Some 100%Z) (Some 1000%Z) (Some 1%Z).
Definition ex_arrived : str := firstn 150 (render_form !"--X" (repeat (mkPart !"f" None None false !"v" !"v") 3)).
Example C137_case : fst (parse_src ex_reg no_cp ok_temp ex_one !"--X" 400 16 1%Z default_handler ([SData ex_arrived] ++ [SFail IOError])) = Err TooManyFieldsSent.
Proof. vm_compute. reflexivity. Qed.
