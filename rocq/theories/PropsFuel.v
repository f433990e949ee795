(** * C28, continued: the answers of the parser, and the parses that have none *)
From Verif Require Import Py Spec PyFacts PyDict StreamModel StreamSpec StreamFacts CodecModel QueryModel HeaderModel Base64Model
  BoundaryModel BoundarySpec PartFacts UploadModel UploadFacts MultipartModel MultipartSem MultipartFacts MultipartSpec MultipartDet FormSpec BodySpec
  FuelFacts PropsData PropsPart PropsMultipart.

(** an answer does not depend on how many steps the parser is granted: for every source, also one
    that fails, every list of handlers and all settings *)
Theorem C28_answers :
  forall reg name2cp mk_temp st D fuel fuel' csize len hs s, fuel <= fuel' ->
    fst (parse_src reg name2cp mk_temp st D fuel csize len hs s) <> Err OutOfFuel ->
    parse_src reg name2cp mk_temp st D fuel' csize len hs s = parse_src reg name2cp mk_temp st D fuel csize len hs s.
Proof.
  intros reg name2cp mk_temp st D fuel fuel' csize len hs s Hf. exact (parse_le src_read it_exhaust reg name2cp mk_temp st D fuel fuel' Hf csize len hs s).
Qed.
Print Assumptions C28_answers.

(** a parse that has not ended after a number of steps linear in the body never ends *)
Theorem C28_endless_exact :
  forall reg name2cp mk_temp st D s body csize len hs fuel, delimiter D -> arrives s body csize len fuel ->
    fst (parse_src reg name2cp mk_temp st D fuel csize len hs s) = Err OutOfFuel ->
    forall fuel', fst (parse_src reg name2cp mk_temp st D fuel' csize len hs s) = Err OutOfFuel.
Proof.
  intros reg name2cp mk_temp st D s body csize len hs fuel HD (A1 & He & Hc & Hl & Hf) HO fuel'.
  destruct (Nat.le_gt_cases fuel fuel') as [Hle|Hgt].
  - destruct (chunkiter_yields s csize Hc ltac:(now rewrite He)) as (cs & q & HY & HC & HF).
    rewrite He in HY.
    assert (HN : Forall (fun c => c <> []) cs).
    { eapply Forall_impl; [|exact HF]. intros c Hx ->. cbn in Hx. lia. }
    assert (HLc : length cs <= length (concat cs)).
    { clear -HF. induction HF as [|c cs Hx _ IH]; [easy|]. cbn. rewrite app_length. lia. }
    rewrite <- A1, <- HC in Hf.
    apply (parse_hang src_read it_exhaust reg name2cp mk_temp st D s csize cs q len hs fuel fuel' (delim_dok D HD) HY HN ltac:(lia) Hle); [|exact HO].
    now rewrite (src_end s csize cs q He HY Hc).
  - destruct (parse_src reg name2cp mk_temp st D fuel' csize len hs s) as [o s1] eqn:E.
    assert (HX : o = Err OutOfFuel \/ o <> Err OutOfFuel) by (destruct o as [v|[]]; auto; right; discriminate).
    destruct HX as [HX|HX]; [exact HX|]. rewrite (C28_answers _ _ _ _ _ fuel' fuel csize len hs s ltac:(lia)) in HO; rewrite E in *; exact HO || exact HX.
Qed.
Print Assumptions C28_endless_exact.

(** a file that ends inside a group of four base64 characters, and one that does not *)
Example C28_exact_case :
  let body := fun raw => render_form !"--X" [mkPart !"f" (Some !"x") None true raw []] in
  let run := fun fuel raw => fst (parse_src ex_reg no_cp ok_temp ex_ms !"--X" fuel 64 1%Z default_handler [SData (body raw)]) in
  let k := 2 * length (body !"YWJjZ") + 4 in
  run k !"YWJjZ" = Err OutOfFuel /\ (exists o, run k !"YWJj" = Ok o) /\ run (k + 10) !"YWJjZ" = Err OutOfFuel /\ run (k + 10) !"YWJj" = run k !"YWJj".
Proof. vm_compute. split; [reflexivity|]. split; [eexists; reflexivity|]. split; reflexivity. Qed.
