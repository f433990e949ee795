(** * Two lists of handlers that behave alike give the same parse: a simulation theorem for [c_parse] *)
From Verif Require Import Py PyFacts PyDict StreamModel CodecModel QueryModel Base64Model HeaderModel
  BoundaryModel UploadModel MultipartModel CustomModel.

(** dictionaries of files, key by key and file by file *)
Definition same_item {F1 F2} (RF : F1 -> F2 -> Prop) (a : str * list F1) (b : str * list F2) : Prop :=
  fst a = fst b /\ Forall2 RF (snd a) (snd b).
Definition same_files {F1 F2} (RF : F1 -> F2 -> Prop) : dict (list F1) -> dict (list F2) -> Prop := Forall2 (same_item RF).
Definition same_cr {A B} (RA : A -> B -> Prop) (a : cr A) (b : cr B) : Prop :=
  match a, b with Good x, Good y => RA x y | Bad x, Bad y => x = y | _, _ => False end.
Lemma same_files_get {F1 F2} (RF : F1 -> F2 -> Prop) name d1 d2 : same_files RF d1 d2 ->
  match dget name d1, dget name d2 with Some l1, Some l2 => Forall2 RF l1 l2 | None, None => True | _, _ => False end.
Proof.
  induction 1 as [|[k1 l1] [k2 l2] d1 d2 [E H1] H IH]; [exact I|]. cbn in E, H1. subst k2. cbn. now destruct (seqb name k1).
Qed.
Lemma same_files_set {F1 F2} (RF : F1 -> F2 -> Prop) name l1 l2 d1 d2 : same_files RF d1 d2 -> Forall2 RF l1 l2 ->
  same_files RF (dset name l1 d1) (dset name l2 d2).
Proof.
  intros H HL. induction H as [|[k1 x1] [k2 x2] d1 d2 [E H1] H IH]; [now repeat constructor|]. cbn in E, H1. subst k2. cbn.
  destruct (seqb name k1); (constructor; [now split|]); [exact H|exact IH].
Qed.
Lemma same_append {F1 F2} (RF : F1 -> F2 -> Prop) name f1 f2 d1 d2 : same_files RF d1 d2 -> RF f1 f2 ->
  same_files RF (gappend name f1 d1) (gappend name f2 d2).
Proof.
  intros H Hf. unfold gappend. pose proof (same_files_get RF name d1 d2 H) as HG. apply same_files_set; [exact H|].
  apply Forall2_app; [|now constructor]. destruct (dget name d1), (dget name d2); easy.
Qed.

Section Par.
  Context {S1 F1 X1 S2 F2 X2 : Type} (O1 : ops S1 F1 X1) (O2 : ops S2 F2 X2) (t1 : F1 -> bool) (t2 : F2 -> bool).
  Context (RF : F1 -> F2 -> Prop) (RX : X1 -> X2 -> Prop).
  (** the handlers and their counters: at any time, and while a file is open *)
  Context (RI RO : list S1 * list nat -> list S2 * list nat -> Prop).
  Definition zeros {S} (hs : list S) : list nat := map (fun _ => 0) hs.
  Definition after_new (a : cr unit * list S1) (b : cr unit * list S2) (n1 n2 : list nat) : Prop :=
    fst a = fst b /\ match fst a with Good _ => RO (snd a, n1) (snd b, n2) | Bad _ => RI (snd a, n1) (snd b, n2) end.
  Record alike : Prop := {
    al_open : forall x y, RO x y -> RI x y;
    al_new : forall i len x y, RI x y -> after_new (c_new O1 i len (fst x)) (c_new O2 i len (fst y)) (zeros (fst x)) (zeros (fst y));
    al_feed : forall d x y, RO x y -> fst (c_feed O1 d (fst x) (snd x)) = fst (c_feed O2 d (fst y) (snd y)) /\
                match fst (c_feed O1 d (fst x) (snd x)) with
                | Good _ => RO (snd (c_feed O1 d (fst x) (snd x))) (snd (c_feed O2 d (fst y) (snd y)))
                | Bad _ => RI (snd (c_feed O1 d (fst x) (snd x))) (snd (c_feed O2 d (fst y) (snd y)))
                end;
    al_done : forall name x y f1 f2, RO x y -> same_files RF f1 f2 ->
                let a := c_complete O1 t1 name (fst x) (snd x) f1 in
                let b := c_complete O2 t2 name (fst y) (snd y) f2 in
                same_cr (same_files RF) (fst a) (fst b) /\ RI (snd a, snd x) (snd b, snd y);
    al_close : forall x y, RI x y -> fst (c_close O1 (fst x)) = fst (c_close O2 (fst y)) /\
                RI (snd (c_close O1 (fst x)), snd x) (snd (c_close O2 (fst y)), snd y);
    al_end : forall x y, RI x y -> fst (c_end O1 (fst x)) = fst (c_end O2 (fst y)) }.
  Context (AL : alike).

  Context {R : Type} (rd : nat -> R -> res str * R) (exh : R -> res unit * R).
  Context (reg : registry) (name2cp : str -> option N).
  Context (st1 st2 : mset) (D : str) (fuel : nat).
  (** the settings may differ in FILE_UPLOAD_MAX_MEMORY_SIZE, which only the handlers look at *)
  Context (Hc : ms_charset st1 = ms_charset st2) (Hd : ms_dmem st1 = ms_dmem st2) (Hn : ms_dnum st1 = ms_dnum st2).

  Definition same_end (p : cst S1 F1) (q : cst S2 F2) : Prop :=
    c_core p = c_core q /\ same_files RF (c_files p) (c_files q) /\ RI (c_hs p, c_counters p) (c_hs q, c_counters q).
  Definition same_st (p : cst S1 F1) (q : cst S2 F2) : Prop :=
    same_end p q /\ c_old p = c_old q /\ (c_old p <> [] -> RO (c_hs p, c_counters p) (c_hs q, c_counters q)).
  Definition same_out (a : cr unit * cst S1 F1) (b : cr unit * cst S2 F2) : Prop :=
    fst a = fst b /\ match fst a with Good _ => same_st (snd a) (snd b) | Bad _ => same_end (snd a) (snd b) end.
  Lemma st_end p q : same_st p q -> same_end p q.
  Proof. now intros []. Qed.
  Lemma par_finish p q : same_st p q -> same_out (c_finish O1 t1 p) (c_finish O2 t2 q).
  Proof.
    intros ((H1 & H2 & H4) & H3 & H5). unfold c_finish. rewrite <- H3. destruct (c_old p) as [|x l] eqn:E.
    { split; [reflexivity|]. cbn [fst snd]. split; [now repeat split|]. rewrite E. split; [exact H3|]. intros HH. now contradiction HH. }
    destruct (al_done AL (x :: l) _ _ _ _ (H5 ltac:(easy)) H2) as [HA HB]. cbn [fst snd] in HA, HB.
    destruct (c_complete O1 t1 (x :: l) (c_hs p) (c_counters p) (c_files p)) as [[f1|e1] hs1],
      (c_complete O2 t2 (x :: l) (c_hs q) (c_counters q) (c_files q)) as [[f2|e2] hs2]; cbn [fst snd same_cr] in *; try easy.
    subst e2. split; [reflexivity|]. now repeat split.
  Qed.
  Notation pn2 := (bi_next (ci_next rd) fuel).
  Lemma par_file_loop b64 : forall n x y s, RO x y ->
    let a := c_file_loop rd fuel O1 n b64 (fst x) (snd x) s in let b := c_file_loop rd fuel O2 n b64 (fst y) (snd y) s in
    fst (fst a) = fst (fst b) /\ snd a = snd b /\
    match fst (fst a) with Good _ => RO (snd (fst a)) (snd (fst b)) | Bad _ => RI (snd (fst a)) (snd (fst b)) end.
  Proof.
    cbv zeta. induction n as [|n IH]; intros [hs1 cs1] [hs2 cs2] s H; pose proof (al_open AL _ _ H) as HI; [easy|]. cbn [c_file_loop].
    destruct (ls_next pn2 s) as [[c| |e] s1]; [|easy|easy].
    destruct (if b64 then _ else _) as [[d|e] s2]; [|easy]. destruct (al_feed AL d _ _ H) as [HA HB].
    cbn [fst snd] in *. destruct (c_feed O1 d hs1 cs1) as [[u1|x1] hc1], (c_feed O2 d hs2 cs2) as [[u2|x2] hc2]; cbn [fst snd] in *; try easy.
    now apply IH.
  Qed.
  Lemma par_deliver i len b64 p q s : same_end p q ->
    let a := c_deliver rd fuel O1 i len b64 p s in let b := c_deliver rd fuel O2 i len b64 q s in
    same_out (fst a) (fst b) /\ snd a = snd b.
  Proof.
    intros (H1 & H2 & H4). cbv zeta. unfold c_deliver. cbv zeta.
    assert (HSk : forall x y s1, RI x y ->
      let a := match c_close O1 (fst x) with
         | (Bad z, hs1) => ((Bad z, mkC (c_core p) (c_files p) [] (snd x) hs1), s1)
         | (Good _, hs1) => match ls_drain pn2 fuel s1 with
                            | (Err e, s2) => ((Bad (CExn e), mkC (c_core p) (c_files p) [] (snd x) hs1), s2)
                            | (Ok _, s2) => ((Good tt, mkC (c_core p) (c_files p) [] (snd x) hs1), s2)
                            end
         end in
      let b := match c_close O2 (fst y) with
         | (Bad z, hs1) => ((Bad z, mkC (c_core q) (c_files q) [] (snd y) hs1), s1)
         | (Good _, hs1) => match ls_drain pn2 fuel s1 with
                            | (Err e, s2) => ((Bad (CExn e), mkC (c_core q) (c_files q) [] (snd y) hs1), s2)
                            | (Ok _, s2) => ((Good tt, mkC (c_core q) (c_files q) [] (snd y) hs1), s2)
                            end
         end in same_out (fst a) (fst b) /\ snd a = snd b).
    { cbv zeta. intros x y s1 H. destruct (al_close AL _ _ H) as [HA HB].
      destruct (c_close O1 (fst x)) as [[u1|z1] hs1], (c_close O2 (fst y)) as [[u2|z2] hs2]; cbn [fst snd] in *; try easy.
      destruct (ls_drain pn2 fuel s1) as [[u|e] s2]; (split; [|reflexivity]); now repeat split. }
    pose proof (al_new AL i len _ _ H4) as [HA HB]. cbn [fst snd] in HA, HB. unfold zeros in HB.
    destruct (c_new O1 i len (c_hs p)) as [[u1|x1] hs1], (c_new O2 i len (c_hs q)) as [[u2|x2] hs2]; cbn [fst snd] in *; try easy.
    - pose proof (par_file_loop b64 fuel _ _ s HB) as HF. cbn [fst snd] in HF.
      destruct (c_file_loop rd fuel O1 fuel b64 hs1 (map (fun _ => 0) (c_hs p)) s) as [[[v1|x1] [hs1' cs1]] s1],
        (c_file_loop rd fuel O2 fuel b64 hs2 (map (fun _ => 0) (c_hs q)) s) as [[[v2|x2] [hs2' cs2]] s2]; cbn [fst snd] in HF;
        destruct HF as (HF1 & HF2 & HF3); try easy; subst s2.
      + split; [|reflexivity]. split; [reflexivity|]. repeat split; try easy. exact (al_open AL _ _ HF3).
      + injection HF1 as <-. destruct x1; try (split; [|reflexivity]; now repeat split). exact (HSk _ _ s1 HF3).
    - injection HA as <-. destruct x1; try (split; [|reflexivity]; now repeat split). exact (HSk _ _ s HB).
  Qed.
  Lemma field_st name tenc m core s : read_field rd reg st1 fuel name tenc m core s = read_field rd reg st2 fuel name tenc m core s.
  Proof. unfold read_field. now rewrite Hc, Hd, Hn. Qed.
  Lemma par_part ty m p q s : same_st p q ->
    let a := c_part rd reg name2cp st1 fuel O1 ty m p s in let b := c_part rd reg name2cp st2 fuel O2 ty m q s in
    same_out (fst a) (fst b) /\ snd a = snd b.
  Proof.
    intros H. cbv zeta. unfold c_part, c_read_file. assert (HE : forall e, same_out (Bad (CExn e), p) (Bad (CExn e), q)).
    { intros e. split; [reflexivity|]. now apply st_end. }
    destruct (dget CDISP m) as [[v disp]|]; [|exact (conj (conj eq_refl H) eq_refl)].
    destruct (dget !"name" disp) as [raw|]; [|exact (conj (conj eq_refl H) eq_refl)]. cbv zeta.
    destruct (to_native (pstrip raw)) as [name|e]; [|split; [apply HE|reflexivity]]. destruct ty; [exact (conj (conj eq_refl H) eq_refl)| |].
    - destruct (match dget !"filename" disp with Some f => _ | None => _ end) as [[|x fn]|e]; [exact (conj (conj eq_refl H) eq_refl)| |split; [apply HE|reflexivity]].
      destruct (match dget !"content-type" m with Some v0 => _ | None => _ end) as [ct extra]. apply par_deliver. now apply st_end.
    - rewrite field_st. destruct H as ((H1 & H2 & H4) & H3 & H5). rewrite <- H1.
      destruct (read_field rd reg st2 fuel name _ m (c_core p) s) as [[core|e] s1]; (split; [|reflexivity]).
      + split; [reflexivity|]. now repeat split.
      + split; [reflexivity|]. now repeat split.
  Qed.
  Lemma par_loop : forall n p q s, same_st p q ->
    let a := c_loop rd reg name2cp st1 D fuel O1 t1 n p s in let b := c_loop rd reg name2cp st2 D fuel O2 t2 n q s in
    same_out (fst a) (fst b) /\ snd a = snd b.
  Proof.
    cbv zeta. induction n as [|n IH]; intros p q s H.
    { split; [|reflexivity]. split; [reflexivity|]. now apply st_end. }
    cbn [c_loop]. assert (HE : forall e, same_out (Bad (CExn e), p) (Bad (CExn e), q)).
    { intros e. split; [reflexivity|]. now apply st_end. }
    destruct (bi_init (ci_next rd) fuel s D) as [[b|e] s1].
    2:{ destruct e; first [exact (conj (conj eq_refl H) eq_refl) | split; [|reflexivity]; now apply HE]. }
    destruct (parse_boundary_stream rd reg fuel (ls_init b None)) as [[[ty m]|e] s2]; [|split; [|reflexivity]; now apply HE].
    destruct (par_finish p q H) as [HF HF2].
    destruct (c_finish O1 t1 p) as [[u1|x1] p1], (c_finish O2 t2 q) as [[u2|x2] q1]; cbn [fst snd] in HF, HF2; try easy.
    destruct (par_part ty m p1 q1 s2 HF2) as [[HP HP2] HP3].
    destruct (c_part rd reg name2cp st1 fuel O1 ty m p1 s2) as [[[v1|x1] p2] s3],
      (c_part rd reg name2cp st2 fuel O2 ty m q1 s2) as [[[v2|x2] q2] s3']; cbn [fst snd] in HP, HP2, HP3; try easy; subst s3'.
    - now apply IH.
    - injection HP as <-. exact (conj (conj eq_refl HP2) eq_refl).
  Qed.

  Definition same_outcome (a : outcome) (b : outcome) : Prop :=
    match a, b with
    | Handled x, Handled y => RX x y
    | Parsed post1 files1, Parsed post2 files2 => post1 = post2 /\ same_files RF files1 files2
    | _, _ => False
    end.
  Lemma par_return p q hs1 hs2 (r : R) : same_end p q -> fst (c_end O1 hs1) = fst (c_end O2 hs2) ->
    let a := c_return O1 p hs1 r in let b := c_return O2 q hs2 r in
    same_cr same_outcome (fst (fst a)) (fst (fst b)) /\ snd a = snd b.
  Proof.
    intros (H1 & H2 & _) HE. cbv zeta. unfold c_return.
    destruct (c_end O1 hs1) as [[u1|x1] h1], (c_end O2 hs2) as [[u2|x2] h2]; cbn [fst] in HE; try easy.
    - split; [|reflexivity]. cbn. split; [now rewrite H1|exact H2].
    - injection HE as <-. now split.
  Qed.
  Theorem par_parse len1 len2 csize hs1 hs2 r :
    (len1 = 0%Z <-> len2 = 0%Z) ->
    same_cr (fun a b => match a, b with None, None => True | Some x, Some y => RX x y | _, _ => False end)
      (fst (c_raw O1 len1 hs1)) (fst (c_raw O2 len2 hs2)) ->
    RI (snd (c_raw O1 len1 hs1), zeros (snd (c_raw O1 len1 hs1))) (snd (c_raw O2 len2 hs2), zeros (snd (c_raw O2 len2 hs2))) ->
    let a := c_parse rd exh reg name2cp st1 D fuel O1 t1 len1 csize hs1 r in
    let b := c_parse rd exh reg name2cp st2 D fuel O2 t2 len2 csize hs2 r in
    same_cr same_outcome (fst (fst a)) (fst (fst b)) /\ snd a = snd b.
  Proof.
    intros Hl HR HI. cbv zeta. unfold c_parse. cbv zeta. assert (Hq : ms_query st1 = ms_query st2) by (unfold ms_query; congruence).
    rewrite Hq.
    destruct (Z.eqb_spec len1 0) as [E1|E1], (Z.eqb_spec len2 0) as [E2|E2]; try tauto.
    { destruct (querydict reg (Some (ms_query st2)) None true) as [qd|e]; [|easy]. split; [|reflexivity]. cbn. split; [reflexivity|constructor]. }
    destruct (c_raw O1 len1 hs1) as [[[x1|]|x1] h1], (c_raw O2 len2 hs2) as [[[x2|]|x2] h2]; cbn [fst snd same_cr] in HR, HI; try easy.
    destruct (querydict reg (Some (ms_query st2)) None true) as [qd|e]; [|easy]. unfold zeros in HI.
    destruct (par_loop fuel (mkC core0 [] [] (map (fun _ => 0) h1) h1) (mkC core0 [] [] (map (fun _ => 0) h2) h2) (ls_init (mkCI r csize) None)) as [HL HL2].
    { repeat split; try easy. constructor. }
    destruct (c_loop rd reg name2cp st1 D fuel O1 t1 fuel _ _) as [[r1 p1] s], (c_loop rd reg name2cp st2 D fuel O2 t2 fuel _ _) as [[r2 p2] s'].
    destruct HL as [HL1 HL]. cbn [fst snd] in HL, HL1, HL2. subst s' r2. destruct r1 as [u|x].
    - apply st_end in HL. destruct (exh (input_of r s)) as [[v|e] rr]; [|easy]. apply par_return; [exact HL|].
      destruct HL as (_ & _ & HL). exact (al_end AL _ _ HL).
    - destruct x as [e| |reset|]; try easy. destruct HL as (G1 & G2 & HL). destruct (al_close AL _ _ HL) as [HC1 HC2]. cbn [fst snd] in HC1, HC2.
      destruct (c_close O1 (c_hs p1)) as [[v1|y1] k1], (c_close O2 (c_hs p2)) as [[v2|y2] k2]; cbn [fst snd] in HC1, HC2; try easy.
      2:{ injection HC1 as <-. easy. }
      pose proof (al_end AL _ _ HC2) as HN. cbn [fst] in HN. destruct reset.
      + now apply par_return.
      + destruct (exh (input_of r s)) as [[v|e] rr]; [|easy]. now apply par_return.
  Qed.
End Par.
