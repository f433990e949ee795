(** * A failing read is never mistaken for the end of the body (claim C98) *)
From Verif Require Import Py Spec PyFacts PyDict StreamModel StreamSpec StreamFacts
  CodecModel QueryModel Base64Model HeaderModel
  BoundaryModel PartFacts UploadModel MultipartModel CustomModel.

(** a LazyStream: unless it raises, the producer keeps the property [I] *)
Section Lazy.
  Context {P : Type} (pnext : P -> nxt * P) (I : P -> Prop).
  Notation ISE := InputStreamExhausted.
  Definition nkeep {A} (K : A -> Prop) (x : nxt * A) : Prop := match fst x with Raise e => e <> ISE | _ => K (snd x) end.
  Definition rkeep {A B} (K : A -> Prop) (x : res B * A) : Prop := match fst x with Err e => e <> ISE | _ => K (snd x) end.
  Context (HI : forall p, I p -> nkeep I (pnext p)).

  Lemma next_keep s : prodI I s -> nkeep (prodI I) (ls_next pnext s).
  Proof.
    intros (p & Hp & H). unfold ls_next. destruct (ls_left s); [|now exists p]. rewrite Hp. specialize (HI p H).
    destruct (pnext p) as [[c| |e] p']; cbn in *; [now exists p'|now exists p'|exact HI].
  Qed.
  Lemma unget_keep c s : prodI I s -> rkeep (prodI I) (ls_unget c s).
  Proof.
    intros (p & Hp & H). unfold ls_unget. destruct c; [now exists p|]. destruct (Nat.ltb _ _); [easy|]. now exists p.
  Qed.
  Lemma read_keep fuel size s : prodI I s -> rkeep (prodI I) (ls_read pnext fuel size s).
  Proof.
    intros H. unfold ls_read. destruct (match size with None => ls_remaining s | Some n => Some n end) as [n|].
    - generalize (@nil N) as out. revert n s H. induction fuel as [|f IH]; intros n s H out; [easy|]. cbn [ls_read_loop].
      destruct (Z.eqb n 0); [exact H|]. destruct (Z.ltb n 0); [easy|]. pose proof (next_keep s H) as HN.
      destruct (ls_next pnext s) as [[c| |e] s1]; [|exact HN|exact HN]. cbv zeta.
      pose proof (unget_keep (skipn (Z.to_nat n) c) s1 HN) as HU.
      destruct (ls_unget (skipn (Z.to_nat n) c) s1) as [[u|e] s2]; [now apply IH|exact HU].
    - generalize (@nil N) as out. revert s H. induction fuel as [|f IH]; intros s H out; [easy|]. cbn [ls_join].
      pose proof (next_keep s H) as HN. destruct (ls_next pnext s) as [[c| |e] s1]; [now apply IH|exact HN|exact HN].
  Qed.
End Lazy.

Section Fail.
  Context {R : Type} (rd : nat -> R -> res str * R).
  Context (reg : registry) (name2cp : str -> option N).
  Context (st : mset) (D : str) (fuel : nat).
  Context {S F X : Type} (O : ops S F X) (truthy : F -> bool).
  Context (J : R -> Prop) (HJ : forall n r, J r -> rkeep J (rd n r)).
  Notation P1 := (chunkiter R).
  Notation L1 := (lstream P1).
  Notation L2 := (lstream (biter P1)).
  Notation pn1 := (ci_next rd).
  Notation pn2 := (bi_next pn1 fuel).

  Definition w1 (c : P1) : Prop := J (ci_flo c).
  Notation in1 := (prodI w1).
  Definition w2 (b : biter P1) : Prop := in1 (bi_stream b).
  Notation in2 := (prodI w2).

  Lemma ci_keep c : w1 c -> nkeep w1 (pn1 c).
  Proof.
    unfold w1, ci_next. intros H. pose proof (HJ (ci_size c) (ci_flo c) H) as HX.
    destruct (rd (ci_size c) (ci_flo c)) as [[[|x d]|e] r]; cbn in *; [exact HX|exact HX|]. now destruct e.
  Qed.
  Lemma collect_keep rb : forall n read acc s, in1 s -> rkeep in1 (bi_collect pn1 n rb read acc s).
  Proof.
    induction n as [|n IH]; intros read acc s H; [easy|]. cbn [bi_collect].
    pose proof (next_keep pn1 w1 ci_keep s H) as HN. destruct (ls_next pn1 s) as [[c| |e] s1]; [|exact HN|exact HN].
    cbv zeta. destruct (Nat.ltb rb (read + length c)); [exact HN|]. destruct c; [exact HN|now apply IH].
  Qed.
  Lemma bi_keep b : w2 b -> nkeep w2 (pn2 b).
  Proof.
    unfold w2, bi_next. intros H. cbv zeta. destruct (bi_done b); [exact H|].
    pose proof (collect_keep (rollback (bi_boundary b)) fuel 0 [] _ H) as HC.
    destruct (bi_collect pn1 fuel (rollback (bi_boundary b)) 0 [] (bi_stream b)) as [[[chunks ended]|e] s1]; [|exact HC].
    destruct chunks as [|c0 chunks]; [exact HC|].
    destruct (find_boundary (bi_boundary b) (concat (c0 :: chunks))) as [[e next]|].
    - pose proof (unget_keep w1 (skipn next (concat (c0 :: chunks))) s1 HC) as HU.
      destruct (ls_unget (skipn next (concat (c0 :: chunks))) s1) as [[u|x] s2]; exact HU.
    - destruct (upto_neg (rollback (bi_boundary b)) (concat (c0 :: chunks))) as [|y l]; [exact HC|].
      pose proof (unget_keep w1 (from_neg (rollback (bi_boundary b)) (concat (c0 :: chunks))) s1 HC) as HU.
      destruct (ls_unget (from_neg (rollback (bi_boundary b)) (concat (c0 :: chunks))) s1) as [[u|x] s2]; exact HU.
  Qed.
  Lemma next2k s : in2 s -> nkeep in2 (ls_next pn2 s).
  Proof. exact (next_keep pn2 w2 bi_keep s). Qed.
  Lemma read2k n s : in2 s -> rkeep in2 (ls_read pn2 fuel n s).
  Proof. exact (read_keep pn2 w2 bi_keep fuel n s). Qed.
  Lemma unget2k c s : in2 s -> rkeep in2 (ls_unget c s).
  Proof. exact (unget_keep w2 c s). Qed.

  (** from here on: nothing is said once an exception is raised *)
  Definition kept {A B} (K : A -> Prop) (x : res B * A) : Prop := match fst x with Err _ => True | _ => K (snd x) end.
  Lemma init_keep s : in1 s ->
    match bi_init pn1 fuel s D with
    | (Ok b, s1) => w2 b
    | (Err InputStreamExhausted, s1) => in1 s1
    | _ => True
    end.
  Proof.
    intros H. unfold bi_init. pose proof (read_keep pn1 w1 ci_keep fuel (Some 1%Z) s H) as HR.
    destruct (ls_read pn1 fuel (Some 1%Z) s) as [[[|x c]|e] s1]; [exact HR| |now destruct e].
    pose proof (unget_keep w1 (x :: c) s1 HR) as HU.
    destruct (ls_unget (x :: c) s1) as [[u|e] s2]; [exact HU|now destruct e].
  Qed.
  Lemma pbs_keep s : in2 s -> kept in2 (parse_boundary_stream rd reg fuel s).
  Proof.
    intros H. unfold parse_boundary_stream. pose proof (read2k (Some MAX_PART_HEADER) s H) as HR.
    destruct (ls_read pn2 fuel (Some MAX_PART_HEADER) s) as [[chunk|e] s1]; [|easy].
    destruct (find crlfcrlf chunk) as [i|].
    - pose proof (unget2k (skipn (i + 4) chunk) s1 HR) as HU.
      destruct (ls_unget (skipn (i + 4) chunk) s1) as [[u|e] s2]; [|easy].
      destruct (header_meta reg (split crlf (firstn i chunk)) RAW []) as [[[] m]|e]; (try easy).
      pose proof (unget2k chunk s2 HU) as HU2. now destruct (ls_unget chunk s2) as [[u2|e] s3].
    - pose proof (unget2k chunk s1 HR) as HU. now destruct (ls_unget chunk s1) as [[u|e] s2].
  Qed.
  Lemma field_keep name tenc m p s : in2 s -> kept in2 (read_field rd reg st fuel name tenc m p s).
  Proof.
    intros H. unfold read_field. cbv zeta.
    destruct (match ms_dnum st with Some n => _ | None => _ end); [easy|].
    pose proof (read2k (option_map (fun n => (n - p_bytes p)%Z) (ms_dmem st)) s H) as HR.
    destruct (ls_read pn2 fuel (option_map (fun n => (n - p_bytes p)%Z) (ms_dmem st)) s) as [[raw|e] s1]; [|easy].
    destruct (match tenc with Some t => _ | None => _ end) as [data|e]; [|easy].
    destruct (match ms_dmem st with Some n => _ | None => _ end); [easy|].
    destruct (match dget !"content-type" m with Some v => _ | None => _ end) as [ct extra].
    now destruct (post_append reg (ms_charset st) name _ (p_post p)) as [post|x].
  Qed.
  Lemma fill_keep : forall n acc s, in2 s -> kept in2 (b64_fill rd fuel n acc s).
  Proof.
    induction n as [|n IH]; intros acc s H; [easy|]. cbn [b64_fill]. cbv zeta.
    destruct (Nat.eqb _ 0); [easy|].
    pose proof (read2k (Some (Z.of_nat (4 - Nat.modulo (length acc) 4))) s H) as HR.
    destruct (ls_read pn2 fuel (Some (Z.of_nat (4 - Nat.modulo (length acc) 4))) s) as [[over|e] s1]; [|easy]. now apply IH.
  Qed.
  Lemma drain_keep : forall n s, in2 s -> kept in2 (ls_drain pn2 n s).
  Proof.
    induction n as [|n IH]; intros s H; [easy|]. cbn [ls_drain].
    pose proof (next2k s H) as HN. destruct (ls_next pn2 s) as [[c| |e] s1]; [|easy|easy]. now apply IH.
  Qed.
  (** SkipFile and StopUpload go on: *)
  Definition ckept {A B} (K : A -> Prop) (r : cr B) (a : A) : Prop := match r with Bad (CExn _) => True | _ => K a end.
  Lemma file_keep b64 : forall n hs cs s, in2 s ->
    let x := c_file_loop rd fuel O n b64 hs cs s in ckept in2 (fst (fst x)) (snd x).
  Proof.
    cbv zeta. induction n as [|n IH]; intros hs cs s H; [easy|]. cbn [c_file_loop].
    pose proof (next2k s H) as HN. destruct (ls_next pn2 s) as [[c| |e] s1]; [|easy|easy].
    destruct b64.
    - pose proof (fill_keep fuel (remove_ws c) s1 HN) as HF.
      destruct (b64_fill rd fuel fuel (remove_ws c) s1) as [[g|e] s2]; [|easy].
      destruct (b64decode g) as [d|e]; [|easy]. destruct (c_feed O d hs cs) as [[u|x] hc]; [now apply IH|]. now destruct x.
    - destruct (c_feed O c hs cs) as [[u|x] hc]; [now apply IH|]. now destruct x.
  Qed.
  Lemma deliver_keep i len b64 (p : cst S F) s : in2 s ->
    let x := c_deliver rd fuel O i len b64 p s in ckept in2 (fst (fst x)) (snd x).
  Proof.
    intros H. cbv zeta. unfold c_deliver. cbv zeta.
    assert (HSk : forall hs cs s1, in2 s1 -> let x := (match c_close O hs with
         | (Bad x, hs1) => ((Bad x, mkC (c_core p) (c_files p) [] cs hs1), s1)
         | (Good _, hs1) => match ls_drain pn2 fuel s1 with
                            | (Err e, s2) => ((Bad (CExn e), mkC (c_core p) (c_files p) [] cs hs1), s2)
                            | (Ok _, s2) => ((Good tt, mkC (c_core p) (c_files p) [] cs hs1), s2)
                            end
         end) in ckept in2 (fst (fst x)) (snd x)).
    { cbv zeta. intros hs cs s1 H1. destruct (c_close O hs) as [[u|x] hs1]; [|now destruct x].
      pose proof (drain_keep fuel s1 H1) as HD. now destruct (ls_drain pn2 fuel s1) as [[u1|e] s2]. }
    destruct (c_new O i len (c_hs p)) as [[u|x] hs].
    2:{ destruct x; first [exact I | exact H | exact (HSk _ _ _ H)]. }
    pose proof (file_keep b64 fuel hs (map (fun _ => 0) (c_hs p)) s H) as HF.
    destruct (c_file_loop rd fuel O fuel b64 hs (map (fun _ => 0) (c_hs p)) s) as [[[u1|x] [hs1 cs1]] s1]; [exact HF|].
    destruct x; first [exact I | exact HF | exact (HSk _ _ _ HF)].
  Qed.
  Lemma part_keep ty m (p : cst S F) s : in2 s ->
    let x := c_part rd reg name2cp st fuel O ty m p s in ckept in2 (fst (fst x)) (snd x).
  Proof.
    intros H. cbv zeta. unfold c_part, c_read_file. destruct (dget CDISP m) as [[v disp]|]; [|easy].
    destruct (dget !"name" disp) as [raw|]; [|easy]. cbv zeta.
    destruct (to_native (pstrip raw)) as [name|e]; [|easy]. destruct ty; [easy| |].
    - destruct (match dget !"filename" disp with Some f => _ | None => _ end) as [[|x fn]|e]; [easy| |easy].
      destruct (match dget !"content-type" m with Some v0 => _ | None => _ end) as [ct extra]. now apply deliver_keep.
    - pose proof (field_keep name (option_map (fun v0 => ustrip (fst v0)) (dget !"content-transfer-encoding" m)) m (c_core p) s H) as HF.
      now destruct (read_field rd reg st fuel name _ m (c_core p) s) as [[core|e] s1].
  Qed.
  Lemma outer_keep s1 s2 : in2 s2 -> in1 (outer_of s1 s2).
  Proof. intros (b & Hb & H). unfold outer_of. now rewrite Hb. Qed.
  Lemma loop_keep : forall n (p : cst S F) s, in1 s ->
    let x := c_loop rd reg name2cp st D fuel O truthy n p s in ckept in1 (fst (fst x)) (snd x).
  Proof.
    cbv zeta. induction n as [|n IH]; intros p s H; [easy|]. cbn [c_loop].
    pose proof (init_keep s H) as HI. destruct (bi_init pn1 fuel s D) as [[b|e] s1]; [|now destruct e].
    assert (H3 : in2 (ls_init b None)) by (now exists b).
    pose proof (pbs_keep _ H3) as HP. destruct (parse_boundary_stream rd reg fuel (ls_init b None)) as [[[ty m]|e] s2]; [|exact I].
    cbn in HP. destruct (c_finish O truthy p) as [[u|x] p1]; [|destruct x; try exact I; now apply outer_keep].
    pose proof (part_keep ty m p1 s2 HP) as HPa. destruct (c_part rd reg name2cp st fuel O ty m p1 s2) as [[[u1|x] p2] s3].
    - apply IH. now apply outer_keep.
    - destruct x; try exact I; now apply outer_keep.
  Qed.

  Context (exh : R -> res unit * R) (HX : forall r, J r -> exists e, fst (exh r) = Err e).
  (** what a parse returns although the input still has the property, if anything *)
  Theorem parse_keep len csize hs r : J r -> len <> 0%Z ->
    match fst (fst (c_parse rd exh reg name2cp st D fuel O truthy len csize hs r)) with
    | Good (Parsed _ _) =>
        exists hs1 p', c_raw O len hs = (Good None, hs1) /\
          fst (fst (c_loop rd reg name2cp st D fuel O truthy fuel (mkC core0 [] [] (map (fun _ => 0) hs1) hs1) (ls_init (mkCI r csize) None))) =
            Bad (CStop true) /\
          snd (fst (c_loop rd reg name2cp st D fuel O truthy fuel (mkC core0 [] [] (map (fun _ => 0) hs1) hs1) (ls_init (mkCI r csize) None))) = p'
    | _ => True
    end.
  Proof.
    intros H Hl. unfold c_parse. cbv zeta.
    destruct (Z.eqb_spec len 0); [easy|]. destruct (c_raw O len hs) as [[[x|]|x] hs1]; [exact I| |exact I].
    destruct (querydict reg (Some (ms_query st)) None true) as [qd|e]; [|exact I].
    pose proof (loop_keep fuel (mkC core0 [] [] (map (fun _ => 0) hs1) hs1) (ls_init (mkCI r csize) None) ltac:(now exists (mkCI r csize))) as HL.
    destruct (c_loop rd reg name2cp st D fuel O truthy fuel (mkC core0 [] [] (map (fun _ => 0) hs1) hs1) (ls_init (mkCI r csize) None))
      as [[[u|x] p1] s] eqn:EL; cbn [fst snd] in HL.
    - assert (HJ1 : J (input_of r s)) by (destruct HL as (c & Hc & HJc); unfold input_of; now rewrite Hc).
      destruct (HX _ HJ1) as (e & HE). destruct (exh (input_of r s)) as [[u1|e1] r1]; [discriminate HE|exact I].
    - destruct x as [e| |reset|]; try exact I. destruct (c_close O (c_hs p1)) as [[u|x] hs2]; [|exact I].
      destruct reset.
      + destruct (fst (fst (c_return O p1 hs2 (input_of r s)))) as [[x|post files]|x]; [exact I| |exact I].
        exists hs1, p1. now rewrite EL.
      + assert (HJ1 : J (input_of r s)) by (destruct HL as (c & Hc & HJc); unfold input_of; now rewrite Hc).
        destruct (HX _ HJ1) as (e & HE). destruct (exh (input_of r s)) as [[u1|e1] r1]; [discriminate HE|exact I].
  Qed.
End Fail.

(** handlers that never ask for the connection to be reset *)
Section NoReset.
  Context {S F X : Type} (O : ops S F X) (truthy : F -> bool).
  Definition unreset {A} (r : cr A) : Prop := r <> Bad (CStop true).
  Definition never_resets : Prop :=
    (forall i len h, unreset (fst (o_new O i len h))) /\ (forall d n h, unreset (fst (o_data O d n h))) /\
    (forall n h, unreset (fst (o_done O n h))) /\ (forall h, unreset (fst (o_close O h))).
  Context (HO : never_resets).
  Lemma bad_unreset {A B} x : unreset (@Bad A x) -> unreset (@Bad B x).
  Proof. intros H E. apply H. now injection E as ->. Qed.
  Lemma nr_new i len : forall hs, unreset (fst (c_new O i len hs)).
  Proof.
    induction hs as [|h hs IH]; [easy|]. cbn. destruct HO as (H & _). specialize (H i len h).
    destruct (o_new O i len h) as [[u|x] s]; cbn in *.
    - now destruct (c_new O i len hs) as [r hs1].
    - destruct x; first [exact H | easy].
  Qed.
  Lemma nr_feed : forall hs cs d, unreset (fst (c_feed O d hs cs)).
  Proof.
    induction hs as [|h hs IH]; intros [|c cs] d; try easy. cbn. destruct HO as (_ & H & _). specialize (H d c h).
    destruct (o_data O d c h) as [[[d1|]|x] s]; cbn in *; [|easy|eapply bad_unreset; eassumption].
    specialize (IH cs d1). now destruct (c_feed O d1 hs cs) as [r hc].
  Qed.
  Lemma nr_complete name files : forall hs cs, unreset (fst (c_complete O truthy name hs cs files)).
  Proof.
    induction hs as [|h hs IH]; intros [|c cs]; try easy. cbn. destruct HO as (_ & _ & H & _). specialize (H c h).
    destruct (o_done O c h) as [[o|x] s]; cbn in *; [|eapply bad_unreset; eassumption].
    destruct (match o with Some f => truthy f | None => false end); [easy|].
    specialize (IH cs). now destruct (c_complete O truthy name hs cs files) as [r hc].
  Qed.
  Lemma nr_close : forall hs, unreset (fst (c_close O hs)).
  Proof.
    induction hs as [|h hs IH]; [easy|]. cbn. destruct HO as (_ & _ & _ & H). specialize (H h).
    destruct (o_close O h) as [[u|x] s]; cbn in *; [|eapply bad_unreset; eassumption]. now destruct (c_close O hs) as [r hs1].
  Qed.
  Lemma nr_finish (p : cst S F) : unreset (fst (c_finish O truthy p)).
  Proof.
    unfold c_finish. destruct (c_old p) as [|y l]; [easy|].
    pose proof (nr_complete (y :: l) (c_files p) (c_hs p) (c_counters p)) as HW.
    destruct (c_complete O truthy (y :: l) (c_hs p) (c_counters p) (c_files p)) as [[f|z] hs]; [easy|eapply bad_unreset; eassumption].
  Qed.

  Context {R : Type} (rd : nat -> R -> res str * R) (reg : registry) (name2cp : str -> option N) (st : mset) (D : str) (fuel : nat).
  Lemma nr_loop_file b64 : forall n hs cs s, unreset (fst (fst (c_file_loop rd fuel O n b64 hs cs s))).
  Proof.
    induction n as [|n IH]; intros hs cs s; [easy|]. cbn [c_file_loop].
    destruct (ls_next _ s) as [[c| |e] s1]; [|easy|easy].
    destruct (if b64 then _ else _) as [[d|e] s2]; [|easy]. pose proof (nr_feed hs cs d) as HW.
    destruct (c_feed O d hs cs) as [[u|x] [hs1 cs1]]; [apply IH|eapply bad_unreset; eassumption].
  Qed.
  Lemma nr_deliver i len b64 (p : cst S F) s : unreset (fst (fst (c_deliver rd fuel O i len b64 p s))).
  Proof.
    unfold c_deliver. cbv zeta.
    assert (HSk : forall hs cs (s1 : lstream (biter (chunkiter R))), unreset (fst (fst (match c_close O hs with
         | (Bad x, hs1) => ((Bad x, mkC (c_core p) (c_files p) [] cs hs1), s1)
         | (Good _, hs1) => match ls_drain (bi_next (ci_next rd) fuel) fuel s1 with
                            | (Err e, s2) => ((Bad (CExn e), mkC (c_core p) (c_files p) [] cs hs1), s2)
                            | (Ok _, s2) => ((Good tt, mkC (c_core p) (c_files p) [] cs hs1), s2)
                            end
         end)))).
    { intros hs cs s1. pose proof (nr_close hs) as HW. destruct (c_close O hs) as [[u|x] hs1]; [|eapply bad_unreset; eassumption].
      now destruct (ls_drain (bi_next (ci_next rd) fuel) fuel s1) as [[u1|e] s2]. }
    pose proof (nr_new i len (c_hs p)) as HW. destruct (c_new O i len (c_hs p)) as [[u|x] hs].
    - pose proof (nr_loop_file b64 fuel hs (map (fun _ => 0) (c_hs p)) s) as HF.
      destruct (c_file_loop rd fuel O fuel b64 hs (map (fun _ => 0) (c_hs p)) s) as [[[u1|x] [hs1 cs1]] s1]; [easy|].
      destruct x; first [exact (HSk _ _ _) | exact (bad_unreset _ HF)].
    - destruct x; first [exact (HSk _ _ _) | exact (bad_unreset _ HW)].
  Qed.
  Lemma nr_part ty m (p : cst S F) s : unreset (fst (fst (c_part rd reg name2cp st fuel O ty m p s))).
  Proof.
    unfold c_part, c_read_file. destruct (dget CDISP m) as [[v disp]|]; [|easy].
    destruct (dget !"name" disp) as [raw|]; [|easy]. cbv zeta.
    destruct (to_native (pstrip raw)) as [name|e]; [|easy]. destruct ty; [easy| |].
    - destruct (match dget !"filename" disp with Some f => _ | None => _ end) as [[|x fn]|e]; [easy| |easy].
      destruct (match dget !"content-type" m with Some v0 => _ | None => _ end) as [ct extra]. apply nr_deliver.
    - now destruct (read_field rd reg st fuel name _ m (c_core p) s) as [[core|e] s1].
  Qed.
  Lemma nr_loop : forall n (p : cst S F) s, unreset (fst (fst (c_loop rd reg name2cp st D fuel O truthy n p s))).
  Proof.
    induction n as [|n IH]; intros p s; [easy|]. cbn [c_loop].
    destruct (bi_init (ci_next rd) fuel s D) as [[b|e] s1]; [|now destruct e].
    destruct (parse_boundary_stream rd reg fuel (ls_init b None)) as [[[ty m]|e] s2]; [|easy].
    pose proof (nr_finish p) as HF. destruct (c_finish O truthy p) as [[u|x] p1]; [|exact (bad_unreset _ HF)].
    pose proof (nr_part ty m p1 s2) as HPa. destruct (c_part rd reg name2cp st fuel O ty m p1 s2) as [[[u1|x] p2] s3]; [apply IH|].
    exact (bad_unreset _ HPa).
  Qed.
End NoReset.

(** the source's own errors: the first failure is not the one the library uses for the end of data *)
Definition broken (s : src) : Prop := exists e, src_error s = Some e /\ e <> InputStreamExhausted.
Lemma broken_read n s : broken s -> rkeep broken (src_read n s).
Proof.
  induction s as [|[d|e0] s IH]; intros (e & H & He); [easy| |cbn in *; congruence].
  destruct d as [|x d]; [apply IH; now exists e|]. cbn [src_read rkeep fst snd]. unfold rkeep. cbn [fst snd].
  destruct (skipn n (x :: d)); now exists e.
Qed.
Lemma broken_exhaust s : broken s -> exists e, fst (it_exhaust s) = Err e.
Proof.
  induction s as [|[d|e0] s IH]; intros (e & H & He); [easy| |now exists e0]. apply IH. now exists e.
Qed.
Lemma broken_next s : broken s -> nkeep broken (it_next s) /\ fst (it_next s) <> StreamModel.Stop.
Proof.
  destruct s as [|[d|e0] s]; intros (e & H & He); [easy| |].
  - split; [|easy]. now exists e.
  - split; [|easy]. cbn in *. congruence.
Qed.
Lemma broken_drain : forall n s, prodI broken s -> exists e, fst (ls_drain it_next n s) = Err e.
Proof.
  induction n as [|n IH]; intros s H; [now eexists|]. cbn [ls_drain].
  pose proof (next_keep it_next broken (fun p Hp => proj1 (broken_next p Hp)) s H) as HN.
  assert (HS : fst (ls_next it_next s) <> StreamModel.Stop).
  { destruct H as (p & Hp & H). unfold ls_next. destruct (ls_left s); [|easy]. rewrite Hp. apply broken_next in H. destruct H as [_ H].
    now destruct (it_next p) as [[c| |e] p']. }
  destruct (ls_next it_next s) as [[c| |e] s1]; cbn [fst] in *; [now apply IH|easy|now exists e].
Qed.
(** while a failure is ahead, [read(n)] returns n bytes *)
Lemma broken_full : forall fuel n out s, prodI broken s -> (0 <= n)%Z ->
  match ls_read_loop it_next fuel n out s with (Ok d, s1) => zlen d = (zlen out + n)%Z | _ => True end.
Proof.
  induction fuel as [|f IH]; intros n out s H Hn; [easy|]. cbn [ls_read_loop].
  destruct (Z.eqb_spec n 0); [unfold zlen; lia|]. destruct (Z.ltb n 0); [easy|].
  pose proof (next_keep it_next broken (fun p Hp => proj1 (broken_next p Hp)) s H) as HN.
  assert (HS : fst (ls_next it_next s) <> StreamModel.Stop).
  { destruct H as (p & Hp & H). unfold ls_next. destruct (ls_left s); [|easy]. rewrite Hp. apply broken_next in H. destruct H as [_ H].
    now destruct (it_next p) as [[c| |e] p']. }
  destruct (ls_next it_next s) as [[c| |e] s1]; [|easy|easy]. cbv zeta.
  pose proof (unget_keep broken (skipn (Z.to_nat n) c) s1 HN) as HU.
  destruct (ls_unget (skipn (Z.to_nat n) c) s1) as [[u|e] s2]; [|easy].
  specialize (IH (n - zlen (firstn (Z.to_nat n) c))%Z (out ++ firstn (Z.to_nat n) c) s2 HU).
  assert (HL : (zlen (firstn (Z.to_nat n) c) <= n)%Z) by (unfold zlen; rewrite firstn_length; lia).
  specialize (IH ltac:(lia)). destruct (ls_read_loop it_next f _ _ s2) as [[d|e] s3]; [|easy].
  unfold zlen in *. rewrite app_length in IH. lia.
Qed.
