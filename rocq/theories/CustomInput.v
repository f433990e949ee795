(** * What the parser does to its input object: any property that reading preserves holds of
    it whenever the loop stops (claim C97) *)
From Verif Require Import Py Spec PyFacts PyDict StreamModel StreamSpec StreamFacts StreamCalm
  CodecModel QueryModel Base64Model HeaderModel
  BoundaryModel BoundarySpec BoundaryFacts PartFacts UploadModel MultipartModel CustomModel.

Section Input.
  Context {R : Type} (rd : nat -> R -> res str * R).
  Context (reg : registry) (name2cp : str -> option N).
  Context (st : mset) (D : str) (fuel : nat).
  Context {S F X : Type} (O : ops S F X) (truthy : F -> bool).
  Context (J : R -> Prop) (HJ : forall n r, J r -> J (snd (rd n r))).
  Notation P1 := (chunkiter R).
  Notation L1 := (lstream P1).
  Notation L2 := (lstream (biter P1)).
  Notation pn1 := (ci_next rd).
  Notation pn2 := (bi_next pn1 fuel).

  Definition on1 (c : P1) : Prop := J (ci_flo c).
  Notation in1 := (prodI on1).
  Definition on2 (b : biter P1) : Prop := in1 (bi_stream b).
  Notation in2 := (prodI on2).

  Lemma ci_inv c : on1 c -> on1 (snd (pn1 c)).
  Proof.
    unfold on1, ci_next. intros H. pose proof (HJ (ci_size c) (ci_flo c) H) as HX.
    destruct (rd (ci_size c) (ci_flo c)) as [[[|x d]|e] r]; cbn in *; [easy|easy|]. now destruct e.
  Qed.
  Lemma collect_inv rb : forall n read acc s, in1 s -> in1 (snd (bi_collect pn1 n rb read acc s)).
  Proof.
    induction n as [|n IH]; intros read acc s H; [easy|]. cbn [bi_collect].
    pose proof (next_prodI pn1 on1 ci_inv s H) as HN. destruct (ls_next pn1 s) as [[c| |e] s1]; [|easy|easy].
    cbv zeta. cbn [snd] in HN. destruct (Nat.ltb rb (read + length c)); [easy|]. destruct c; [easy|now apply IH].
  Qed.
  Lemma bi_inv b : on2 b -> on2 (snd (pn2 b)).
  Proof.
    unfold on2, bi_next. intros H. cbv zeta. destruct (bi_done b); [easy|].
    pose proof (collect_inv (rollback (bi_boundary b)) fuel 0 [] _ H) as HC.
    destruct (bi_collect pn1 fuel (rollback (bi_boundary b)) 0 [] (bi_stream b)) as [[[chunks ended]|e] s1]; [|easy].
    cbn [snd] in HC. destruct chunks as [|c0 chunks]; [easy|].
    destruct (find_boundary (bi_boundary b) (concat (c0 :: chunks))) as [[e next]|].
    - pose proof (unget_prodI on1 (skipn next (concat (c0 :: chunks))) s1 HC) as HU.
      destruct (ls_unget (skipn next (concat (c0 :: chunks))) s1) as [[u|x] s2]; exact HU.
    - destruct (upto_neg (rollback (bi_boundary b)) (concat (c0 :: chunks))) as [|y l]; [exact HC|].
      pose proof (unget_prodI on1 (from_neg (rollback (bi_boundary b)) (concat (c0 :: chunks))) s1 HC) as HU.
      destruct (ls_unget (from_neg (rollback (bi_boundary b)) (concat (c0 :: chunks))) s1) as [[u|x] s2]; exact HU.
  Qed.
  Lemma next2 s : in2 s -> in2 (snd (ls_next pn2 s)).
  Proof. exact (next_prodI pn2 on2 bi_inv s). Qed.
  Lemma read2 n s : in2 s -> in2 (snd (ls_read pn2 fuel n s)).
  Proof. exact (read_prodI pn2 on2 bi_inv fuel n s). Qed.
  Lemma unget2 c s : in2 s -> in2 (snd (ls_unget c s)).
  Proof. exact (unget_prodI on2 c s). Qed.

  Lemma init_inv s : in1 s -> let (r, s1) := bi_init pn1 fuel s D in in1 s1 /\ forall b, r = Ok b -> on2 b.
  Proof.
    intros H. unfold bi_init. pose proof (read_prodI pn1 on1 ci_inv fuel (Some 1%Z) s H) as HR.
    destruct (ls_read pn1 fuel (Some 1%Z) s) as [[[|x c]|e] s1]; [easy| |easy].
    pose proof (unget_prodI on1 (x :: c) s1 HR) as HU.
    destruct (ls_unget (x :: c) s1) as [[u|e] s2]; [|easy]. split; [exact HU|]. intros b [= <-]. exact HU.
  Qed.
  Lemma pbs_inv s : in2 s -> in2 (snd (parse_boundary_stream rd reg fuel s)).
  Proof.
    intros H. unfold parse_boundary_stream. pose proof (read2 (Some MAX_PART_HEADER) s H) as HR.
    destruct (ls_read pn2 fuel (Some MAX_PART_HEADER) s) as [[chunk|e] s1]; [|easy]. cbn [snd] in HR.
    destruct (find crlfcrlf chunk) as [i|].
    - pose proof (unget2 (skipn (i + 4) chunk) s1 HR) as HU.
      destruct (ls_unget (skipn (i + 4) chunk) s1) as [[u|e] s2]; [|easy]. cbn [snd] in HU.
      destruct (header_meta reg (split crlf (firstn i chunk)) RAW []) as [[[] m]|e]; (try easy).
      pose proof (unget2 chunk s2 HU) as HU2. now destruct (ls_unget chunk s2) as [[u2|e] s3].
    - pose proof (unget2 chunk s1 HR) as HU. now destruct (ls_unget chunk s1) as [[u|e] s2].
  Qed.
  Lemma field_inv name tenc m p s : in2 s -> in2 (snd (read_field rd reg st fuel name tenc m p s)).
  Proof.
    intros H. unfold read_field. cbv zeta.
    destruct (match ms_dnum st with Some n => _ | None => _ end); [easy|].
    pose proof (read2 (option_map (fun n => (n - p_bytes p)%Z) (ms_dmem st)) s H) as HR.
    destruct (ls_read pn2 fuel (option_map (fun n => (n - p_bytes p)%Z) (ms_dmem st)) s) as [[raw|e] s1]; [|easy].
    destruct (match tenc with Some t => _ | None => _ end) as [data|e]; [|easy].
    destruct (match ms_dmem st with Some n => _ | None => _ end); [easy|].
    destruct (match dget !"content-type" m with Some v => _ | None => _ end) as [ct extra].
    now destruct (post_append reg (ms_charset st) name _ (p_post p)) as [post|x].
  Qed.
  Lemma fill_inv : forall n acc s, in2 s -> in2 (snd (b64_fill rd fuel n acc s)).
  Proof.
    induction n as [|n IH]; intros acc s H; [easy|]. cbn [b64_fill]. cbv zeta.
    destruct (Nat.eqb _ 0); [easy|].
    pose proof (read2 (Some (Z.of_nat (4 - Nat.modulo (length acc) 4))) s H) as HR.
    destruct (ls_read pn2 fuel (Some (Z.of_nat (4 - Nat.modulo (length acc) 4))) s) as [[over|e] s1]; [|easy]. now apply IH.
  Qed.
  Lemma drain_inv : forall n s, in2 s -> in2 (snd (ls_drain pn2 n s)).
  Proof.
    induction n as [|n IH]; intros s H; [easy|]. cbn [ls_drain].
    pose proof (next2 s H) as HN. destruct (ls_next pn2 s) as [[c| |e] s1]; [|easy|easy]. now apply IH.
  Qed.
  Lemma file_inv b64 : forall n hs cs s, in2 s -> in2 (snd (c_file_loop rd fuel O n b64 hs cs s)).
  Proof.
    induction n as [|n IH]; intros hs cs s H; [easy|]. cbn [c_file_loop].
    pose proof (next2 s H) as HN. destruct (ls_next pn2 s) as [[c| |e] s1]; [|easy|easy]. cbn [snd] in HN.
    destruct b64.
    - pose proof (fill_inv fuel (remove_ws c) s1 HN) as HF.
      destruct (b64_fill rd fuel fuel (remove_ws c) s1) as [[g|e] s2]; [|easy]. cbn [snd] in HF.
      destruct (b64decode g) as [d|e]; [|easy]. destruct (c_feed O d hs cs) as [[u|x] hc]; [now apply IH|easy].
    - destruct (c_feed O c hs cs) as [[u|x] hc]; [now apply IH|easy].
  Qed.
  Lemma deliver_inv i len b64 (p : cst S F) s : in2 s -> in2 (snd (c_deliver rd fuel O i len b64 p s)).
  Proof.
    intros H. unfold c_deliver. cbv zeta.
    assert (HSk : forall hs cs s1, in2 s1 -> in2 (snd (match c_close O hs with
         | (Bad x, hs1) => ((Bad x, mkC (c_core p) (c_files p) [] cs hs1), s1)
         | (Good _, hs1) => match ls_drain pn2 fuel s1 with
                            | (Err e, s2) => ((Bad (CExn e), mkC (c_core p) (c_files p) [] cs hs1), s2)
                            | (Ok _, s2) => ((Good tt, mkC (c_core p) (c_files p) [] cs hs1), s2)
                            end
         end))).
    { intros hs cs s1 H1. destruct (c_close O hs) as [[u|x] hs1]; [|easy].
      pose proof (drain_inv fuel s1 H1) as HD. now destruct (ls_drain pn2 fuel s1) as [[u1|e] s2]. }
    destruct (c_new O i len (c_hs p)) as [[u|x] hs]; [|destruct x; auto].
    pose proof (file_inv b64 fuel hs (map (fun _ => 0) (c_hs p)) s H) as HF.
    destruct (c_file_loop rd fuel O fuel b64 hs (map (fun _ => 0) (c_hs p)) s) as [[[u1|x] [hs1 cs1]] s1]; [easy|].
    destruct x; auto.
  Qed.
  Lemma part_inv ty m (p : cst S F) s : in2 s -> in2 (snd (c_part rd reg name2cp st fuel O ty m p s)).
  Proof.
    intros H. unfold c_part, c_read_file. destruct (dget CDISP m) as [[v disp]|]; [|easy].
    destruct (dget !"name" disp) as [raw|]; [|easy]. cbv zeta.
    destruct (to_native (pstrip raw)) as [name|e]; [|easy]. destruct ty; [easy| |].
    - destruct (match dget !"filename" disp with Some f => _ | None => _ end) as [[|x fn]|e]; [easy| |easy].
      destruct (match dget !"content-type" m with Some v0 => _ | None => _ end) as [ct extra]. now apply deliver_inv.
    - pose proof (field_inv name (option_map (fun v0 => ustrip (fst v0)) (dget !"content-transfer-encoding" m)) m (c_core p) s H) as HF.
      now destruct (read_field rd reg st fuel name _ m (c_core p) s) as [[core|e] s1].
  Qed.
  Lemma outer_inv s1 s2 : in2 s2 -> in1 (outer_of s1 s2).
  Proof. intros (b & Hb & H). unfold outer_of. now rewrite Hb. Qed.
  Lemma loop_inv : forall n (p : cst S F) s, in1 s -> in1 (snd (c_loop rd reg name2cp st D fuel O truthy n p s)).
  Proof.
    induction n as [|n IH]; intros p s H; [easy|]. cbn [c_loop].
    pose proof (init_inv s H) as HI. destruct (bi_init pn1 fuel s D) as [[b|e] s1]; [|now destruct e].
    destruct HI as (H1 & H2). specialize (H2 b eq_refl).
    assert (H3 : in2 (ls_init b None)) by (now exists b).
    pose proof (pbs_inv _ H3) as HP. destruct (parse_boundary_stream rd reg fuel (ls_init b None)) as [[[ty m]|e] s2];
      [|now apply outer_inv]. cbn [snd] in HP.
    destruct (c_finish O truthy p) as [[u|x] p1]; [|now apply outer_inv].
    pose proof (part_inv ty m p1 s2 HP) as HPa. destruct (c_part rd reg name2cp st fuel O ty m p1 s2) as [[[u1|x] p2] s3].
    - apply IH. now apply outer_inv.
    - now apply outer_inv.
  Qed.
  (** the input object when the loop stops *)
  Theorem input_inv n (p : cst S F) r csize : J r ->
    J (input_of r (snd (c_loop rd reg name2cp st D fuel O truthy n p (ls_init (mkCI r csize) None)))).
  Proof.
    intros H. destruct (loop_inv n p (ls_init (mkCI r csize) None)) as (c & Hc & HJc); [now exists (mkCI r csize)|].
    unfold input_of. rewrite Hc. exact HJc.
  Qed.
End Input.
