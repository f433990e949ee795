(** * The parser with arbitrary handlers, given the library's, is the parser of MultipartModel *)
From Verif Require Import Py PyFacts PyDict StreamModel CodecModel QueryModel Base64Model HeaderModel
  BoundaryModel UploadModel MultipartModel CustomModel CustomGuard.

(** the handlers of UploadModel; their file objects are closed without an effect that is modelled *)
Definition lib_ops (mk_temp : str -> res unit) (max : option Z) : ops handler ufile Empty_set :=
  mkOps handler ufile Empty_set
    (fun len h => (Good None, h_raw_input max len h))
    (fun i _ h => let (r, h1) := h_new_file mk_temp i h in (lift_new r, h1))
    (fun d _ h => let (r, h1) := h_receive mk_temp max d h in (of_res r, h1))
    (fun n h => (of_res (h_complete n h), h))
    (fun h => (Good tt, h))
    (fun h => (Good false, h)).

Section Lib.
  Context {R : Type} (rd : nat -> R -> res str * R) (exh : R -> res unit * R).
  Context (reg : registry) (name2cp : str -> option N) (mk_temp : str -> res unit).
  Context (st : mset) (D : str) (fuel : nat).
  Notation L := (lib_ops mk_temp (ms_fmem st)).

  Lemma lib_raw len : forall hs, c_raw L len hs = (Good None, map (h_raw_input (ms_fmem st) len) hs).
  Proof. induction hs as [|h hs IH]; [easy|]. cbn [c_raw map]. now rewrite IH. Qed.
  Lemma lib_new i len : forall hs,
    match new_files mk_temp i hs with
    | Ok hs' => c_new L i len hs = (Good tt, hs') /\ length hs' = length hs
    | Err e => exists hs', c_new L i len hs = (Bad (CExn e), hs')
    end.
  Proof.
    induction hs as [|h hs IH]; [easy|]. cbn [c_new new_files lib_ops o_new].
    destruct (h_new_file mk_temp i h) as [[u|e] h1]; cbn [lift_new].
    - destruct (new_files mk_temp i hs) as [hs'|e]; cbn [bind].
      + destruct IH as [-> E]. split; [easy|]. cbn. now rewrite E.
      + destruct IH as (hs' & ->). now eexists.
    - destruct e; first [now eexists | now split].
  Qed.
  Lemma lib_feed : forall hs cs d,
    match feed mk_temp (ms_fmem st) d hs cs with
    | Ok hc => c_feed L d hs cs = (Good tt, hc)
    | Err e => exists hc, c_feed L d hs cs = (Bad (CExn e), hc)
    end.
  Proof.
    induction hs as [|h hs IH]; intros [|c cs] d; try easy. cbn [c_feed feed lib_ops o_data].
    destruct (h_receive mk_temp (ms_fmem st) d h) as [[[d1|]|e] h1]; cbn [of_res]; [|easy|now eexists].
    specialize (IH cs d1). destruct (feed mk_temp (ms_fmem st) d1 hs cs) as [[hs' cs']|e]; cbn [bind].
    - now rewrite IH.
    - destruct IH as (hc & ->). now eexists.
  Qed.
  Lemma lib_complete name files : forall hs cs,
    match file_complete name hs cs files with
    | Ok f => c_complete L file_truthy name hs cs files = (Good f, hs)
    | Err e => exists hs', c_complete L file_truthy name hs cs files = (Bad (CExn e), hs')
    end.
  Proof.
    induction hs as [|h hs IH]; intros [|c cs]; try easy. cbn [c_complete file_complete lib_ops o_done].
    destruct (h_complete c h) as [[f|]|e]; cbn [of_res bind]; [| |now eexists].
    - destruct (file_truthy f); [easy|]. specialize (IH cs). destruct (file_complete name hs cs files) as [g|e].
      + now rewrite IH.
      + destruct IH as (hs' & ->). now eexists.
    - specialize (IH cs). destruct (file_complete name hs cs files) as [g|e].
      + now rewrite IH.
      + destruct IH as (hs' & ->). now eexists.
  Qed.
  Lemma lib_close : forall hs, c_close L hs = (Good tt, hs).
  Proof. induction hs as [|h hs IH]; [easy|]. cbn [c_close lib_ops o_close]. cbn in IH. now rewrite IH. Qed.
  Lemma lib_end : forall hs, c_end L hs = (Good tt, hs).
  Proof. induction hs as [|h hs IH]; [easy|]. cbn [c_end lib_ops o_end]. cbn in IH. now rewrite IH. Qed.

  Definition sim (p : pst) (c : cst handler ufile) : Prop :=
    p_post p = p_post (c_core c) /\ p_bytes p = p_bytes (c_core c) /\ p_keys p = p_keys (c_core c) /\
    p_files p = c_files c /\ p_old p = c_old c /\ p_counters p = c_counters c /\ p_hs p = c_hs c.
  Definition same (r : res pst) (o : cr unit * cst handler ufile) : Prop :=
    match r with Ok p => fst o = Good tt /\ sim p (snd o) | Err e => fst o = Bad (CExn e) end.

  Lemma lib_file_loop b64 : forall n hs cs s,
    match file_loop rd mk_temp st fuel n b64 hs cs s with
    | (Ok hc, s1) => c_file_loop rd fuel L n b64 hs cs s = ((Good tt, hc), s1)
    | (Err e, s1) => exists hc, c_file_loop rd fuel L n b64 hs cs s = ((Bad (CExn e), hc), s1)
    end.
  Proof.
    induction n as [|n IH]; intros hs cs s; [now eexists|]. cbn [file_loop c_file_loop].
    destruct (ls_next (bi_next (ci_next rd) fuel) s) as [[c| |e] s1]; [|easy|now eexists].
    match goal with |- context [if b64 then ?a else ?b] => destruct (if b64 then a else b) as [[d|e] s2] end; [|now eexists].
    pose proof (lib_feed hs cs d) as HF. destruct (feed mk_temp (ms_fmem st) d hs cs) as [[hs' cs']|e].
    - rewrite HF. apply IH.
    - destruct HF as (hc & ->). now eexists.
  Qed.
  Lemma lib_field name tenc m p c s : sim p c ->
    match read_field rd reg st fuel name tenc m p s with
    | (Ok p', s1) => exists core, read_field rd reg st fuel name tenc m (c_core c) s = (Ok core, s1) /\
                       sim p' (mkC core (c_files c) (c_old c) (c_counters c) (c_hs c))
    | (Err e, s1) => read_field rd reg st fuel name tenc m (c_core c) s = (Err e, s1)
    end.
  Proof.
    intros (H1 & H2 & H3 & H4 & H5 & H6 & H7). unfold read_field. rewrite <- H1, <- H2, <- H3.
    destruct (match ms_dnum st with Some n => Z.ltb n (p_keys p + 1) | None => false end); [easy|]. cbv zeta.
    destruct (ls_read (bi_next (ci_next rd) fuel) fuel _ s) as [[raw|e] s1]; [|easy].
    destruct (match tenc with Some t => _ | None => _ end) as [data|e]; [|easy].
    destruct (match ms_dmem st with Some n => _ | None => false end); [easy|].
    destruct (match dget !"content-type" m with Some v => v | None => ([], []) end) as [ct extra].
    destruct (post_append reg (ms_charset st) name _ (p_post p)) as [post|e]; [|easy].
    eexists. split; [reflexivity|]. now repeat split.
  Qed.
  Lemma lib_finish p c : sim p c -> same (finish_file p) (c_finish L file_truthy c).
  Proof.
    intros HS. pose proof HS as (H1 & H2 & H3 & H4 & H5 & H6 & H7). unfold finish_file, c_finish. rewrite <- H5. destruct (p_old p) as [|x l] eqn:E.
    - split; [easy|]. exact HS.
    - rewrite <- H6, <- H7, <- H4. pose proof (lib_complete (x :: l) (p_files p) (p_hs p) (p_counters p)) as HC.
      destruct (file_complete (x :: l) (p_hs p) (p_counters p) (p_files p)) as [f|e]; cbn [bind].
      + rewrite HC. split; [easy|]. now repeat split.
      + destruct HC as (hs' & ->). reflexivity.
  Qed.
  Lemma lib_part ty m p c s : sim p c ->
    let o := c_part rd reg name2cp st fuel L ty m c s in
    let r := one_part rd reg name2cp mk_temp st fuel ty m p s in
    same (fst r) (fst o) /\ snd r = snd o.
  Proof.
    intros HS. cbv zeta. assert (HD : forall s1 : lstream (biter (chunkiter R)), same (fst (Ok p, s1)) (fst (Good tt, c, s1)) /\ snd (Ok p, s1) = snd (Good tt, c, s1))
      by (intros s1; now repeat split; apply HS).
    unfold one_part, c_part. destruct (dget CDISP m) as [[v disp]|]; [|apply HD].
    destruct (dget !"name" disp) as [raw|]; [|apply HD]. cbv zeta.
    destruct (to_native (pstrip raw)) as [name|e]; [|easy]. destruct ty; [apply HD| |].
    - unfold read_file, c_read_file.
      match goal with |- context [match ?x with Ok _ => _ | Err _ => _ end] => destruct x as [[|y fn]|e] end; [apply HD| |easy].
      destruct (match dget !"content-type" m with Some w => w | None => ([], []) end) as [ct extra].
      set (i := mkInfo name (y :: fn) _ _ _ _). set (ln := match dget !"content-length" m with Some _ => _ | None => _ end).
      destruct HS as (H1 & H2 & H3 & H4 & H5 & H6 & H7). unfold c_deliver. cbv zeta. rewrite <- H7.
      pose proof (lib_new i ln (p_hs p)) as HN. destruct (new_files mk_temp i (p_hs p)) as [hs|e].
      + destruct HN as [-> HL]. assert (E0 : map (fun _ => 0) hs = map (fun _ : handler => 0) (p_hs p)).
        { revert HL. generalize (p_hs p). clear. induction hs as [|h hs IH]; intros [|h' hs']; cbn; try easy. intros H. f_equal. apply IH. lia. }
        rewrite E0. match goal with |- context [file_loop rd mk_temp st fuel fuel ?b _ _ _] => set (b64 := b) end.
        pose proof (lib_file_loop b64 fuel hs (map (fun _ => 0) (p_hs p)) s) as HF.
        destruct (file_loop rd mk_temp st fuel fuel b64 hs (map (fun _ => 0) (p_hs p)) s) as [[[hs1 cs1]|e] s1].
        * rewrite HF. split; [|easy]. split; [easy|]. now repeat split.
        * destruct HF as ([hs1 cs1] & ->). easy.
      + destruct HN as (hs' & ->). easy.
    - match goal with |- context [read_field rd reg st fuel name ?t m p s] => pose proof (lib_field name t m p c s HS) as HF;
        destruct (read_field rd reg st fuel name t m p s) as [[p'|e] s1] end.
      + destruct HF as (core & -> & HF). now split.
      + now rewrite HF.
  Qed.
  Lemma lib_loop : forall n p c s, sim p c ->
    let o := c_loop rd reg name2cp st D fuel L file_truthy n c s in
    let r := parts_loop rd reg name2cp mk_temp st D fuel n p s in
    same (fst r) (fst o) /\ snd r = snd o.
  Proof.
    induction n as [|n IH]; intros p c s HS; cbv zeta; [easy|]. cbn [parts_loop c_loop].
    destruct (bi_init (ci_next rd) fuel s D) as [[b|e] s1].
    2:{ now destruct e. }
    destruct (parse_boundary_stream rd reg fuel (ls_init b None)) as [[[ty m]|e] s2]; [|easy].
    pose proof (lib_finish p c HS) as HF. destruct (finish_file p) as [p1|e].
    - destruct (c_finish L file_truthy c) as [r1 c1]. destruct HF as [HF1 HF]. cbn [fst snd] in HF1, HF. subst r1.
      pose proof (lib_part ty m p1 c1 s2 HF) as [HP HP2].
      destruct (one_part rd reg name2cp mk_temp st fuel ty m p1 s2) as [[p2|e] s3];
        destruct (c_part rd reg name2cp st fuel L ty m c1 s2) as [[r2 c2] s3']; cbn [fst snd] in *; subst s3'.
      + destruct HP as [HP1 HP]. cbn [fst snd] in HP1, HP. subst r2. now apply IH.
      + cbn in HP. now subst r2.
    - destruct (c_finish L file_truthy c) as [r1 c1]. cbn in HF. now subst r1.
  Qed.

  Theorem lib_parse csize len hs r :
    let o := c_parse rd exh reg name2cp st D fuel L file_truthy len csize hs r in
    let x := mp_parse rd exh reg name2cp mk_temp st D fuel csize len hs r in
    match fst x with Ok (post, files) => fst (fst o) = Good (Parsed post files) | Err e => fst (fst o) = Bad (CExn e) end /\
    snd x = snd o.
  Proof.
    cbv zeta. unfold mp_parse, c_parse. cbv zeta. rewrite lib_raw. destruct (querydict reg (Some (ms_query st)) None true) as [qd|e]; [|now destruct (Z.eqb len 0)].
    destruct (Z.eqb len 0); [easy|]. set (hs1 := map (h_raw_input (ms_fmem st) len) hs).
    pose proof (lib_loop fuel (mkP [] [] [] (map (fun _ => 0) hs1) hs1 0 0) (mkC core0 [] [] (map (fun _ => 0) hs1) hs1)
                  (ls_init (mkCI r csize) None) ltac:(now repeat split)) as [HL HL2].
    destruct (parts_loop rd reg name2cp mk_temp st D fuel fuel _ _) as [[p|e] s];
      destruct (c_loop rd reg name2cp st D fuel L file_truthy fuel _ _) as [[r1 c1] s']; cbn [fst snd] in *; subst s'.
    - destruct HL as [HL1 HL]. cbn [fst snd] in HL1, HL. subst r1. destruct (exh (input_of r s)) as [[u|e] r2]; [|easy].
      unfold c_return. rewrite lib_end. cbn. destruct HL as (-> & _ & _ & -> & _). easy.
    - cbn in HL. now subst r1.
  Qed.
End Lib.
