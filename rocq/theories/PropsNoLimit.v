(** * Theorem C131: a FILE_UPLOAD_MAX_MEMORY_SIZE of None, or below zero *)
From Verif Require Import Py Spec PyFacts PyDict StreamModel StreamSpec StreamFacts CodecModel QueryModel Base64Model HeaderModel
  BoundaryModel UploadModel MultipartModel MultipartDet FormSpec ItemFacts CustomModel CustomGuard CustomLib CustomPar
  PropsPart PropsMultipart PropsWatch RequestModel PropsSetup.

(** no number of bytes is within the limit: None (in Python 2 no integer is <= None) or a negative number *)
Definition nothing_fits (max : option Z) : Prop := match max with Some m => (m < 0)%Z | None => True end.
Lemma nothing_le max n : nothing_fits max -> (0 <= n)%Z -> le_max n max = false.
Proof. unfold nothing_fits, le_max. destruct max as [m|]; [|reflexivity]. intros. now apply Z.leb_gt; lia. Qed.

(** a collector that cannot take data *)
Definition broken : ops (option (finfo * str)) ufile Empty_set :=
  mkOps _ _ _ (o_raw (coll false)) (o_new (coll false)) (fun _ _ h => (Bad (CExn AttributeError), h)) (o_done (coll false)) (o_close (coll false)) (o_end (coll false)).

Section Broken.
  Context (mk_temp : str -> res unit) (max : option Z) (Hx : nothing_fits max).
  Notation L := (lib_ops mk_temp max).
  (** the default handler whose inner handler was not activated *)
  Definition inactive (h : handler) : Prop :=
    exists mi n, h = HConv (mkConv (IMem mi) n false) /\ mh_activated mi = Some false.
  Definition idle (h : option (finfo * str)) : Prop := h = None \/ exists i, h = Some (i, []).
  Definition ri (x : list handler * list nat) (y : list (option (finfo * str)) * list nat) : Prop :=
    exists h k g, x = ([h], [k]) /\ y = ([g], [k]) /\ inactive h /\ idle g.
  Definition ro (x : list handler * list nat) (y : list (option (finfo * str)) * list nat) : Prop :=
    exists h k i, x = ([h], [k]) /\ y = ([Some (i, [])], [k]) /\ inactive h.
  Lemma broken_alike : alike L broken file_truthy file_truthy (fun _ _ => False) ri ro.
  Proof.
    constructor.
    - intros x y (h & k & i & -> & -> & H). exists h, k, (Some (i, [])). repeat split; try easy. right. now exists i.
    - intros i len x y (h & k & g & -> & -> & (mi & n & -> & Ha) & Hg). unfold after_new. cbn. unfold conv_new_file, inner_new_file, mem_new_file. cbn. rewrite Ha. cbn.
      split; [reflexivity|]. eexists _, 0, i. split; [reflexivity|]. split; [reflexivity|]. now eexists _, n.
    - intros d x y (h & k & i & -> & -> & (mi & n & -> & Ha)). cbn. unfold conv_receive. cbn. rewrite (nothing_le max _ Hx) by lia. cbn.
      unfold conv_switch. cbn. unfold mem_complete. rewrite Ha. cbn. split; [reflexivity|]. eexists _, k, _. split; [reflexivity|]. split; [reflexivity|].
      split; [now eexists _, n|]. right. now exists i.
    - intros name x y f1 f2 (h & k & i & -> & -> & (mi & n & -> & Ha)) Hf. cbn. unfold mem_complete. rewrite Ha. cbn. split; [exact Hf|].
      eexists _, k, _. split; [reflexivity|]. split; [reflexivity|]. split; [now eexists _, n|]. right. now exists i.
    - intros x y (h & k & g & -> & -> & H1 & H2). cbn. split; [reflexivity|]. now exists h, k, g.
    - intros x y (h & k & g & -> & -> & H1 & H2). reflexivity.
  Qed.
End Broken.

(** a collector that cannot take data does as one that can, or raises *)
Section OrData.
  Notation G := broken.
  Notation G1 := (coll false).
  Lemma d_new i len : forall hs, c_new G i len hs = c_new G1 i len hs.
  Proof. reflexivity. Qed.
  Lemma d_close : forall hs, c_close G hs = c_close G1 hs.
  Proof. reflexivity. Qed.
  Lemma d_end : forall hs, c_end G hs = c_end G1 hs.
  Proof. reflexivity. Qed.
  Lemma d_finish p : c_finish G file_truthy p = c_finish G1 file_truthy p.
  Proof. reflexivity. Qed.
  Context {R : Type} (rd : nat -> R -> res str * R) (exh : R -> res unit * R) (reg : registry) (name2cp : str -> option N) (st : mset) (D : str) (fuel : nat).
  Lemma d_feed d : forall hs cs, c_feed G d hs cs = c_feed G1 d hs cs \/ fst (c_feed G d hs cs) = Bad (CExn AttributeError).
  Proof. intros [|h hs] [|c cs]; try (now left). now right. Qed.
  Lemma d_file_loop b64 : forall n hs cs s, c_file_loop rd fuel G n b64 hs cs s = c_file_loop rd fuel G1 n b64 hs cs s \/
    fst (fst (c_file_loop rd fuel G n b64 hs cs s)) = Bad (CExn AttributeError).
  Proof.
    induction n as [|n IH]; intros hs cs s; [now left|]. cbn [c_file_loop]. destruct (ls_next _ s) as [[c| |e] s1]; try (now left).
    destruct (if b64 then _ else _) as [[d|e] s2]; [|now left]. destruct (d_feed d hs cs) as [->|H].
    - destruct (c_feed G1 d hs cs) as [[u|x] hc]; [apply IH|now left].
    - right. destruct (c_feed G d hs cs) as [[u|x] hc]; [discriminate|]. cbn [fst] in H |- *. exact H.
  Qed.
  Lemma d_deliver i len b64 p s : c_deliver rd fuel G i len b64 p s = c_deliver rd fuel G1 i len b64 p s \/
    fst (fst (c_deliver rd fuel G i len b64 p s)) = Bad (CExn AttributeError).
  Proof.
    unfold c_deliver. cbv zeta. rewrite d_new. destruct (c_new G1 i len (c_hs p)) as [[u|x] hs]; [|now left].
    destruct (d_file_loop b64 fuel hs (map (fun _ => 0) (c_hs p)) s) as [->|H]; [now left|right].
    destruct (c_file_loop rd fuel G fuel b64 hs (map (fun _ => 0) (c_hs p)) s) as [[[u'|x] [hs' cs']] s1]; [discriminate|]. cbn [fst] in H. injection H as ->. reflexivity.
  Qed.
  Lemma d_part ty m p s : c_part rd reg name2cp st fuel G ty m p s = c_part rd reg name2cp st fuel G1 ty m p s \/
    fst (fst (c_part rd reg name2cp st fuel G ty m p s)) = Bad (CExn AttributeError).
  Proof.
    unfold c_part. destruct (dget CDISP m) as [[x disp]|]; [|now left]. destruct (dget _ disp) as [raw|]; [|now left].
    destruct (to_native _) as [name|e]; [|now left]. destruct ty; [now left| |now left].
    unfold c_read_file. destruct (match dget !"filename" disp with Some _ => _ | None => _ end) as [[|c f]|e]; try (now left).
    destruct (match dget !"content-type" m with Some v => v | None => _ end). apply d_deliver.
  Qed.
  Lemma d_loop : forall n p s, c_loop rd reg name2cp st D fuel G file_truthy n p s = c_loop rd reg name2cp st D fuel G1 file_truthy n p s \/
    fst (fst (c_loop rd reg name2cp st D fuel G file_truthy n p s)) = Bad (CExn AttributeError).
  Proof.
    induction n as [|n IH]; intros p s; [now left|]. cbn [c_loop].
    destruct (bi_init (ci_next rd) fuel s D) as [[b|e] s1]; [|now left].
    destruct (parse_boundary_stream rd reg fuel (ls_init b None)) as [[[ty h]|e] s2]; [|now left].
    rewrite d_finish. destruct (c_finish G1 file_truthy p) as [[u|x] p1]; [|now left].
    destruct (d_part ty h p1 s2) as [->|H].
    - destruct (c_part rd reg name2cp st fuel G1 ty h p1 s2) as [[[v|x] p2] s3]; [apply IH|now left].
    - right. destruct (c_part rd reg name2cp st fuel G ty h p1 s2) as [[[v|x] p2] s3]; [discriminate|]. exact H.
  Qed.
  Lemma d_parse len csize hs (r : R) :
    c_parse rd exh reg name2cp st D fuel G file_truthy len csize hs r = c_parse rd exh reg name2cp st D fuel G1 file_truthy len csize hs r \/
    fst (fst (c_parse rd exh reg name2cp st D fuel G file_truthy len csize hs r)) = Bad (CExn AttributeError).
  Proof.
    unfold c_parse. cbv zeta. destruct (querydict reg (Some (ms_query st)) None true) as [qd|e]; [|now left].
    destruct (Z.eqb len 0); [now left|]. change (c_raw G len hs) with (c_raw G1 len hs). destruct (c_raw G1 len hs) as [[[x|]|x] hs1]; try (now left).
    match goal with |- context [c_loop rd reg name2cp st D fuel G file_truthy fuel ?p ?s] => destruct (d_loop fuel p s) as [->|H];
      [now left|right; destruct (c_loop rd reg name2cp st D fuel G file_truthy fuel p s) as [[x p1] s1]; cbn [fst] in H; now subst x] end.
  Qed.
End OrData.

(** ** C131 *)
(** with the default handler, for every input and every reader: AttributeError, or the same result as under every
    proper limit, without any file *)
Theorem C131_no_files_partial :
  forall R rd exh reg name2cp mk_temp st max m D fuel csize len (r : R),
  can_create mk_temp -> nothing_fits max -> (0 <= m)%Z ->
  let a := mp_parse rd exh reg name2cp mk_temp (with_fmem st max) D fuel csize len default_handler r in
  let b := mp_parse rd exh reg name2cp mk_temp (with_fmem st (Some m)) D fuel csize len default_handler r in
  fst a = Err AttributeError \/
  (same_parse a b /\ forall post files k, fst b = Ok (post, files) -> getl k files = []).
Proof.
  intros R rd exh reg name2cp mk_temp st max m D fuel csize len r Hmk Hx Hm. cbv zeta.
  pose proof (lib_parse rd exh reg name2cp mk_temp (with_fmem st max) D fuel csize len default_handler r) as HA. cbv zeta in HA.
  destruct (mp_as_custom rd exh reg name2cp mk_temp (with_fmem st (Some m)) m D fuel csize len default_handler r eq_refl) as [B1 B2].
  destruct (par_parse _ _ _ _ _ (fun _ _ => False) _ _ (broken_alike mk_temp max Hx) rd exh reg name2cp (with_fmem st max) (with_fmem st (Some m)) D fuel eq_refl eq_refl eq_refl
              len len csize default_handler [None] r) as [H1 H2]; [easy| | |].
  - exact I.
  - cbn. unfold conv_raw_input. cbn. exists (HConv (mkConv (IMem (mem_raw_input max 0 new_mem)) 0 false)), 0, None. split; [reflexivity|]. split; [reflexivity|]. split; [|now left].
    eexists _, 0. split; [reflexivity|]. cbn. now rewrite (nothing_le max 0 Hx).
  - destruct (lane_parse rd exh reg name2cp mk_temp (with_fmem st (Some m)) m D fuel len csize [KConv] r false Hmk Hm) as [H3 H4].
    { now constructor. }
    { right. split; [now constructor|]. intros [|? [|? ?]] ? ? E; try discriminate. now injection E. }
    change (ms_fmem (with_fmem st max)) with max in HA.
    destruct (d_parse rd exh reg name2cp (with_fmem st (Some m)) D fuel len csize [None] r) as [E|E].
    + right. rewrite E in H1, H2. clear E. destruct HA as [A1 A2]. change (map new_handler [KConv]) with default_handler in H3, H4.
      destruct (fst (mp_parse rd exh reg name2cp mk_temp (with_fmem st max) D fuel csize len default_handler r)) as [[p1 f1]|e1] eqn:Ea,
        (fst (mp_parse rd exh reg name2cp mk_temp (with_fmem st (Some m)) D fuel csize len default_handler r)) as [[p2 f2]|e2] eqn:Eb;
        rewrite A1 in H1; rewrite B1 in H3;
        destruct (fst (fst (c_parse rd exh reg name2cp (with_fmem st (Some m)) D fuel (coll false) file_truthy len csize [None] r))) as [[y|p3 f3]|y];
        cbn in H1, H3; try easy; unfold same_parse; rewrite Ea, Eb.
      * destruct H1 as [-> H1], H3 as [-> H3].
        assert (HE : forall k, getl k f1 = [] /\ getl k f3 = []).
        { intros k. pose proof (same_files_get _ k _ _ H1) as HG. unfold getl. destruct (dget k f1) as [l1|], (dget k f3) as [l3|]; try easy. now destruct HG. }
        assert (HF : forall k, getl k f2 = []).
        { intros k. pose proof (same_files_get _ k _ _ H3) as HG. destruct (HE k) as [_ HE2]. unfold getl in *. destruct (dget k f2) as [l2|], (dget k f3) as [l3|]; try easy.
          subst l3. now inversion HG. }
        split; [split; [|congruence]|].
        -- split; [reflexivity|]. split.
           ++ assert (HK : forall (RF : ufile -> ufile -> Prop) d d', same_files RF d d' -> map fst d = map fst d').
              { clear. intros RF. induction 1 as [|x y d d' [E _] _ IH]; [reflexivity|]. cbn. now rewrite E, IH. }
              now rewrite (HK _ _ _ H1), (HK _ _ _ H3).
           ++ intros k. rewrite HF, (proj1 (HE k)). constructor.
        -- intros post files k E. injection E as <- <-. apply HF.
      * split; [split; congruence|]. easy.
    + left. rewrite E in H1. destruct HA as [A1 _].
      destruct (fst (mp_parse rd exh reg name2cp mk_temp (with_fmem st max) D fuel csize len default_handler r)) as [[p1 f1]|e1]; rewrite A1 in H1; cbn in H1; [easy|congruence].
Qed.
Print Assumptions C131_no_files_partial.
(** every upload is refused with AttributeError *)
Theorem C131_files_refuted :
  forall R rd exh reg name2cp mk_temp st max m D fuel csize len (r : R) post files k f,
  can_create mk_temp -> nothing_fits max -> (0 <= m)%Z ->
  fst (mp_parse rd exh reg name2cp mk_temp (with_fmem st (Some m)) D fuel csize len default_handler r) = Ok (post, files) -> In f (getl k files) ->
  fst (mp_parse rd exh reg name2cp mk_temp (with_fmem st max) D fuel csize len default_handler r) = Err AttributeError.
Proof.
  intros R rd exh reg name2cp mk_temp st max m D fuel csize len r post files k f Hmk Hx Hm HP Hin.
  destruct (C131_no_files_partial R rd exh reg name2cp mk_temp st max m D fuel csize len r Hmk Hx Hm) as [H|[_ H]]; [exact H|].
  now rewrite (H post files k HP) in Hin.
Qed.
Print Assumptions C131_files_refuted.
(** the form of C22 with no limit, a negative one and 0 *)
Definition ex_limit (max : option Z) (ps : list part) :=
  match fst (parse_src ex_reg no_cp ok_temp (with_fmem ex_ms max) !"--X" 900 4096 200%Z default_handler [SData (render_form !"--X" ps)]) with
  | Ok (post, files) => Ok (map fst post, map (fun f => uf_content f) (getl !"f" files))
  | Err e => Err e
  end.
Example C131_case :
  nothing_fits None /\ nothing_fits (Some (-1)%Z) /\
  ex_limit (Some 0%Z) ex_parts = Ok ([!"a b"], [[0%N; 255%N; 13%N; 10%N]; !"abc"]) /\
  ex_limit None ex_parts = Err AttributeError /\ ex_limit (Some (-1)%Z) ex_parts = Err AttributeError /\
  ex_limit None (firstn 1 ex_parts) = Ok ([!"a b"], []) /\ ex_limit (Some 0%Z) (firstn 1 ex_parts) = Ok ([!"a b"], []).
Proof. split; [exact I|]. split; [reflexivity|]. vm_compute. repeat split; reflexivity. Qed.
