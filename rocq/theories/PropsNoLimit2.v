(** * Theorem C131, continued: lists of handlers without ConvenientFileUploadHandler *)
From Verif Require Import Py Spec PyFacts PyDict StreamModel StreamSpec StreamFacts CodecModel QueryModel Base64Model HeaderModel
  BoundaryModel UploadModel MultipartModel MultipartDet FormSpec ItemFacts CustomModel CustomGuard CustomLib CustomPar
  PropsPart PropsMultipart PropsWatch RequestModel PropsSetup PropsNoLimit.

(** handlers that look at the limit once, when they are told the announced length *)
Definition plain (h : handler) : Prop := match h with HConv _ => False | _ => True end.
Definition same_plain (x y : list handler * list nat) : Prop := x = y /\ Forall plain (fst x).

Section Plain.
  Context (mk_temp : str -> res unit) (max1 max2 : option Z).
  Notation L1 := (lib_ops mk_temp max1).
  Notation L2 := (lib_ops mk_temp max2).
  Lemma plain_new i h : plain h -> plain (snd (h_new_file mk_temp i h)).
  Proof. destruct h as [m|t|c]; cbn; [|now destruct (temp_new_file mk_temp i t)|easy]. now destruct (mem_new_file i m). Qed.
  Lemma plain_receive d h : plain h -> h_receive mk_temp max1 d h = h_receive mk_temp max2 d h /\ plain (snd (h_receive mk_temp max2 d h)).
  Proof. destruct h as [m|t|c]; cbn; intros H; [now destruct (mem_receive d m)|now destruct (temp_receive d t)|easy]. Qed.
  Lemma plain_c_new i len : forall hs, Forall plain hs -> c_new L1 i len hs = c_new L2 i len hs /\ Forall plain (snd (c_new L2 i len hs)).
  Proof.
    induction hs as [|h hs IH]; intros H; [now split|]. inversion H as [|? ? H1 H2]; subst. destruct (IH H2) as [E F].
    pose proof (plain_new i h H1) as HP. cbn [c_new lib_ops o_new]. destruct (h_new_file mk_temp i h) as [r h1]. cbn [snd] in HP.
    rewrite E. destruct (c_new L2 i len hs) as [? ?]. cbn [snd] in F. destruct (lift_new r) as [[]|[]]; (split; [reflexivity|]); now constructor.
  Qed.
  Lemma plain_c_feed : forall hs cs d, Forall plain hs -> c_feed L1 d hs cs = c_feed L2 d hs cs /\ Forall plain (fst (snd (c_feed L2 d hs cs))).
  Proof.
    induction hs as [|h hs IH]; intros [|c cs] d H; try (now split). inversion H as [|? ? H1 H2]; subst.
    destruct (plain_receive d h H1) as [E HP]. cbn [c_feed lib_ops o_data]. rewrite E. destruct (h_receive mk_temp max2 d h) as [[[d1|]|e] h1]; cbn [of_res snd fst] in *.
    - destruct (IH cs d1 H2) as [E1 F]. rewrite E1. destruct (c_feed L2 d1 hs cs) as [? [? ?]]. cbn in *. split; [reflexivity|now constructor].
    - split; [reflexivity|now constructor].
    - split; [reflexivity|now constructor].
  Qed.
  Lemma plain_c_complete name files : forall hs cs, c_complete L1 file_truthy name hs cs files = c_complete L2 file_truthy name hs cs files /\
    snd (c_complete L2 file_truthy name hs cs files) = hs.
  Proof.
    induction hs as [|h hs IH]; intros [|c cs]; try (now split). destruct (IH cs) as [E F]. cbn [c_complete lib_ops o_done].
    rewrite E. destruct (c_complete L2 file_truthy name hs cs files) as [? ?]. cbn in F. subst.
    destruct (of_res (h_complete c h)) as [[f|]|e]; [destruct (file_truthy f)| |]; now split.
  Qed.
  Lemma plain_c_close : forall hs, c_close L1 hs = c_close L2 hs /\ snd (c_close L2 hs) = hs.
  Proof.
    induction hs as [|h hs [E F]]; [now split|]. cbn [c_close lib_ops o_close]. rewrite E.
    destruct (c_close L2 hs) as [? ?]. cbn in *. now subst.
  Qed.
  Lemma plain_c_end : forall hs, c_end L1 hs = c_end L2 hs.
  Proof. induction hs as [|h hs E]; [easy|]. cbn [c_end lib_ops o_end]. now rewrite E. Qed.
  Lemma same_refl d : same_files (@eq ufile) d d.
  Proof. induction d as [|[k l] d IH]; constructor; [|exact IH]. split; [reflexivity|]. cbn. induction l; now constructor. Qed.
  Lemma same_eq d d' : same_files (@eq ufile) d d' -> d = d'.
  Proof.
    induction 1 as [|[k l] [k' l'] d d' [E H] _ IH]; [reflexivity|]. cbn in E, H. subst k' d'. f_equal. f_equal.
    induction H as [|x y l l' -> _ IH2]; [reflexivity|now f_equal].
  Qed.
  Lemma plain_alike : alike L1 L2 file_truthy file_truthy (@eq ufile) same_plain same_plain.
  Proof.
    constructor.
    - easy.
    - intros i len x y [<- H]. destruct (plain_c_new i len (fst x) H) as [-> F]. split; [reflexivity|].
      destruct (fst (c_new L2 i len (fst x))); now split.
    - intros d x y [<- H]. destruct (plain_c_feed (fst x) (snd x) d H) as [-> F]. split; [reflexivity|].
      destruct (fst (c_feed L2 d (fst x) (snd x))); now split.
    - intros name x y f1 f2 [<- H] HF. apply same_eq in HF. subst f2. cbv zeta. destruct (plain_c_complete name f1 (fst x) (snd x)) as [-> F]. rewrite F.
      split; [|now split]. destruct (fst (c_complete L2 file_truthy name (fst x) (snd x) f1)) as [g|g]; [apply same_refl|reflexivity].
    - intros x y [<- H]. destruct (plain_c_close (fst x)) as [-> F]. rewrite F. split; [reflexivity|now split].
    - intros x y [<- H]. now rewrite plain_c_end.
  Qed.
End Plain.

(** only whether the announced length is within the limit matters to them *)
Lemma plain_parse {R} rd exh reg name2cp mk_temp st max1 max2 D fuel csize len ks (r : R) :
  ~ In KConv ks -> le_max len max1 = le_max len max2 ->
  mp_parse rd exh reg name2cp mk_temp (with_fmem st max1) D fuel csize len (map new_handler ks) r =
  mp_parse rd exh reg name2cp mk_temp (with_fmem st max2) D fuel csize len (map new_handler ks) r.
Proof.
  intros HK HL.
  destruct (lib_parse rd exh reg name2cp mk_temp (with_fmem st max1) D fuel csize len (map new_handler ks) r) as [A1 A2].
  destruct (lib_parse rd exh reg name2cp mk_temp (with_fmem st max2) D fuel csize len (map new_handler ks) r) as [B1 B2].
  assert (HR : map (h_raw_input max1 len) (map new_handler ks) = map (h_raw_input max2 len) (map new_handler ks) /\
               Forall plain (map (h_raw_input max2 len) (map new_handler ks))).
  { clear - HK HL. induction ks as [|k ks IH]; [split; [reflexivity|constructor]|]. destruct IH as [E F]; [intros H; apply HK; now right|]. cbn [map]. rewrite E.
    destruct k; cbn [new_handler h_raw_input]; [unfold mem_raw_input; rewrite HL| |destruct HK; now left]; (split; [reflexivity|now constructor]). }
  destruct HR as [HR1 HR2].
  destruct (par_parse (lib_ops mk_temp max1) (lib_ops mk_temp max2) file_truthy file_truthy eq eq same_plain same_plain
              (plain_alike mk_temp max1 max2) rd exh reg name2cp (with_fmem st max1) (with_fmem st max2) D fuel
              eq_refl eq_refl eq_refl len len csize (map new_handler ks) (map new_handler ks) r) as [HP1 HP2].
  - easy.
  - pose proof (lib_raw mk_temp (with_fmem st max1) len (map new_handler ks)) as E1. pose proof (lib_raw mk_temp (with_fmem st max2) len (map new_handler ks)) as E2.
    cbn [ms_fmem with_fmem] in E1, E2. now rewrite E1, E2.
  - pose proof (lib_raw mk_temp (with_fmem st max1) len (map new_handler ks)) as E1. pose proof (lib_raw mk_temp (with_fmem st max2) len (map new_handler ks)) as E2.
    cbn [ms_fmem with_fmem] in E1, E2. rewrite E1, E2. cbn [fst snd]. rewrite HR1. now split.
  - cbn [ms_fmem with_fmem] in A1, B1, A2, B2.
    destruct (mp_parse rd exh reg name2cp mk_temp (with_fmem st max1) D fuel csize len (map new_handler ks) r) as [[[p1 f1]|e1] r1],
      (mp_parse rd exh reg name2cp mk_temp (with_fmem st max2) D fuel csize len (map new_handler ks) r) as [[[p2 f2]|e2] r2];
      cbn [fst snd] in *; rewrite A1, B1 in HP1; cbn in HP1; try easy; subst r1 r2.
    + destruct HP1 as [-> HF]. apply same_eq in HF. now subst f2; f_equal.
    + injection HP1 as ->. now f_equal.
Qed.

(** with TemporaryFileUploadHandler among them, and no ConvenientFileUploadHandler, no limit at all and a negative
    limit do no harm: the result is the one of the default handler under any limit *)
Theorem C131_other_handlers_partial :
  forall R rd exh reg name2cp mk_temp st max m D fuel csize len ks (r : R),
  can_create mk_temp -> nothing_fits max -> (0 <= m)%Z -> (0 < len)%Z -> ~ In KConv ks -> In KTemp ks ->
  same_parse (mp_parse rd exh reg name2cp mk_temp (with_fmem st max) D fuel csize len (map new_handler ks) r)
             (mp_parse rd exh reg name2cp mk_temp (with_fmem st (Some m)) D fuel csize len default_handler r).
Proof.
  intros R rd exh reg name2cp mk_temp st max m D fuel csize len ks r Hmk Hx Hm Hl HK HT.
  rewrite (plain_parse rd exh reg name2cp mk_temp st max (Some 0%Z) D fuel csize len ks r HK).
  2: { rewrite (nothing_le max len Hx) by lia. symmetry. apply Z.leb_gt. exact Hl. }
  pose proof (C128_same_partial R rd exh reg name2cp mk_temp (with_fmem st (Some 0%Z)) 0%Z D fuel csize len ks [KConv] r Hmk eq_refl (Z.le_refl 0)) as H1.
  pose proof (C36_any_input R rd exh reg name2cp mk_temp st 0%Z m D fuel csize len len r Hmk (Z.le_refl 0) Hm (conj (fun x => x) (fun x => x))) as H2.
  cbv zeta in H2. change (map new_handler [KConv]) with default_handler in H1.
  assert (HS : setup len 0 ks).
  { split; [apply Exists_exists; now exists KTemp|]. intros a k b E HA. exfalso. destruct k; cbn in HA; [lia|exact HA|].
    apply HK. rewrite E. apply in_elt. }
  assert (HD : setup len 0 [KConv]).
  { split; [now constructor|]. intros [|? [|? ?]] ? ? E; try discriminate. now injection E. }
  specialize (H1 HS HD). unfold same_parse in *. destruct H1 as [H1 H1'], H2 as [H2 H2']. split; [|congruence].
  destruct (fst (mp_parse rd exh reg name2cp mk_temp (with_fmem st (Some 0%Z)) D fuel csize len (map new_handler ks) r)) as [[p1 f1]|e1],
    (fst (mp_parse rd exh reg name2cp mk_temp (with_fmem st (Some 0%Z)) D fuel csize len default_handler r)) as [[p2 f2]|e2],
    (fst (mp_parse rd exh reg name2cp mk_temp (with_fmem st (Some m)) D fuel csize len default_handler r)) as [[p3 f3]|e3]; try easy; try congruence.
  destruct H1 as (-> & K1 & F1), H2 as (-> & K2 & F2). split; [reflexivity|]. split; [congruence|]. intros k.
  specialize (F1 k). specialize (F2 k). revert F2. generalize (getl k f3). induction F1 as [|x y l1 l2 Hx1 _ IH]; intros l3 F2; inversion F2; subst; constructor.
  - match goal with H : same_file y _ |- _ => revert Hx1 H end. unfold same_file. intros (? & ? & ? & ? & ? & ? & ?) (? & ? & ? & ? & ? & ? & ?). repeat split; congruence.
  - now apply IH.
Qed.
Print Assumptions C131_other_handlers_partial.
(** the form of C22 with the two handlers, with no limit and a negative one *)
Definition ex_limit2 (max : option Z) (ks : list hkind) :=
  match fst (parse_src ex_reg no_cp ok_temp (with_fmem ex_ms max) !"--X" 900 4096 200%Z (map new_handler ks) [SData (render_form !"--X" ex_parts)]) with
  | Ok (post, files) => Ok (map fst post, map (fun f => uf_content f) (getl !"f" files))
  | Err e => Err e
  end.
Example C131_other_case :
  ~ In KConv [KMem; KTemp] /\ In KTemp [KMem; KTemp] /\
  ex_limit2 None [KMem; KTemp] = Ok ([!"a b"], [[0%N; 255%N; 13%N; 10%N]; !"abc"]) /\
  ex_limit2 (Some (-1)%Z) [KTemp; KMem] = Ok ([!"a b"], [[0%N; 255%N; 13%N; 10%N]; !"abc"]) /\
  ex_limit2 None [KConv] = Err AttributeError.
Proof. split; [intros [H|[H|[]]]; discriminate|]. split; [right; now left|]. vm_compute. repeat split; reflexivity. Qed.
