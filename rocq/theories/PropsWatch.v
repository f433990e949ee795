(** * Theorems C99 and C36: handlers that only look on, and the place where uploads are kept *)
From Verif Require Import Py Spec PyFacts PyDict StreamModel StreamSpec StreamFacts CodecModel QueryModel Base64Model HeaderModel
  BoundaryModel UploadModel MultipartModel MultipartDet FormSpec ItemFacts CustomModel CustomGuard CustomLib CustomPar
  PropsPart PropsMultipart.

(** ** C99: observers *)
(** a handler that only looks on: handle_raw_input and file_complete return None, new_file
    returns, receive_data_chunk returns the data it is given, upload_complete returns a false value;
    what it remembers is arbitrary *)
Record watcher (W : Type) := mkW {
  w_raw : Z -> W -> W;
  w_new : finfo -> option Z -> W -> W;
  w_data : str -> nat -> W -> W;
  w_done : nat -> W -> W;
  w_close : W -> W;
  w_end : W -> W }.
Arguments w_raw {W}. Arguments w_new {W}. Arguments w_data {W}. Arguments w_done {W}. Arguments w_close {W}. Arguments w_end {W}.
Definition side {W S A} (r : cr A * S) : cr A * (W + S) := (fst r, inr (snd r)).
Definition with_watchers {W S F X} (w : watcher W) (O : ops S F X) : ops (W + S) F X :=
  mkOps (W + S) F X
    (fun len h => match h with inl a => (Good None, inl (w_raw w len a)) | inr s => side (o_raw O len s) end)
    (fun i len h => match h with inl a => (Good tt, inl (w_new w i len a)) | inr s => side (o_new O i len s) end)
    (fun d n h => match h with inl a => (Good (Some d), inl (w_data w d n a)) | inr s => side (o_data O d n s) end)
    (fun n h => match h with inl a => (Good None, inl (w_done w n a)) | inr s => side (o_done O n s) end)
    (fun h => match h with inl a => (Good tt, inl (w_close w a)) | inr s => side (o_close O s) end)
    (fun h => match h with inl a => (Good false, inl (w_end w a)) | inr s => side (o_end O s) end).
(** the list without the observers *)
Fixpoint unwatched {W S} (hs : list (W + S)) : list S :=
  match hs with [] => [] | inl _ :: r => unwatched r | inr s :: r => s :: unwatched r end.

Section Watch.
  Context {W S F X : Type} (w : watcher W) (O : ops S F X) (truthy : F -> bool).
  Notation WO := (with_watchers w O).
  Inductive ins : list (W + S) -> list nat -> list S -> list nat -> Prop :=
  | ins_nil : ins [] [] [] []
  | ins_watch a c hs cs hs' cs' : ins hs cs hs' cs' -> ins (inl a :: hs) (c :: cs) hs' cs'
  | ins_keep s c hs cs hs' cs' : ins hs cs hs' cs' -> ins (inr s :: hs) (c :: cs) (s :: hs') (c :: cs').
  Definition insp (x : list (W + S) * list nat) (y : list S * list nat) : Prop := ins (fst x) (snd x) (fst y) (snd y).

  Lemma ins_zeros hs cs hs' cs' : ins hs cs hs' cs' -> ins hs (zeros hs) hs' (zeros hs').
  Proof. induction 1; now constructor. Qed.
  Lemma watch_raw len : forall hs, fst (c_raw WO len hs) = fst (c_raw O len (unwatched hs)) /\
    ins (snd (c_raw WO len hs)) (zeros (snd (c_raw WO len hs))) (snd (c_raw O len (unwatched hs))) (zeros (snd (c_raw O len (unwatched hs)))).
  Proof.
    assert (HU : forall hs, ins hs (zeros hs) (unwatched hs) (zeros (unwatched hs))).
    { induction hs as [|[a|s] hs IH]; cbn; now constructor. }
    induction hs as [|[a|s] hs [IH1 IH2]]; [now repeat constructor| |]; cbn [unwatched c_raw with_watchers o_raw].
    - destruct (c_raw WO len hs) as [r hs1]. cbn [fst snd] in *. split; [exact IH1|now constructor].
    - destruct (o_raw O len s) as [[[x|]|x] s1]; cbn [side fst snd].
      + split; [reflexivity|]. constructor. apply HU.
      + destruct (c_raw WO len hs) as [r hs1], (c_raw O len (unwatched hs)) as [r' hs1']. cbn [fst snd] in *.
        split; [exact IH1|now constructor].
      + split; [reflexivity|]. constructor. apply HU.
  Qed.
  Lemma watch_new i len hs cs hs' cs' : ins hs cs hs' cs' ->
    fst (c_new WO i len hs) = fst (c_new O i len hs') /\ ins (snd (c_new WO i len hs)) (zeros hs) (snd (c_new O i len hs')) (zeros hs').
  Proof.
    induction 1 as [|a c hs cs hs' cs' H [IH1 IH2]|s c hs cs hs' cs' H [IH1 IH2]]; [now repeat constructor| |];
      cbn [c_new with_watchers o_new].
    - destruct (c_new WO i len hs) as [r hs1]. cbn [fst snd] in *. split; [exact IH1|now constructor].
    - destruct (o_new O i len s) as [[u|x] s1]; cbn [side fst snd].
      + destruct (c_new WO i len hs) as [r hs1], (c_new O i len hs') as [r' hs1']. cbn [fst snd] in *.
        split; [exact IH1|now constructor].
      + destruct x; (split; [reflexivity|]; constructor; now apply (ins_zeros hs cs hs' cs')).
  Qed.
  Lemma watch_feed hs cs hs' cs' : ins hs cs hs' cs' -> forall d,
    fst (c_feed WO d hs cs) = fst (c_feed O d hs' cs') /\ insp (snd (c_feed WO d hs cs)) (snd (c_feed O d hs' cs')).
  Proof.
    induction 1 as [|a c hs cs hs' cs' H IH|s c hs cs hs' cs' H IH]; intros d; [now repeat constructor| |];
      cbn [c_feed with_watchers o_data].
    - destruct (IH d) as [IH1 IH2]. destruct (c_feed WO d hs cs) as [r [hs1 cs1]]. cbn [fst snd] in *. split; [exact IH1|now constructor].
    - destruct (o_data O d c s) as [[[d1|]|x] s1]; cbn [side fst snd].
      + destruct (IH d1) as [IH1 IH2]. destruct (c_feed WO d1 hs cs) as [r [hs1 cs1]], (c_feed O d1 hs' cs') as [r' [hs1' cs1']]. cbn [fst snd] in *.
        split; [exact IH1|now constructor].
      + split; [reflexivity|]. now constructor.
      + split; [reflexivity|]. now constructor.
  Qed.
  Lemma watch_done name f hs cs hs' cs' : ins hs cs hs' cs' ->
    fst (c_complete WO truthy name hs cs f) = fst (c_complete O truthy name hs' cs' f) /\
    ins (snd (c_complete WO truthy name hs cs f)) cs (snd (c_complete O truthy name hs' cs' f)) cs'.
  Proof.
    induction 1 as [|a c hs cs hs' cs' H [IH1 IH2]|s c hs cs hs' cs' H [IH1 IH2]]; [now repeat constructor| |];
      cbn [c_complete with_watchers o_done].
    - destruct (c_complete WO truthy name hs cs f) as [r hs1]. cbn [fst snd] in *. split; [exact IH1|now constructor].
    - destruct (o_done O c s) as [[o|x] s1]; cbn [side fst snd].
      + destruct (match o with Some f => truthy f | None => false end); [split; [reflexivity|]; now constructor|].
        destruct (c_complete WO truthy name hs cs f) as [r hs1], (c_complete O truthy name hs' cs' f) as [r' hs1']. cbn [fst snd] in *.
        split; [exact IH1|now constructor].
      + split; [reflexivity|]. now constructor.
  Qed.
  Lemma watch_close hs cs hs' cs' : ins hs cs hs' cs' ->
    fst (c_close WO hs) = fst (c_close O hs') /\ ins (snd (c_close WO hs)) cs (snd (c_close O hs')) cs'.
  Proof.
    induction 1 as [|a c hs cs hs' cs' H [IH1 IH2]|s c hs cs hs' cs' H [IH1 IH2]]; [now repeat constructor| |];
      cbn [c_close with_watchers o_close].
    - destruct (c_close WO hs) as [r hs1]. cbn [fst snd] in *. split; [exact IH1|now constructor].
    - destruct (o_close O s) as [[o|x] s1]; cbn [side fst snd].
      + destruct (c_close WO hs) as [r hs1], (c_close O hs') as [r' hs1']. cbn [fst snd] in *. split; [exact IH1|now constructor].
      + split; [reflexivity|]. now constructor.
  Qed.
  Lemma watch_end hs cs hs' cs' : ins hs cs hs' cs' -> fst (c_end WO hs) = fst (c_end O hs').
  Proof.
    induction 1 as [|a c hs cs hs' cs' H IH|s c hs cs hs' cs' H IH]; [reflexivity| |]; cbn [c_end with_watchers o_end].
    - now destruct (c_end WO hs) as [r hs1].
    - destruct (o_end O s) as [[[]|x] s1]; cbn [side fst snd]; try reflexivity.
      now destruct (c_end WO hs) as [r hs1], (c_end O hs') as [r' hs1'].
  Qed.
  Lemma same_eq {A} (d1 d2 : dict (list A)) : same_files eq d1 d2 -> d1 = d2.
  Proof.
    assert (HL : forall l1 l2 : list A, Forall2 eq l1 l2 -> l1 = l2) by (induction 1; congruence).
    induction 1 as [|[k1 l1] [k2 l2] d1 d2 [E H] _ ->]; [reflexivity|]. cbn in E, H. apply HL in H. now subst.
  Qed.
  Lemma eq_same {A} (d : dict (list A)) : same_files eq d d.
  Proof.
    induction d as [|[k l] d IH]; constructor; [|exact IH]. split; [reflexivity|]. cbn. induction l; now constructor.
  Qed.
  Lemma watch_alike : alike WO O truthy truthy eq insp insp.
  Proof.
    constructor.
    - easy.
    - intros i len [hs cs] [hs' cs'] H. destruct (watch_new i len hs cs hs' cs' H) as [E H2]. split; [exact E|].
      cbn [fst snd]. now destruct (fst (c_new WO i len hs)).
    - intros d [hs cs] [hs' cs'] H. destruct (watch_feed hs cs hs' cs' H d) as [E H2]. split; [exact E|]. cbn [fst snd].
      now destruct (fst (c_feed WO d hs cs)).
    - intros name [hs cs] [hs' cs'] f1 f2 H Hf. apply same_eq in Hf. subst f2. cbv zeta. cbn [fst snd].
      destruct (watch_done name f1 hs cs hs' cs' H) as [E H2]. split; [|exact H2]. rewrite E.
      destruct (fst (c_complete O truthy name hs' cs' f1)); [apply eq_same|reflexivity].
    - intros [hs cs] [hs' cs'] H. exact (watch_close hs cs hs' cs' H).
    - intros [hs cs] [hs' cs'] H. exact (watch_end hs cs hs' cs' H).
  Qed.
End Watch.

(** the same result, and the same input left, with and without them: any input (failing or not), any
    number of observers at any places between any other handlers *)
Theorem C99_observers :
  forall W S F X (w : watcher W) (O : ops S F X) truthy R rd exh reg name2cp st D fuel len csize hs (r : R),
  let a := c_parse rd exh reg name2cp st D fuel (with_watchers w O) truthy len csize hs r in
  let b := c_parse rd exh reg name2cp st D fuel O truthy len csize (unwatched hs) r in
  fst (fst a) = fst (fst b) /\ snd a = snd b.
Proof.
  intros W S F X w O truthy R rd exh reg name2cp st D fuel len csize hs r. cbv zeta.
  destruct (watch_raw w O len hs) as [HR HI].
  destruct (par_parse (with_watchers w O) O truthy truthy eq eq insp insp (watch_alike w O truthy) rd exh reg name2cp st st D fuel
              eq_refl eq_refl eq_refl len len csize hs (unwatched hs) r) as [H1 H2]; [easy| |exact HI|].
  - rewrite HR. destruct (fst (c_raw O len (unwatched hs))) as [[x|]|x]; easy.
  - split; [|exact H2].
    destruct (fst (fst (c_parse rd exh reg name2cp st D fuel (with_watchers w O) truthy len csize hs r))) as [[x|p f]|x],
      (fst (fst (c_parse rd exh reg name2cp st D fuel O truthy len csize (unwatched hs) r))) as [[y|p' f']|y]; cbn in H1; try easy; try congruence.
    destruct H1 as [-> H1]. apply same_eq in H1. now subst.
Qed.
Print Assumptions C99_observers.

(** the default handler between two observers that write down what they see *)
Definition ex_watch : watcher (list str) :=
  mkW _ (fun _ l => l) (fun i _ l => l ++ [fi_name i]) (fun d _ l => l ++ [d]) (fun _ l => l ++ [!"done"]) (fun l => l) (fun l => l ++ [!"end"]).
Definition ex_watched :=
  c_parse src_read it_exhaust ex_reg no_cp ex_ms !"--X" 600 (with_watchers ex_watch (lib_ops ok_temp (ms_fmem ex_ms))) file_truthy 1%Z 4096
    [inl []; inr (HConv new_conv); inl []] [SData (render_form !"--X" ex_parts)].
Example C99_case : unwatched [inl (@nil str); inr (HConv new_conv); inl []] = default_handler /\
  fst (fst ex_watched) = match ex_parse ex_ms (render_form !"--X" ex_parts) with Ok (post, files) => Good (Parsed post files) | Err e => Bad (CExn e) end /\
  (match fst (fst ex_watched) with Good (Parsed post files) => map fst post = [!"a b"] /\ map fst files = [!"f"] | _ => False end) /\
  (match snd (fst ex_watched) with inl l :: _ => 4 < length l | _ => False end).
Proof. vm_compute. repeat split; try reflexivity; repeat constructor. Qed.

(** ** C36: where the default handler keeps an upload is not seen, whatever the input *)
Section Spill.
  Context (mk_temp : str -> res unit) (Hmk : can_create mk_temp) (m1 m2 : Z) (H1 : (0 <= m1)%Z) (H2 : (0 <= m2)%Z).
  Notation L1 := (lib_ops mk_temp (Some m1)).
  Notation L2 := (lib_ops mk_temp (Some m2)).
  Definition conv_ok (c : convh) : Prop := match cv_inner c with IMem m => mh_activated m = Some true /\ cv_switched c = false | ITemp _ => cv_switched c = true end.
  Definition conv_open (c : convh) (i : finfo) (d : str) : Prop :=
    match cv_inner c with IMem m => mh_info m = Some i /\ mh_file m = Some d | ITemp t => th_info t = Some i /\ th_file t = Some d end.
  Definition kin (x y : list handler * list nat) : Prop :=
    exists c1 c2 k, x = ([HConv c1], [k]) /\ y = ([HConv c2], [k]) /\ conv_ok c1 /\ conv_ok c2 /\ cv_received c1 = cv_received c2.
  Definition kin_open (x y : list handler * list nat) : Prop :=
    exists c1 c2 k i d, x = ([HConv c1], [k]) /\ y = ([HConv c2], [k]) /\ conv_ok c1 /\ conv_ok c2 /\ cv_received c1 = cv_received c2 /\
      conv_open c1 i d /\ conv_open c2 i d.
  Lemma conv_new_ok i c : conv_ok c -> exists r c', conv_new_file mk_temp i c = (r, c') /\ conv_ok c' /\ conv_open c' i [] /\
    cv_received c' = cv_received c /\ (r = Ok tt \/ r = Err StopFutureHandlers).
  Proof.
    destruct c as [[m|t] n b]; unfold conv_ok, conv_new_file, inner_new_file; cbn [cv_inner cv_switched cv_received].
    - intros [HA HB]. unfold mem_new_file. rewrite HA. do 2 eexists. split; [reflexivity|]. repeat split; try easy. now right.
    - intros HA. unfold temp_new_file. destruct (Hmk (temp_suffix (fi_name i))) as [x ->]. do 2 eexists. split; [reflexivity|]. repeat split; try easy. now left.
  Qed.
  Lemma conv_receive_ok m d w i c : conv_ok c -> conv_open c i w -> exists c', conv_receive mk_temp (Some m) d c = (Ok None, c') /\ conv_ok c' /\
    conv_open c' i (w ++ d) /\ cv_received c' = cv_received c + length d.
  Proof.
    destruct c as [[h|t] n b]; unfold conv_ok, conv_open, conv_receive; cbn [cv_inner cv_switched cv_received].
    - intros [HA ->] [HB HC]. cbn [negb andb]. destruct (le_max (Z.of_nat (n + length d)) (Some m)); cbn [negb].
      + unfold inner_receive, mem_receive. cbn [cv_inner cv_received cv_switched]. rewrite HA, HC. eexists. split; [reflexivity|]. now repeat split.
      + unfold conv_switch. cbn [cv_inner cv_received inner_complete inner_info]. unfold mem_complete. rewrite HA, HC, HB. cbn [bind].
        unfold temp_new_file. destruct (Hmk (temp_suffix (fi_name i))) as [x ->]. unfold temp_receive. cbn. eexists. split; [reflexivity|]. now repeat split.
    - intros -> [HB HC]. cbn [negb andb]. unfold inner_receive, temp_receive. cbn [cv_inner cv_received cv_switched]. rewrite HC.
      eexists. split; [reflexivity|]. now repeat split.
  Qed.
  Lemma conv_complete_ok n i d c : conv_ok c -> conv_open c i d -> exists f, inner_complete n (cv_inner c) = Ok (Some f) /\
    uf_name f = set_name (fi_name i) /\ uf_content f = d /\ uf_size f = n /\ uf_ctype f = fi_ctype i /\ uf_charset f = fi_charset i /\
    uf_extra f = fi_extra i /\ uf_tenc f = fi_tenc i.
  Proof.
    destruct c as [[h|t] k b]; unfold conv_ok, conv_open; cbn [cv_inner cv_switched cv_received inner_complete].
    - intros [HA ->] [HB HC]. unfold mem_complete. rewrite HA, HC, HB. eexists. split; [reflexivity|]. now repeat split.
    - intros -> [HB HC]. unfold temp_complete. rewrite HC, HB. eexists. split; [reflexivity|]. now repeat split.
  Qed.
  Lemma spill_alike : alike L1 L2 file_truthy file_truthy same_file kin kin_open.
  Proof.
    constructor.
    - intros x y (c1 & c2 & k & i & d & E1 & E2 & A1 & A2 & A3 & _). now exists c1, c2, k.
    - intros i len x y (c1 & c2 & k & -> & -> & A1 & A2 & A3). cbn [fst snd]. unfold after_new.
      destruct (conv_new_ok i c1 A1) as (r1 & c1' & E1 & B1 & B2 & B3 & B4). destruct (conv_new_ok i c2 A2) as (r2 & c2' & E2 & D1 & D2 & D3 & D4).
      cbn [c_new lib_ops o_new h_new_file]. rewrite E1, E2.
      assert (HO : kin_open ([HConv c1'], zeros [HConv c1]) ([HConv c2'], zeros [HConv c2])).
      { exists c1', c2', 0, i, []. repeat split; try assumption. congruence. }
      destruct B4 as [-> | ->], D4 as [-> | ->]; cbn; (split; [reflexivity|exact HO]).
    - intros d x y (c1 & c2 & k & i & w & -> & -> & A1 & A2 & A3 & A4 & A5). cbn [fst snd c_feed lib_ops o_data h_receive].
      destruct (conv_receive_ok m1 d w i c1 A1 A4) as (c1' & -> & B1 & B2 & B3). destruct (conv_receive_ok m2 d w i c2 A2 A5) as (c2' & -> & D1 & D2 & D3).
      cbn. split; [reflexivity|]. exists c1', c2', (k + length d), i, (w ++ d). repeat split; try assumption. congruence.
    - intros name x y f1 f2 (c1 & c2 & k & i & w & -> & -> & A1 & A2 & A3 & A4 & A5) Hf. cbv zeta. cbn [fst snd c_complete lib_ops o_done h_complete].
      destruct (conv_complete_ok k i w c1 A1 A4) as (g1 & -> & B). destruct (conv_complete_ok k i w c2 A2 A5) as (g2 & -> & C). cbn [of_res].
      assert (HS : same_file g1 g2).
      { destruct B as (? & ? & ? & ? & ? & ? & ?), C as (? & ? & ? & ? & ? & ? & ?). repeat split; congruence. }
      assert (ET : file_truthy g2 = file_truthy g1) by (unfold file_truthy; destruct HS as (_ & _ & -> & _); reflexivity).
      rewrite ET. split; [|destruct (file_truthy g1); cbn; now exists c1, c2, k].
      destruct (file_truthy g1); cbn; [now apply same_append|exact Hf].
    - intros x y (c1 & c2 & k & -> & -> & A). cbn. split; [reflexivity|]. now exists c1, c2, k.
    - intros x y (c1 & c2 & k & -> & -> & A). reflexivity.
  Qed.
End Spill.

(** for every input and every reader: the same POST, and the same names, contents, sizes and types *)
Theorem C36_any_input :
  forall R rd exh reg name2cp mk_temp st m1 m2 D fuel csize len1 len2 (r : R),
  can_create mk_temp -> (0 <= m1)%Z -> (0 <= m2)%Z -> (len1 = 0 <-> len2 = 0)%Z ->
  let a := mp_parse rd exh reg name2cp mk_temp (with_fmem st (Some m1)) D fuel csize len1 default_handler r in
  let b := mp_parse rd exh reg name2cp mk_temp (with_fmem st (Some m2)) D fuel csize len2 default_handler r in
  match fst a, fst b with
  | Ok (post1, files1), Ok (post2, files2) => post1 = post2 /\ map fst files1 = map fst files2 /\ forall k, Forall2 same_file (getl k files1) (getl k files2)
  | Err e1, Err e2 => e1 = e2
  | _, _ => False
  end /\ snd a = snd b.
Proof.
  intros R rd exh reg name2cp mk_temp st m1 m2 D fuel csize len1 len2 r Hmk H1 H2 Hl. cbv zeta.
  destruct (lib_parse rd exh reg name2cp mk_temp (with_fmem st (Some m1)) D fuel csize len1 default_handler r) as [A1 A2].
  destruct (lib_parse rd exh reg name2cp mk_temp (with_fmem st (Some m2)) D fuel csize len2 default_handler r) as [B1 B2].
  destruct (par_parse (lib_ops mk_temp (Some m1)) (lib_ops mk_temp (Some m2)) file_truthy file_truthy same_file eq kin kin_open
              (spill_alike mk_temp Hmk m1 m2) rd exh reg name2cp (with_fmem st (Some m1)) (with_fmem st (Some m2)) D fuel
              eq_refl eq_refl eq_refl len1 len2 csize default_handler default_handler r Hl) as [HP1 HP2].
  - reflexivity.
  - assert (E1 : Z.leb 0 m1 = true) by (apply Z.leb_le; exact H1). assert (E2 : Z.leb 0 m2 = true) by (apply Z.leb_le; exact H2).
    cbn [default_handler c_raw lib_ops o_raw fst snd zeros map h_raw_input]. eexists _, _, 0. split; [reflexivity|]. split; [reflexivity|].
    unfold conv_raw_input, conv_ok. cbn [new_conv cv_inner cv_switched cv_received mem_raw_input mh_activated le_max]. now rewrite E1, E2.
  - cbn [ms_fmem with_fmem] in A1, B1, A2, B2. rewrite A2, B2, HP2. split; [|reflexivity].
    destruct (fst (mp_parse rd exh reg name2cp mk_temp (with_fmem st (Some m1)) D fuel csize len1 default_handler r)) as [[post1 files1]|e1],
      (fst (mp_parse rd exh reg name2cp mk_temp (with_fmem st (Some m2)) D fuel csize len2 default_handler r)) as [[post2 files2]|e2];
      rewrite A1, B1 in HP1; cbn in HP1; try easy; try congruence.
    destruct HP1 as [-> HF]. split; [reflexivity|]. split.
    + clear - HF. induction HF as [|x y d1 d2 [E _] _ IH]; [reflexivity|]. cbn. now rewrite E, IH.
    + intros k. pose proof (same_files_get same_file k _ _ HF) as HG. unfold getl.
      destruct (dget k files1), (dget k files2); easy.
Qed.
Print Assumptions C36_any_input.
(** a body that stops in the middle of its second part *)
Example C36_any_case :
  let body := (!"--X" ++ crlf ++ !"Content-Disposition: form-data; name=""f""; filename=""a.txt""" ++ crlf ++ crlf ++ !"some data, then nothing" ++ crlf ++ !"--X and no more") in
  let kinds m := match fst (mp_parse src_read it_exhaust ex_reg no_cp ok_temp (with_fmem ex_ms (Some m)) !"--X" 600 16 1%Z default_handler [SData body]) with
                 | Ok (_, files) => map (fun f => (uf_kind f, length (uf_content f))) (getl !"f" files) | Err _ => [] end in
  kinds 5%Z = [(Temporary !".upload.txt", 23)] /\ kinds 50%Z = [(InMemory !"f", 23)].
Proof. vm_compute. repeat split. Qed.
