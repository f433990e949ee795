(** * C150: how the headers of a part are written, and the boundary, make no difference *)
From Coq Require Import ZifyBool ZifyN ZifyNat.
From Verif Require Import Py Spec HeadSpec PyFacts PyDict StreamModel StreamSpec StreamFacts StreamCalm CodecModel CodecFacts PercentModel
  QueryModel QuerySpec QueryFacts HeadModel HeadFacts UrlFacts HeaderModel HeaderSpec HeaderFacts BoundaryModel BoundarySpec BoundaryFacts PartFacts
  UploadModel UploadFacts MultipartModel MultipartSem MultipartFacts MultipartSpec MultipartDet MultipartInv SkipFacts FormSpec FormFacts BodySpec HeadLineFacts ItemFacts BodyFacts
  PropsData PropsPart PropsMultipart PropsHead RequestModel RequestSpec HeaderRun BodyRun TapeFacts ParseRun RequestRel PropsRequest PropsBody RequestMulti PropsEnd PropsLost PropsExt WrittenParams.

(** ** Parts with any header lines *)
Record hpart := mkH { hp_lines : list str; hp_body : str }.
Definition render_lines (h : hpart) : str := crlf ++ join crlf (hp_lines h) ++ crlfcrlf ++ hp_body h.
Definition render_parts (D : str) (hs : list hpart) : str := D ++ concat (map (fun h => render_lines h ++ crlf ++ D) hs) ++ !"--" ++ crlf.

Definition blank (c : char) : Prop := In c [9; 10; 11; 12; 13; 32]%N.
(** [l] is a line of the header [n], in any capitalisation *)
Definition named (n l : str) : Prop := exists w k v, l = w ++ k ++ 58%N :: v /\ (forall c, In c w -> blank c) /\ lower k = n.
(** all lines of the header [n] *)
Inductive picks (n : str) : list str -> list str -> Prop :=
| pk_nil : picks n [] []
| pk_take l ls ks : named n l -> picks n ls ks -> picks n (l :: ls) (l :: ks)
| pk_leave l ls ks : ~ named n l -> picks n ls ks -> picks n (l :: ls) ks.
(** the same line up to capitalisation in front of the first semicolon, blanks around the
    parameters and their '=', and semicolons and words among them that are no parameters *)
Definition plain (i : bit) : Prop := match i with Given _ (Ext _ _ _ _ _) _ => False | _ => True end.
Inductive same_line : str -> str -> Prop :=
| sl_case a a' b : lower a = lower a' -> ~ In 59%N a -> same_line (a ++ b) (a' ++ b)
| sl_bits main bs : ~ In 59%N main -> ~ In 34%N main -> Forall (fun i => plain i /\ bit_good (fun _ => None) i) bs ->
    same_line (render_pars main (given bs)) (render_bits main bs)
| sl_trans l m k : same_line l m -> same_line m k -> same_line l k.

Definition CD := !"content-disposition".
Definition CT := !"content-type".
Definition CTE := !"content-transfer-encoding".
(** [h] is the part [p] with its header lines in any order and capitalisation, among others *)
Record written (D : str) (p : part) (h : hpart) : Prop := {
  wr_disp : exists ks, picks CD (hp_lines h) ks /\ Forall2 same_line [disp_line p] ks;
  wr_type : exists ks, picks CT (hp_lines h) ks /\ Forall2 same_line (type_lines p) ks;
  wr_enc : exists ks, picks CTE (hp_lines h) ks /\ Forall2 same_line (enc_lines p) ks;
  wr_lines : Forall (fun l => no_newline l /\ l <> []) (hp_lines h);
  wr_other : Forall (fun l => ~ In 42%N l \/ named CD l \/ named CT l \/ named CTE l) (hp_lines h);
  wr_size : length (join crlf (hp_lines h)) + 6 <= 1024;
  wr_body : hp_body h = pt_raw p;
  wr_delim : ~ occurs D (render_lines h) }.

(** ** Lines *)
Lemma lowerc_ws c : is_ws (lowerc c) = is_ws c.
Proof. unfold lowerc, is_ws. destruct (N.leb 65 c && N.leb c 90) eqn:E; [|reflexivity]. lia. Qed.
Lemma lstrip_lower s : lstrip_by is_ws (lower s) = lower (lstrip_by is_ws s).
Proof. induction s as [|c s IH]; [reflexivity|]. cbn [lower map lstrip_by]. rewrite lowerc_ws. destruct (is_ws c); [exact IH|reflexivity]. Qed.
Lemma strip_lower s : strip (lower s) = lower (strip s).
Proof. unfold strip, strip_by, rstrip_by. rewrite lstrip_lower. unfold lower. rewrite <- !map_rev. change (map lowerc) with lower. rewrite lstrip_lower. unfold lower. now rewrite map_rev. Qed.
Lemma lowerc_is c d : lowerc c = lowerc d -> (d < 65)%N -> c = d.
Proof. unfold lowerc. intros H Hd. destruct (N.leb 65 c && N.leb c 90) eqn:E, (N.leb 65 d && N.leb d 90) eqn:E'; lia. Qed.
Lemma qsplit_case a a' b q : lower a = lower a' -> ~ In 59%N a ->
  exists p ps, qsplit q (a ++ b) = (a ++ p) :: ps /\ qsplit q (a' ++ b) = (a' ++ p) :: ps.
Proof.
  revert a' q. induction a as [|c a IH]; intros [|c' a'] q E H; try discriminate E.
  - cbn [app]. destruct (qsplit q b) as [|p ps] eqn:EQ; [now apply qsplit_nonnil in EQ|]. now exists p, ps.
  - cbn [lower map] in E. injection E as Ec E. cbn [app qsplit].
    assert (H1 : c <> 59%N) by (intros ->; apply H; now left).
    assert (H2 : c' <> 59%N) by (intros ->; apply H1; now apply lowerc_is).
    apply N.eqb_neq in H1, H2. rewrite H1, H2. cbn [andb].
    assert (N.eqb c' 34 = N.eqb c 34) as ->.
    { apply eq_true_iff_eq. rewrite !N.eqb_eq. split; intros ->; [now apply lowerc_is|symmetry in Ec; now apply lowerc_is]. }
    destruct (IH a' (if N.eqb c 34 then negb q else q) E) as (p & ps & -> & ->); [intros Hin; apply H; now right|]. now exists p, ps.
Qed.
Lemma same_line_header reg l l' : same_line l l' -> part_header reg l' = part_header reg l.
Proof.
  induction 1 as [a a' b E H|main bs H1 H2 H3|l m k _ IH1 _ IH2]; [| |congruence].
  - unfold part_header, parse_header. rewrite !parse_header_params_spec.
    destruct (qsplit_case a a' b false E H) as (p & ps & -> & ->). cbn [map]. rewrite <- !strip_lower, !lower_app, E. reflexivity.
  - assert (HB : Forall (bit_good reg) bs).
    { eapply Forall_impl; [|exact H3]. intros [u [n v|n c g v t] r|u n b b' v r|x]; cbn [plain bit_good]; [|now intros [[] _]| |]; now intros [_ HB]. }
    assert (HP : Forall (par_good reg) (given bs)) by now apply given_good.
    unfold part_header, parse_header, render_pars, render_bits. rewrite !parse_header_params_spec.
    rewrite (qsplit_pars reg), (qsplit_bits reg); try assumption; try (now apply qend_none); try (now apply qodd_notin).
    cbn [map]. rewrite (parse_pars reg) by exact HP. now rewrite (parse_bits reg) by exact HB.
Qed.
Lemma ws_blank c : is_ws c = true -> blank c.
Proof. intros H. unfold is_ws in H. unfold blank. cbn [In]. lia. Qed.
Lemma header_named reg l n x : part_header reg l = Ok (n, x) -> named n l.
Proof.
  unfold part_header, parse_header. rewrite parse_header_params_spec. pose proof (qsplit_nonnil false l) as HN.
  pose proof (qsplit_join l false) as HJ. destruct (qsplit false l) as [|k pl]; [easy|]. cbn [map].
  unfold decode_ascii. destruct (ascii_only (lower (strip k))); cbn [bind]; [|easy].
  destruct (parse_params reg (map strip pl) []) as [d|e]; cbn [bind fst snd]; [|easy].
  destruct (split1_cases mcolon (lower (strip k))) as [(a & v & E & _ & ->)|[_ ->]]; [|easy].
  intros H. assert (a = n) as -> by congruence. clear H.
  destruct (strip_by_spec is_ws k) as (u & t & Ek & Hu & _). fold (strip k) in Ek.
  assert (HX : exists k1 v1, strip k = k1 ++ 58%N :: v1 /\ lower k1 = n).
  { revert E. generalize (strip k). clear. intros s. revert n. induction s as [|c s IH]; intros n E; [now destruct n|].
    destruct n as [|y n]; cbn [lower map app] in E; injection E as E1 E2.
    - exists [], s. split; [|reflexivity]. cbn [app]. f_equal. now apply lowerc_is.
    - destruct (IH n E2) as (k1 & v1 & -> & <-). exists (c :: k1), v1. split; [reflexivity|]. cbn. now rewrite E1. }
  destruct HX as (k1 & v1 & Es & El).
  assert (HK : exists rest, l = k ++ rest).
  { rewrite <- HJ. destruct pl as [|z pl]; [exists []; cbn; now rewrite app_nil_r|]. rewrite join_cons. now eexists. }
  destruct HK as (rest & ->). exists u, k1, (v1 ++ t ++ rest). split.
  - rewrite Ek, Es. rewrite <- !app_assoc. reflexivity.
  - split; [|exact El]. intros c Hc. rewrite forallb_forall in Hu. now apply ws_blank, Hu.
Qed.
Lemma other_line reg l : ~ In 42%N l -> match part_header reg l with Ok _ => True | Err e => is_value_error e = true end.
Proof.
  intros H. pose proof (parse_header_nostar reg l H) as HN. unfold part_header. destruct (parse_header reg l) as [[k d]|e] eqn:E; cbn [bind].
  - now destruct (split1 mcolon (fst (k, d))) as [[? ?]|].
  - apply parse_header_err in E. cbn in E. destruct E as [<-|[<-|[<-|[]]]]; try reflexivity. now contradiction HN.
Qed.

(** ** The headers of a part *)
Definition fine (reg : registry) (l : str) : Prop := match part_header reg l with Ok _ => True | Err e => is_value_error e = true end.
Lemma meta_ok reg : forall ls ty out, Forall (fine reg) ls -> exists ty' m, header_meta reg ls ty out = Ok (ty', m).
Proof.
  induction ls as [|l ls IH]; intros ty out HF; [now exists ty, out|]. inversion_clear HF as [|? ? H1 HF']. unfold fine in H1. cbn [header_meta].
  destruct (part_header reg l) as [[n [v d]]|e]; [now apply IH|]. rewrite H1. now apply IH.
Qed.
Lemma meta_none reg n : forall ls ty out ty' m, header_meta reg ls ty out = Ok (ty', m) -> picks n ls [] ->
  dget n m = dget n out /\ (n = CD -> ty' = ty).
Proof.
  induction ls as [|l ls IH]; intros ty out ty' m H HP; cbn [header_meta] in H.
  - injection H as <- <-. now split.
  - inversion HP as [| |? ? ? Hn HP']; subst.
    destruct (part_header reg l) as [[n1 [v d]]|e] eqn:E.
    + assert (n1 <> n) as Hne by (intros ->; apply Hn; now apply (header_named reg l n (v, d))).
      destruct (IH _ _ _ _ H HP') as [H1 H2]. split.
      * rewrite H1. rewrite dget_dset. destruct (seqb n n1) eqn:ES; [apply seqb_eq in ES; congruence|reflexivity].
      * intros ->. rewrite H2 by reflexivity. destruct (seqb n1 CDISP) eqn:ES; [apply seqb_eq in ES; now contradiction Hne|reflexivity].
    + destruct (is_value_error e); [|discriminate H]. now apply (IH _ _ _ _ H).
Qed.
Lemma meta_one reg n k x : part_header reg k = Ok (n, x) -> forall ls ty out ty' m, header_meta reg ls ty out = Ok (ty', m) -> picks n ls [k] ->
  dget n m = Some x /\ (n = CD -> ty' = if truthy_param !"filename" (snd x) then FILE else FIELD).
Proof.
  intros Hk. induction ls as [|l ls IH]; intros ty out ty' m H HP; cbn [header_meta] in H; [inversion HP|].
  inversion HP as [|? ? ? Hn HP'|? ? ? Hn HP']; subst.
  - rewrite Hk in H. destruct x as [v d]. destruct (meta_none reg n _ _ _ _ _ H HP') as [H1 H2]. split.
    + rewrite H1, dget_dset, seqb_refl. reflexivity.
    + intros ->. now rewrite H2.
  - destruct (part_header reg l) as [[n1 [v d]]|e] eqn:E; [now apply (IH _ _ _ _ H)|].
    destruct (is_value_error e); [|discriminate H]. now apply (IH _ _ _ _ H).
Qed.
Lemma meta_list reg n std ks ls ty out ty' m : Forall2 same_line std ks -> picks n ls ks -> length std <= 1 ->
  (forall k, In k std -> exists x, part_header reg k = Ok (n, x)) -> header_meta reg ls ty out = Ok (ty', m) -> dget n out = None ->
  dget n m = match std with [] => None | k :: _ => match part_header reg k with Ok (_, x) => Some x | Err _ => None end end.
Proof.
  intros HF HP Hl Hs H Ho. destruct std as [|k [|k2 std]]; cbn [length] in Hl; [| |lia].
  - inversion HF; subst. rewrite (proj1 (meta_none reg n _ _ _ _ _ H HP)). exact Ho.
  - inversion HF as [|? k' ? ks' HL HF']; subst. inversion HF'; subst. destruct (Hs k (or_introl eq_refl)) as [x Hx].
    assert (Hx' : part_header reg k' = Ok (n, x)) by (rewrite (same_line_header reg _ _ HL); exact Hx).
    rewrite (proj1 (meta_one reg n k' x Hx' _ _ _ _ _ H HP)). now rewrite Hx.
Qed.
Lemma nn_nil : no_newline [].
Proof. split; easy. Qed.
Lemma classify_lines reg h : Forall (fun l => no_newline l /\ l <> []) (hp_lines h) -> hp_lines h <> [] -> length (join crlf (hp_lines h)) + 6 <= 1024 ->
  classify reg (render_lines h) = let* m := header_meta reg ([] :: hp_lines h) RAW [] in Ok (fst m, snd m, hp_body h).
Proof.
  intros HF Hne Hlen. unfold render_lines, classify. remember (hp_lines h) as ls eqn:El. destruct ls as [|l ls]; [easy|]. clear Hne El.
  inversion_clear HF as [|? ? [H1 H2] H3].
  set (H := crlf ++ join crlf (l :: ls)). assert (HH : length H = length (join crlf (l :: ls)) + 2) by (unfold H; rewrite app_length; cbn [length crlf app]; lia).
  replace (crlf ++ join crlf (l :: ls) ++ crlfcrlf ++ hp_body h) with (H ++ crlfcrlf ++ hp_body h) by (unfold H; now rewrite <- !app_assoc).
  assert (HFi0 : firstn head_size (H ++ crlfcrlf ++ hp_body h) = H ++ crlfcrlf ++ firstn (head_size - length H - 4) (hp_body h)).
  { rewrite firstn_app. rewrite firstn_all2 by (unfold head_size; lia). f_equal.
    rewrite firstn_app. rewrite firstn_all2 by (change (length crlfcrlf) with 4; unfold head_size; lia). now f_equal. }
  rewrite HFi0.
  assert (HFi : find crlfcrlf (H ++ crlfcrlf ++ firstn (head_size - length H - 4) (hp_body h)) = Some (length H)).
  { unfold H. rewrite <- app_assoc.
    assert (HX : exists y X', join crlf (l :: ls) = y :: X' /\ y <> 13%N).
    { destruct l as [|y l']; [easy|]. exists y. destruct ls; cbn; eexists; (split; [reflexivity|]); intros ->; apply (proj1 H1); now left. }
    destruct HX as (y & X' & HX & Hy).
    match goal with |- context [firstn ?k (hp_body h)] => pose proof (find_lines (firstn k (hp_body h)) _ _ H1 H2 H3) as HL end.
    rewrite HX in *. cbn [app] in *.
    match goal with |- find _ (crlf ++ y :: ?Z) = _ => pose proof (find_line [] y Z nn_nil Hy) as HL2 end.
    cbn [app] in HL2. rewrite HL2, HL. reflexivity. }
  rewrite HFi. rewrite firstn_app_exact.
  replace (skipn (length H + 4) (H ++ crlfcrlf ++ hp_body h)) with (hp_body h).
  2:{ rewrite <- skipn_skipn', skipn_app_exact. reflexivity. }
  unfold H. change (crlf ++ join crlf (l :: ls)) with (join crlf ([] :: l :: ls)).
  rewrite split_lines; [reflexivity|exact nn_nil|]. constructor; [exact H1|]. eapply Forall_impl; [|exact H3]. now intros a [Ha _].
Qed.

(** what a piece does depends on three headers *)
Definition same_item (i j : item) : Prop := forall reg mk st m u, u_step reg mk st m i u = u_step reg mk st m j u.
Lemma written_item reg name2cp D0 D p h it : part_ok D0 p -> written D p h -> item_of reg name2cp (render_part p) it -> it <> KSkip ->
  exists it', item_of reg name2cp (render_lines h) it' /\ same_item it it' /\ it' <> KSkip.
Proof.
  intros HPok HW Hit Hns. pose proof (part_head_ok D0 p HPok) as HH.
  destruct HW as [(kd & Pd & Fd) (kt & Pt & Ft) (ke & Pe & Fe) HL HO Hsz HB _].
  pose proof HH as (Hn & Hf & Ht & _).
  assert (Hfq : match pt_file p with Some f => quotable f | None => True end) by (destruct (pt_file p) as [f|]; [apply Hf|exact I]).
  destruct (disp_header reg p Hn Hfq) as (d & D1 & D2 & D3).
  assert (ST : forall k, In k (type_lines p) -> exists x, part_header reg k = Ok (CT, x)).
  { unfold type_lines. destruct (pt_type p) as [[t ps]|]; [|easy]. intros k [<-|[]].
    destruct (type_header reg t ps) as (e & H4 & H5); [apply Ht|apply Ht|now apply (type_params (t, ps))|]. eexists. exact H4. }
  assert (SE : forall k, In k (enc_lines p) -> exists x, part_header reg k = Ok (CTE, x)).
  { unfold enc_lines. destruct (pt_b64 p); [|easy]. intros k [<-|[]]. eexists. exact (enc_header reg). }
  assert (SD : forall k, In k [disp_line p] -> exists x, part_header reg k = Ok (CD, x)) by (intros k [<-|[]]; eexists; exact D1).
  assert (LT : length (type_lines p) <= 1) by (unfold type_lines; destruct (pt_type p) as [[? ?]|]; cbn; lia).
  assert (LE : length (enc_lines p) <= 1) by (unfold enc_lines; destruct (pt_b64 p); cbn; lia).
  (* all lines can be read or are skipped *)
  assert (HPK : forall n std ks, picks n (hp_lines h) ks -> Forall2 same_line std ks -> (forall k, In k std -> exists x, part_header reg k = Ok (n, x)) ->
     forall l, In l (hp_lines h) -> named n l -> fine reg l).
  { intros n std ks HP HF HS l Hin Hnm. assert (Hk : In l ks).
    { clear -HP Hin Hnm. induction HP as [|l' ls ks Hl HP IH|l' ls ks Hl HP IH]; [easy| |]; destruct Hin as [->|Hin]; try easy; [now left|right; now apply IH|now apply IH]. }
    clear -HF HS Hk. induction HF as [|a b std ks HL HF IH]; [easy|]. destruct Hk as [<-|Hk].
    - destruct (HS a (or_introl eq_refl)) as [x Hx]. unfold fine. now rewrite (same_line_header reg _ _ HL), Hx.
    - apply IH; [|exact Hk]. intros k Hin. apply HS. now right. }
  assert (HFine : Forall (fine reg) ([] :: hp_lines h)).
  { constructor; [reflexivity|]. apply Forall_forall. intros l Hin. rewrite Forall_forall in HO. destruct (HO l Hin) as [H|[H|[H|H]]].
    - exact (other_line reg l H).
    - now apply (HPK CD _ _ Pd Fd SD).
    - now apply (HPK CT _ _ Pt Ft ST).
    - now apply (HPK CTE _ _ Pe Fe SE). }
  assert (HP0 : forall n ks, picks n (hp_lines h) ks -> picks n ([] :: hp_lines h) ks).
  { intros n ks HP. apply pk_leave; [|exact HP]. intros (w & k & v & E & _). symmetry in E. apply app_eq_nil in E as [_ E]. now apply app_eq_nil in E as [_ E]. }
  destruct (meta_ok reg _ RAW [] HFine) as (ty' & m' & EM).
  pose proof (meta_list reg CD _ _ _ _ _ _ _ Fd (HP0 _ _ Pd) (le_n 1) SD EM eq_refl) as GD.
  pose proof (meta_list reg CT _ _ _ _ _ _ _ Ft (HP0 _ _ Pt) LT ST EM eq_refl) as GT.
  pose proof (meta_list reg CTE _ _ _ _ _ _ _ Fe (HP0 _ _ Pe) LE SE EM eq_refl) as GE.
  assert (GK : ty' = if truthy_param !"filename" d then FILE else FIELD).
  { inversion Fd as [|? k' ? ? HLd Fd']; subst. inversion Fd'; subst.
    assert (Hx : part_header reg k' = Ok (CD, (!" form-data", d))) by (rewrite (same_line_header reg _ _ HLd); exact D1).
    now rewrite (proj2 (meta_one reg CD k' _ Hx _ _ _ _ _ EM (HP0 _ _ Pd)) eq_refl). }
  (* the canonical form *)
  assert (HC : exists ty m, header_meta reg ([] :: disp_line p :: type_lines p ++ enc_lines p) RAW [] = Ok (ty, m) /\ ty = ty' /\
     dget CDISP m = dget CD m' /\ dget !"content-type" m = dget CT m' /\ dget !"content-transfer-encoding" m = dget CTE m').
  { cbn [header_meta]. change (part_header reg []) with (@Err (str * (str * dict pystr)) ValueError). cbn [is_value_error]. cbv iota. rewrite D1. cbn [fst snd].
    change (seqb CDISP CDISP) with true. cbv iota. rewrite GD, GT, GE, GK, D1. unfold type_lines, enc_lines in *.
    destruct (pt_type p) as [[t ps]|].
    - destruct (ST _ (or_introl eq_refl)) as [[v1 d1] Hx]. cbn [app header_meta]. rewrite Hx. change (seqb CT CDISP) with false. cbv iota.
      destruct (pt_b64 p); cbn [header_meta]; rewrite ?enc_header; cbv iota beta; eexists _, _; (split; [reflexivity|]); repeat split.
    - cbn [app]. destruct (pt_b64 p); cbn [header_meta]; rewrite ?enc_header; cbv iota beta; eexists _, _; (split; [reflexivity|]); repeat split. }
  destruct HC as (ty & m & EC & -> & C1 & C2 & C3).
  assert (HNL : hp_lines h <> []) by (intros E; rewrite E in Pd; inversion Pd; subst; inversion Fd).
  unfold item_of in Hit |- *. rewrite (classify_part reg p HH), EC in Hit. rewrite (classify_lines reg h HL HNL Hsz), EM. cbn [bind fst snd] in Hit |- *. rewrite HB.
  assert (EA : part_action name2cp ty' m' = part_action name2cp ty' m).
  { unfold part_action, tenc_of, MultipartSem.ctype_of. rewrite C1, C2, C3. reflexivity. }
  rewrite EA. destruct (part_action name2cp ty' m) as [[|name tenc|i b64]|e].
  - now subst it.
  - subst it. exists (KField name tenc m' (pt_raw p)). split; [reflexivity|]. split; [|discriminate].
    intros rg mk st mm u. cbn [u_step]. unfold u_field, MultipartSem.ctype_of. now rewrite C2.
  - destruct Hit as (w & Hw & ->). exists (KFile i w). split; [exists w; split; [exact Hw|reflexivity]|]. split; [intros rg mk st mm u; reflexivity|discriminate].
  - subst it. exists (KErr e). split; [reflexivity|]. split; [intros rg mk st mm u; reflexivity|discriminate].
Qed.

(** ** Bodies *)
Lemma parts_splits D hs : 3 <= length D -> no_newline D -> Forall (fun h => ~ occurs D (render_lines h)) hs ->
  splits D (render_parts D hs) ([] :: map render_lines hs ++ [tail_piece]).
Proof.
  intros HD HN HF. unfold render_parts.
  apply (sp_cons D _ [] (Some (concat (map (fun h => render_lines h ++ crlf ++ D) hs) ++ !"--" ++ crlf))).
  - intros E. apply (f_equal (@length N)) in E. rewrite !app_length in E. cbn in E. lia.
  - change (@nil N) with (trim_eol []). apply (block_found D _ []). split; [reflexivity|]. intros. cbn. lia.
  - cbn [odef]. apply (cuts_splits D _ _ tail_piece).
    + induction HF as [|h hs Hh HF IH]; [constructor|]. cbn [map concat]. rewrite <- !app_assoc.
      apply (cu_cons D _ _ (concat (map (fun h => render_lines h ++ crlf ++ D) hs) ++ !"--" ++ crlf)).
      * unfold render_lines. intros E. apply (f_equal (@length N)) in E. rewrite !app_length in E. cbn in E. lia.
      * now apply block_delim.
      * exact IH.
    + apply tail_splits; [easy|]. apply (end_ok (fun _ => None) (fun _ => Ok tt) D HD HN).
Qed.
Lemma same_run reg mk st m its its' : Forall2 same_item its its' -> forall u, u_run reg mk st m its u = u_run reg mk st m its' u.
Proof. induction 1 as [|a b its its' H HF IH]; intros u; [reflexivity|]. cbn [u_run]. rewrite (H reg mk st m u). destruct (u_step _ _ _ _ b u); [apply IH|reflexivity]. Qed.
Lemma written_items reg name2cp D D' ps hs : delimiter D -> Forall (part_ok D) ps -> Forall2 (written D') ps hs ->
  exists its its', Forall2 (item_of reg name2cp) ([] :: map render_part ps ++ [tail_piece]) (KSkip :: its ++ [KSkip]) /\
    Forall2 small ([] :: map render_part ps ++ [tail_piece]) (KSkip :: its ++ [KSkip]) /\
    Forall2 (item_of reg name2cp) ([] :: map render_lines hs ++ [tail_piece]) (KSkip :: its' ++ [KSkip]) /\
    Forall2 small ([] :: map render_lines hs ++ [tail_piece]) (KSkip :: its' ++ [KSkip]) /\
    Forall2 same_item (KSkip :: its ++ [KSkip]) (KSkip :: its' ++ [KSkip]).
Proof.
  intros HD HP HW.
  assert (HX : exists its its', Forall2 (item_of reg name2cp) (map render_part ps) its /\ Forall2 small (map render_part ps) its /\
    Forall2 (item_of reg name2cp) (map render_lines hs) its' /\ Forall2 small (map render_lines hs) its' /\ Forall2 same_item its its').
  { revert HP. induction HW as [|p h ps hs Hw HW IH]; intros HP; [exists [], []; repeat split; constructor|].
    inversion_clear HP as [|? ? Hp HP']. destruct (IH HP') as (its & its' & I1 & I2 & I3 & I4 & I5).
    destruct (item_part reg name2cp p D Hp) as (it & J1 & _ & J3). destruct (written_item reg name2cp D D' p h it Hp Hw J1 J3) as (it' & K1 & K2 & K3).
    exists (it :: its), (it' :: its'). cbn [map]. repeat split; constructor; try assumption; now intros ->. }
  destruct HX as (its & its' & I1 & I2 & I3 & I4 & I5).
  assert (HT : item_of reg name2cp tail_piece KSkip /\ small tail_piece KSkip).
  { split; [reflexivity|]. apply small_short. unfold head_size. cbn. lia. }
  assert (HO : item_of reg name2cp [] KSkip /\ small [] KSkip).
  { split; [reflexivity|]. apply small_short. unfold head_size. cbn. lia. }
  destruct HT as [T1 T2], HO as [O1 O2].
  exists its, its'. repeat split; (constructor; [try assumption|apply Forall2_app; [assumption|constructor; [try assumption|constructor]]]); easy.
Qed.
Theorem C150_written :
  forall reg name2cp mk_temp st m D D' ps hs s s' csize csize' len len' fuel fuel',
    settings_ok reg st m -> can_create mk_temp -> delimiter D -> delimiter D' -> Forall (part_ok D) ps -> Forall2 (written D') ps hs ->
    arrives s (render_form D ps) csize len fuel -> arrives s' (render_parts D' hs) csize' len' fuel' ->
    fst (parse_src reg name2cp mk_temp st D fuel csize len default_handler s) =
    fst (parse_src reg name2cp mk_temp st D' fuel' csize' len' default_handler s').
Proof.
  intros reg name2cp mk_temp st m D D' ps hs s s' csize csize' len len' fuel fuel' HS Hmk HD HD' HP HW (A1 & A2 & A3 & A4 & A5) (B1 & B2 & B3 & B4 & B5).
  destruct (settings_qd reg st m HS) as [qd Hq]. destruct HS as (_ & Hst & Hm & _).
  destruct (written_items reg name2cp D D' ps hs HD HP HW) as (its & its' & I1 & I2 & I3 & I4 & I5).
  pose proof HD as [HD3 HN]. pose proof HD' as [HD3' HN'].
  assert (S1 : splits D (render_form D ps) ([] :: map render_part ps ++ [tail_piece])).
  { unfold render_form. apply (sp_cons D _ [] (Some (concat (map (fun p => render_part p ++ crlf ++ D) ps) ++ tail_piece))).
    - intros E. apply (f_equal (@length N)) in E. rewrite !app_length in E. cbn in E. lia.
    - change (@nil N) with (trim_eol []). apply (block_found D _ []). split; [reflexivity|]. intros. cbn. lia.
    - cbn [odef]. now apply form_splits. }
  assert (S2 : splits D' (render_parts D' hs) ([] :: map render_lines hs ++ [tail_piece])).
  { apply parts_splits; [exact HD3'|exact HN'|]. clear -HW. induction HW as [|p h ps hs Hw HW IH]; constructor; [apply Hw|exact IH]. }
  rewrite <- A1 in S1, A5. rewrite <- B1 in S2, B5. unfold default_handler.
  pose proof (parse_src_det reg name2cp mk_temp st D (delim_dok D HD) s csize len m qd fuel _ _ A3 A2 Hq A4 A5 Hst Hm (create_no_stop mk_temp Hmk) S1 I1 I2) as R1.
  pose proof (parse_src_det reg name2cp mk_temp st D' (delim_dok D' HD') s' csize' len' m qd fuel' _ _ B3 B2 Hq B4 B5 Hst Hm (create_no_stop mk_temp Hmk) S2 I3 I4) as R2.
  rewrite (same_run reg mk_temp st m _ _ I5) in R1.
  destruct (u_run reg mk_temp st m (KSkip :: its' ++ [KSkip]) u_start) as [u|e]; now rewrite R1, R2.
Qed.
Print Assumptions C150_written.

(** ** Requests *)
Lemma multi_splits :
  forall reg n2 mk st s r w st1 r1 ps b clen z m d ts its src csize len fuel,
    request_init reg st s = Ok r -> delivers s w -> max_ok (s_hdr st) ->
    parse_request_header reg (st, r) = (Ok tt, (st1, r1)) -> multipart_wire w ps b clen z -> (0 < z)%Z ->
    s_handlers st = [KConv] -> settings_ok reg (s_multi st1) m -> can_create mk -> s_dmem st = Some d -> (0 <= d)%Z ->
    splits (!"--" ++ b) (w_body w) ts -> Forall2 (item_of reg n2) ts its -> Forall2 small ts its -> w_body w <> [] ->
    arrives src (w_body w) csize len fuel ->
    match fst (parse_src reg n2 mk (s_multi st1) (!"--" ++ b) fuel csize len default_handler src) with
    | Err e => fst (parse reg n2 mk (st, r)) = Err e
    | Ok (post, files) => exists r2, parse reg n2 mk (st, r) = (Ok tt, (st1, r2)) /\
            r_post r2 = Some (PForm post) /\ r_files r2 = Some files
    end.
Proof.
  intros reg n2 mk st s r w st1 r1 ps b clen z m d ts its src csize len fuel Hi Hd Hm HP HW Hz Hh Hset Hmk Hdm Hd0 HS HI Hsm Hb0 HA.
  pose proof (header_ready _ _ _ _ _ _ _ Hi Hd Hm HP) as R. destruct (ready_set _ _ _ _ _ R) as (_ & Hdm1 & _ & Hdn & Hh1). destruct R.
  destruct (multi_known _ _ _ _ _ _ _ _ _ _ _ Hi Hd Hm HP HW) as (Hct & q & h & Hme & Hin).
  assert (HB : good_boundary b) by apply HW. destruct (boundary_delim b HB) as [HD HN].
  destruct (settings_qd _ _ _ Hset) as [qd Hqd]. destruct HA as (A1 & A2 & A3 & A4 & A5).
  unfold parse, mbind. rewrite HP.
  destruct (parse_body_some reg n2 mk 3 st1 r1 _ rd_bp rd_hp rd_stream ltac:(lia) Hb0) as (s2 & HA2 & ->). cbn [Nat.add] in HA2.
  set (r2 := set_stream s2 (at_body st1 r1)).
  assert (Hchunk := chunk_pos [KConv]).
  pose proof (l0_parse_same reg n2 mk (s_multi st1) (!"--" ++ b) (delim_dok _ (conj HD HN)) 5 s2 (w_body w) (mp_chunk [KConv]) z m qd
    (2 * l0_total s2 + 4) ts its src csize len fuel HA2 ltac:(lia) Hchunk Hqd ltac:(lia)) as HL.
  rewrite (l0at_total _ _ _ HA2) in HL at 1.
  destruct HL as [HL1 HL2]; try assumption; try lia; try apply Hset; try (now apply create_no_stop).
  { unfold enough. now rewrite A1. }
  unfold default_handler. destruct (parse_src reg n2 mk (s_multi st1) _ fuel csize len [HConv new_conv] src) as [[[post files]|e] sr] eqn:ES; cbn [fst] in *.
  - destruct (mp_parse _ _ _ _ _ _ _ _ _ _ _ s2) as [x s3] eqn:EM in HL1, HL2. cbn [fst] in HL1. subst x.
    pose proof (finish_multi_ok reg n2 mk 5 st1 r2 q h (PB b) z post files s3 [] rd_bp rd_hp rd_body Hct Hme Hin) as HFi.
    cbn [pchars] in HFi. rewrite Hh1, Hh, Hdm1, Hdm in HFi. cbn [map new_handler] in HFi.
    specialize (HFi EM (HL2 _ _ eq_refl) ltac:(lia)).
    destruct (HFi Hd0 [] (settings_empty _ _ _ Hset)) as (s4 & _ & E4).
    rewrite E4. eexists. split; [reflexivity|]. repeat split.
  - apply (finish_multi_err reg n2 mk st1 r2 q h e Hct Hme).
    + intros _. now apply (settings_post _ _ m).
    + right. exists (PB b), z. split; [exact Hin|]. cbn [pchars]. rewrite Hh1, Hh. exact HL1.
Qed.
Theorem C150_requests :
  forall reg n2 mk st s s' r r' w w' st1 r1 r1' ps ps' b b' clen clen' z z' m d fs hs,
    request_init reg st s = Ok r -> delivers s w -> request_init reg st s' = Ok r' -> delivers s' w' -> max_ok (s_hdr st) ->
    parse_request_header reg (st, r) = (Ok tt, (st1, r1)) -> parse_request_header reg (st, r') = (Ok tt, (st1, r1')) ->
    multipart_wire w ps b clen z -> multipart_wire w' ps' b' clen' z' -> (0 < z)%Z -> (0 < z')%Z ->
    s_handlers st = [KConv] -> settings_ok reg (s_multi st1) m -> can_create mk -> s_dmem st = Some d -> (0 <= d)%Z ->
    w_body w = render_form (!"--" ++ b) fs -> Forall (part_ok (!"--" ++ b)) fs ->
    w_body w' = render_parts (!"--" ++ b') hs -> Forall2 (written (!"--" ++ b')) fs hs ->
    match parse reg n2 mk (st, r), parse reg n2 mk (st, r') with
    | (Ok _, (_, r2)), (Ok _, (_, r2')) => r_post r2 = r_post r2' /\ r_files r2 = r_files r2' /\ r_post r2 <> None /\ r_files r2 <> None
    | (Err e, _), (Err e', _) => e = e'
    | _, _ => False
    end.
Proof.
  intros reg n2 mk st s s' r r' w w' st1 r1 r1' ps ps' b b' clen clen' z z' m d fs hs I D I' D' Hm P P' W W' Hz Hz' Hh HS Hmk Hd Hd0 Hb HF Hb' HW.
  assert (HB : good_boundary b) by apply W. pose proof (boundary_delim b HB) as HD.
  assert (HB' : good_boundary b') by apply W'. pose proof (boundary_delim b' HB') as HD'.
  destruct (written_items reg n2 _ _ fs hs HD HF HW) as (its & its' & I1 & I2 & I3 & I4 & _).
  assert (S1 : splits (!"--" ++ b) (w_body w) ([] :: map render_part fs ++ [tail_piece])).
  { rewrite Hb. unfold render_form. destruct HD as [HD3 HN]. apply (sp_cons _ _ [] (Some (concat (map (fun p => render_part p ++ crlf ++ !"--" ++ b) fs) ++ tail_piece))).
    - intros E. apply (f_equal (@length N)) in E. rewrite !app_length in E. cbn in E. lia.
    - change (@nil N) with (trim_eol []). apply (block_found (!"--" ++ b) _ []). split; [reflexivity|]. intros. cbn. lia.
    - cbn [odef]. now apply form_splits. }
  assert (S2 : splits (!"--" ++ b') (w_body w') ([] :: map render_lines hs ++ [tail_piece])).
  { rewrite Hb'. apply parts_splits; [apply HD'|apply HD'|]. clear -HW. induction HW as [|p h fs hs Hw HW IH]; constructor; [apply Hw|exact IH]. }
  assert (N1 : w_body w <> []) by (rewrite Hb; unfold render_form; discriminate).
  assert (N2 : w_body w' <> []) by (rewrite Hb'; unfold render_parts; discriminate).
  pose proof (in_bytes_arrives (w_body w) 1 1%Z ltac:(lia) ltac:(discriminate)) as A1.
  pose proof (in_bytes_arrives (w_body w') 1 1%Z ltac:(lia) ltac:(discriminate)) as A2.
  pose proof (multi_splits reg n2 mk st s r w st1 r1 ps b clen z m d _ _ _ _ _ _ I D Hm P W Hz Hh HS Hmk Hd Hd0 S1 I1 I2 N1 A1) as R1.
  pose proof (multi_splits reg n2 mk st s' r' w' st1 r1' ps' b' clen' z' m d _ _ _ _ _ _ I' D' Hm P' W' Hz' Hh HS Hmk Hd Hd0 S2 I3 I4 N2 A2) as R2.
  rewrite Hb in A1 at 2. rewrite Hb' in A2 at 2.
  rewrite (C150_written reg n2 mk (s_multi st1) m _ _ fs hs _ _ _ _ _ _ _ _ HS Hmk HD HD' HF HW A1 A2) in R1.
  destruct (fst (parse_src reg n2 mk (s_multi st1) (!"--" ++ b') _ _ _ _ _)) as [[post files]|e].
  - destruct R1 as (r2 & -> & -> & ->), R2 as (r2' & -> & -> & ->). repeat split; discriminate.
  - destruct (parse reg n2 mk (st, r)) as [x y], (parse reg n2 mk (st, r')) as [x' y']. cbn [fst] in R1, R2. subst. reflexivity.
Qed.
Print Assumptions C150_requests.

(** what is missing: another header with an extended parameter in an unknown encoding makes the whole form fail *)
Theorem C150_unknown_encoding_refuted :
  exists l, ~ named CD l /\ ~ named CT l /\ ~ named CTE l /\ no_newline l /\ l <> [] /\
    (exists post, ex_parse ex_ms (render_parts !"--X" [mkH [disp_line ex_field] (pt_raw ex_field)]) = Ok post) /\
    ex_parse ex_ms (render_parts !"--X" [mkH [disp_line ex_field; l] (pt_raw ex_field)]) = Err LookupError.
Proof.
  assert (HX : forall n, named n !"X-Note: a; b*=nope''%41" -> In 120%N n).
  { intros n (w & k & v & E & Hw & <-). destruct w as [|c w].
    - destruct k as [|c k]; [discriminate E|]. cbn [app] in E. assert (c = 88%N) as -> by (cbn in E; congruence). now left.
    - assert (c = 88%N) as -> by (cbn in E; congruence). specialize (Hw 88%N (or_introl eq_refl)). unfold blank in Hw. cbn in Hw. repeat (destruct Hw as [Hw|Hw]; [discriminate Hw|]). destruct Hw. }
  assert (HQ : forall n, ~ In 120%N n -> ~ named n !"X-Note: a; b*=nope''%41") by (intros n Hn Hnm; apply Hn, (HX n Hnm)).
  exists !"X-Note: a; b*=nope''%41".
  split; [apply HQ; intros HN; cbn in HN; repeat (destruct HN as [HN|HN]; [discriminate HN|]); exact HN|].
  split; [apply HQ; intros HN; cbn in HN; repeat (destruct HN as [HN|HN]; [discriminate HN|]); exact HN|].
  split; [apply HQ; intros HN; cbn in HN; repeat (destruct HN as [HN|HN]; [discriminate HN|]); exact HN|].
  split; [now apply no_newline_check|]. split; [discriminate|]. split; [eexists; vm_compute; reflexivity|]. vm_compute. reflexivity.
Qed.
Print Assumptions C150_unknown_encoding_refuted.

(** the file of the example, written another way *)
Lemma named_prefix c n l : named (c :: n) l -> is_ws c = false -> firstn (length n + 2) (lower (lstrip_by is_ws l)) = (c :: n) ++ [58%N].
Proof.
  intros (w & k & v & -> & Hw & Hk) Hc.
  assert (E : lstrip_by is_ws (w ++ k ++ 58%N :: v) = k ++ 58%N :: v).
  { induction w as [|d w IH].
    - destruct k as [|d k]; [discriminate Hk|]. cbn [lower map] in Hk. assert (H : lowerc d = c) by congruence. cbn [app lstrip_by]. rewrite <- (lowerc_ws d), H, Hc. reflexivity.
    - cbn [app lstrip_by]. replace (is_ws d) with true; [apply IH; intros x Hx; apply Hw; now right|].
      specialize (Hw d (or_introl eq_refl)). unfold blank in Hw. cbn [In] in Hw. repeat (destruct Hw as [<-|Hw]; [reflexivity|]). destruct Hw. }
  rewrite E, lower_app, Hk. change (lower (58%N :: v)) with (58%N :: lower v). change (58%N :: lower v) with ([58%N] ++ lower v). rewrite app_assoc.
  replace (length n + 2) with (length ((c :: n) ++ [58%N])) by (rewrite app_length; cbn; lia). apply firstn_app_exact.
Qed.
Definition ex_shuffled : hpart :=
  mkH [!"X-Other: 1; name=""b"""; !"CONTENT-TYPE: TEXT/plain; Charset=utf-8"; !"content-disposition: Form-Data;name=""f"" ;; filename= ""x;1.txt""; x;"; !"no colon"] (pt_raw ex_file).
Ltac unnamed := intros HN; apply named_prefix in HN; [discriminate HN|reflexivity].
Example C150_case : written !"--Other" ex_file ex_shuffled /\ render_lines ex_shuffled <> render_part ex_file.
Proof.
  split; [|discriminate]. constructor.
  - eexists. split.
    + apply pk_leave; [unnamed|]. apply pk_leave; [unnamed|]. apply pk_take.
      { exists [], !"content-disposition". eexists. split; [reflexivity|]. split; [intros c []|reflexivity]. }
      apply pk_leave; [unnamed|]. apply pk_nil.
    + constructor; [|constructor]. apply (sl_trans _ (!"content-disposition: Form-Data" ++ !"; name=""f""; filename=""x;1.txt""")).
      { apply (sl_case !"Content-Disposition: form-data"); [reflexivity|]. intros Hbad. cbn in Hbad. repeat (destruct Hbad as [Hbad|Hbad]; [discriminate Hbad|]). exact Hbad. }
      apply (sl_bits !"content-disposition: Form-Data" [Given [] (Ord !"name" (Quo !"f")) !" "; Stray []; Wide !" " !"filename" [] !" " (Quo !"x;1.txt") []; Stray !" x"; Stray []]);
        try (intros Hbad; cbn in Hbad; repeat (destruct Hbad as [Hbad|Hbad]; [discriminate Hbad|]); exact Hbad).
      repeat apply Forall_cons; try apply Forall_nil; cbn [plain bit_good]; (split; [exact I|]);
        try (split; [reflexivity|]; split; [repeat constructor|reflexivity]); try solve [repeat (split; [reflexivity|]); repeat constructor];
        (split; [|split]); intros Hbad; cbn in Hbad; repeat (destruct Hbad as [Hbad|Hbad]; [discriminate Hbad|]); exact Hbad.
  - eexists. split.
    + apply pk_leave; [unnamed|]. apply pk_take.
      { exists [], !"CONTENT-TYPE". eexists. split; [reflexivity|]. split; [intros c []|reflexivity]. }
      apply pk_leave; [unnamed|]. apply pk_leave; [unnamed|]. apply pk_nil.
    + constructor; [|constructor]. apply (sl_case !"Content-Type: Text/plain" !"CONTENT-TYPE: TEXT/plain" !"; Charset=utf-8"); [reflexivity|]. intros Hbad. cbn in Hbad. repeat (destruct Hbad as [Hbad|Hbad]; [discriminate Hbad|]). exact Hbad.
  - exists []. split; [repeat (apply pk_leave; [unnamed|]); apply pk_nil|constructor].
  - repeat constructor; try discriminate; now apply no_newline_check.
  - cbn [hp_lines ex_shuffled]. repeat (apply Forall_cons; [left; intros Hbad; cbn in Hbad; repeat (destruct Hbad as [Hbad|Hbad]; [discriminate Hbad|]); exact Hbad|]). apply Forall_nil.
  - apply Nat.leb_le. vm_compute. reflexivity.
  - reflexivity.
  - now apply find_None.
Qed.
