(** * C148: the extension of an uploaded file *)
From Coq Require Import Lia.
From Verif Require Import Py PyFacts PyDict Spec StreamModel StreamSpec StreamFacts CodecModel QueryModel HeaderModel
  UploadModel UploadFacts MultipartModel MultipartSem MultipartFacts MultipartSpec MultipartDet FormSpec FormFacts MultipartInv PropsPart.

(** ** What an extension is *)
(** the last dot of a name and what follows it, unless only dots come before *)
Inductive extension : str -> str -> Prop :=
| ext_some r e : (exists c, In c r /\ c <> 46%N) -> ~ In 46%N e -> extension (r ++ 46%N :: e) (46%N :: e)
| ext_none n : (forall r e, n = r ++ 46%N :: e -> ~ In 46%N e -> forall c, In c r -> c = 46%N) -> extension n [].
(** the last component of a path *)
Definition last_component (p base : str) : Prop := ~ In 47%N base /\ (p = base \/ exists d, p = d ++ 47%N :: base).

Lemma last_dot (r1 e1 r2 e2 : str) : ~ In 46%N e1 -> ~ In 46%N e2 -> r1 ++ 46%N :: e1 = r2 ++ 46%N :: e2 -> r1 = r2 /\ e1 = e2.
Proof.
  intros H1 H2 E. pose proof (rfindc_app 46%N r1 e1 H1) as A1. rewrite E, (rfindc_app 46%N r2 e2 H2) in A1. injection A1 as A1.
  revert r2 E A1. induction r1 as [|x r1 IH]; intros [|y r2] E A1; try discriminate A1; [now injection E as ->|].
  injection E as -> E. injection A1 as A1. now destruct (IH r2 E A1) as [-> ->].
Qed.
Lemma extension_fun n x y : extension n x -> extension n y -> x = y.
Proof.
  intros H H'. destruct H as [r e (c & Hc & Hd) He|n Hn]; inversion H' as [r' e' (c' & Hc' & Hd') He' E|n' Hn' E]; subst.
  - now destruct (last_dot _ _ _ _ He' He E) as [-> ->].
  - exfalso. now apply Hd, (Hn' r e eq_refl He).
  - exfalso. now apply Hd', (Hn r' e' eq_refl He').
  - reflexivity.
Qed.
Lemma component_basename p base : last_component p base -> basename p = base.
Proof.
  intros [Hn [->|[d ->]]]; unfold basename; change psep with 47%N.
  - apply rfindc_None in Hn. now rewrite Hn.
  - rewrite rfindc_app by exact Hn. change (47%N :: base) with ([47%N] ++ base). rewrite app_assoc.
    replace (S (length d)) with (length (d ++ [47%N])) by (rewrite app_length; cbn; lia). rewrite skipn_app, skipn_all, Nat.sub_diag. reflexivity.
Qed.
Lemma basename_component p : last_component p (basename p).
Proof.
  split; [apply basename_sep|]. unfold basename. destruct (rfindc psep p) as [i|] eqn:E; [|now left]. right.
  apply rfindc_Some in E as (E & _). now exists (firstn i p).
Qed.
Lemma dots_iff r : forallb (N.eqb pdot) r = false <-> exists c, In c r /\ c <> 46%N.
Proof.
  split.
  - induction r as [|x r IH]; [discriminate|]. cbn [forallb]. intros H. destruct (N.eqb_spec pdot x) as [E|E].
    + destruct (IH H) as (c & Hc & Hd). exists c. split; [now right|exact Hd].
    + exists x. split; [now left|]. now intros ->.
  - intros (c & Hc & Hd). destruct (forallb (N.eqb pdot) r) eqn:E; [|reflexivity]. exfalso. apply Hd. rewrite forallb_forall in E.
    specialize (E c Hc). apply N.eqb_eq in E. now symmetry.
Qed.
Lemma splitext_extension n : ~ In 47%N n -> extension n (snd (splitext n)).
Proof.
  intros Hn. unfold splitext. change psep with 47%N. apply rfindc_None in Hn. rewrite Hn. change pdot with 46%N at 1.
  destruct (rfindc 46%N n) as [d|] eqn:E.
  - apply rfindc_Some in E as (E & E2 & E3). cbn [Nat.leb andb].
    assert (ES : slice 0 d n = firstn d n) by (unfold slice; cbn [skipn]; now rewrite Nat.sub_0_r). rewrite ES.
    destruct (forallb (N.eqb pdot) (firstn d n)) eqn:EF; cbn [negb snd].
    + apply ext_none. intros r e E4 He c Hc. rewrite E in E4. destruct (last_dot _ _ _ _ E2 He E4) as [<- _].
      rewrite forallb_forall in EF. specialize (EF c Hc). apply N.eqb_eq in EF. now symmetry.
    + apply dots_iff in EF. replace (skipn d n) with (46%N :: skipn (S d) n).
      * rewrite E at 1. now constructor.
      * rewrite E at 2. rewrite skipn_app, skipn_firstn_comm, firstn_length_le, !Nat.sub_diag by lia. reflexivity.
  - cbn [snd]. apply rfindc_None in E. apply ext_none. intros r e -> _. exfalso. apply E. apply in_or_app. right. now left.
Qed.

(** ** The name kept *)
(** naming a file twice is naming it once: names that have been cleaned stay *)
Theorem C148_again : forall n, set_name (set_name n) = set_name n.
Proof.
  intros n. apply set_name_id; [|apply set_name_length]. intros H. apply set_name_In in H. now apply basename_sep in H.
Qed.
Print Assumptions C148_again.
(** a last component of at most 255 characters is the name; a longer one is shortened in front of its extension *)
Theorem C148_name :
  forall p base x, last_component p base -> extension base x ->
  (length base <= 255 -> set_name p = base) /\
  (255 < length base -> length x <= 255 -> set_name p = firstn (255 - length x) base ++ x) /\
  (255 < length base -> 255 < length x -> set_name p = firstn 255 x).
Proof.
  intros p base x HC HX. unfold set_name. rewrite (component_basename p base HC). destruct HC as [HS _].
  pose proof (splitext_extension base HS) as HE. pose proof (splitext_app base) as HA. destruct (splitext base) as [r e]. cbn [fst snd] in HE, HA.
  pose proof (extension_fun _ _ _ HX HE) as ->.
  split; [intros H; now destruct (Nat.ltb_spec 255 (length base)); [lia|]|]. split.
  - intros H Hx. destruct (Nat.ltb_spec 255 (length base)); [|lia]. rewrite (firstn_all2 e Hx). f_equal. rewrite <- HA.
    assert (HL : length base = length r + length e) by (rewrite <- HA; apply app_length).
    rewrite firstn_app. replace (255 - length e - length r) with 0 by lia. cbn [firstn]. now rewrite app_nil_r.
  - intros H Hx. destruct (Nat.ltb_spec 255 (length base)); [|lia]. rewrite firstn_length_le by lia. cbn [firstn app]. now rewrite Nat.sub_diag.
Qed.
Print Assumptions C148_name.
Lemma extension_prefix n k : extension n [] -> extension (firstn k n) [].
Proof.
  intros H. inversion H as [|n' Hn E]; subst. apply ext_none. intros r e E He c Hc.
  assert (EN : n = r ++ 46%N :: (e ++ skipn k n)) by (rewrite <- (firstn_skipn k n) at 1; rewrite E, <- app_assoc; reflexivity).
  (* the last dot of the whole name *)
  destruct (rfindc 46%N (e ++ skipn k n)) as [j|] eqn:EJ.
  - apply rfindc_Some in EJ as (EJ & EJ2 & _). rewrite EJ in EN.
    apply (Hn (r ++ 46%N :: firstn j (e ++ skipn k n)) (skipn (S j) (e ++ skipn k n))).
    + rewrite EN at 1. now rewrite <- app_assoc.
    + exact EJ2.
    + apply in_or_app. now left.
  - apply rfindc_None in EJ. exact (Hn r _ EN EJ c Hc).
Qed.
Lemma ext_inv n e : extension n (46%N :: e) -> exists r, n = r ++ 46%N :: e /\ exists c, In c r /\ c <> 46%N.
Proof. intros H. inversion H as [r' e' Hr' He' E1 E2|]. subst. now exists r'. Qed.
Lemma dot_first e : ~ In 46%N e -> extension (46%N :: e) [].
Proof.
  intros He. apply ext_none. intros r e2 E He2 c Hc. destruct r as [|y r]; [easy|]. exfalso. injection E as <- E.
  apply He. rewrite E. apply in_or_app. right. now left.
Qed.
(** exactly when the extension is kept *)
Theorem C148_extension :
  forall p base x, last_component p base -> extension base x ->
  (extension (set_name p) x <->
   length base <= 255 \/ x = [] \/ length x < 255 /\ exists c, In c (firstn (255 - length x) base) /\ c <> 46%N).
Proof.
  intros p base x HC HX. destruct (C148_name p base x HC HX) as (N1 & N2 & N3).
  destruct (Nat.le_gt_cases (length base) 255) as [HL|HL].
  { rewrite (N1 HL). tauto. }
  destruct HX as [r e Hr He|n Hn].
  - cbn [length] in *. split.
    + intros H. right. right.
      destruct (Nat.le_gt_cases (S (length e)) 255) as [Hx|Hx].
      * rewrite (N2 HL Hx) in H. remember (firstn (255 - S (length e)) (r ++ 46%N :: e)) as rr eqn:Err.
        assert (Hr' : exists c, In c rr /\ c <> 46%N).
        { destruct (ext_inv _ _ H) as (r' & E & Hr'). destruct (last_dot _ _ _ _ He He E) as [-> _]. exact Hr'. }
        split; [|exact Hr']. rewrite Err in Hr'. destruct (Nat.eq_dec (S (length e)) 255) as [Ee|Ee]; [|lia]. exfalso. replace (255 - S (length e)) with 0 in Hr' by lia. destruct Hr' as (c & [] & _).
      * exfalso. rewrite (N3 HL Hx) in H. change (firstn 255 (46%N :: e)) with (46%N :: firstn 254 e) in H.
        assert (HE : extension (46%N :: firstn 254 e) []) by (apply dot_first; intros HI; apply firstn_In in HI; now apply He).
        discriminate (extension_fun _ _ _ H HE).
    + intros [H|[H|[H1 H2]]]; [lia|discriminate|]. rewrite N2 by lia. now constructor.
  - split; [tauto|]. intros _. cbn [length] in *. rewrite N2 by (cbn; lia). rewrite app_nil_r. apply extension_prefix. now constructor.
Qed.
Print Assumptions C148_extension.
(** so the extension can be lost: when it is as long as a name may be, and when the name begins with many dots *)
Theorem C148_lost_refuted :
  forall d e, ~ In 46%N e -> ~ In 47%N e ->
  (254 <= length e -> d <> [] -> ~ In 47%N d -> (exists c, In c d /\ c <> 46%N) ->
     extension (d ++ 46%N :: e) (46%N :: e) /\ extension (set_name (d ++ 46%N :: e)) []) /\
  (forall n, length e <= 254 -> 254 <= n + length e ->
     extension (repeat 46%N n ++ 97%N :: 46%N :: e) (46%N :: e) /\ extension (set_name (repeat 46%N n ++ 97%N :: 46%N :: e)) []).
Proof.
  intros d e He Hs. split.
  - intros Hl Hd Hds HdD. assert (HX : extension (d ++ 46%N :: e) (46%N :: e)) by now constructor. split; [exact HX|].
    assert (HC : last_component (d ++ 46%N :: e) (d ++ 46%N :: e)).
    { split; [|now left]. intros [H|[H|H]]%in_app_or; [now apply Hds|discriminate|now apply Hs]. }
    destruct (C148_name _ _ _ HC HX) as (_ & N2 & N3). assert (HL : 255 < length (d ++ 46%N :: e)) by (rewrite app_length; cbn; destruct d; [easy|cbn; lia]).
    assert (HR : exists e', set_name (d ++ 46%N :: e) = 46%N :: e' /\ ~ In 46%N e').
    { cbn [length] in *. destruct (Nat.eq_dec (length e) 254) as [E|E].
      - exists e. rewrite N2 by lia. split; [|exact He]. now rewrite E.
      - exists (firstn 254 e). rewrite N3 by lia. split; [reflexivity|]. intros H. apply firstn_In in H. now apply He. }
    destruct HR as (e' & -> & He'). now apply dot_first.
  - intros n Hl Hn. assert (HX : extension (repeat 46%N n ++ 97%N :: 46%N :: e) (46%N :: e)).
    { change (97%N :: 46%N :: e) with ([97%N] ++ 46%N :: e). rewrite app_assoc. constructor; [|exact He]. exists 97%N. split; [apply in_or_app; right; now left|discriminate]. }
    split; [exact HX|].
    assert (HC : last_component (repeat 46%N n ++ 97%N :: 46%N :: e) (repeat 46%N n ++ 97%N :: 46%N :: e)).
    { split; [|now left]. intros [H|[H|[H|H]]]%in_app_or; try discriminate; [|now apply Hs]. apply repeat_spec in H. discriminate. }
    destruct (C148_name _ _ _ HC HX) as (_ & N2 & N3). rewrite N2 by (rewrite ?app_length, ?repeat_length; cbn [length]; lia). cbn [length].
    rewrite firstn_app, repeat_length. replace (255 - S (length e) - n) with 0 by lia. cbn [firstn]. rewrite app_nil_r.
    apply ext_none. intros r e2 E He2 c Hc. destruct (last_dot _ _ _ _ He He2 E) as [<- _]. apply firstn_In in Hc. now apply repeat_spec in Hc.
Qed.
Print Assumptions C148_lost_refuted.

(** ** The files of a form *)
(** giving an uploaded file the name that it has changes nothing *)
Theorem C148_files :
  forall reg name2cp mk_temp st D s csize len hs fuel qd post files,
  3 <= length D -> match D with c :: _ => c <> 10%N /\ c <> 13%N | [] => False end ->
  0 < csize -> src_error s = None -> querydict reg (Some (ms_query st)) None true = Ok qd -> len <> 0%Z ->
  2 * length (src_bytes s) + 4 <= fuel -> hs_infos hs = [] ->
  fst (parse_src reg name2cp mk_temp st D fuel csize len hs s) = Ok (post, files) ->
  forall k f, In f (getl k files) -> set_name (uf_name f) = uf_name f.
Proof.
  intros reg name2cp mk_temp st D s csize len hs fuel qd post files HD HN Hc He Hq Hl Hf Hh HR k f Hin.
  destruct (parse_good_files reg name2cp mk_temp st D s csize len hs fuel qd post files HD HN Hc He Hq Hl Hf Hh HR k f Hin) as (i & (Hn & _) & _).
  rewrite Hn. apply C148_again.
Qed.
Print Assumptions C148_files.

Example C148_case :
  last_component !"a/b/photo.tar.gz" !"photo.tar.gz" /\ extension !"photo.tar.gz" !".gz" /\ extension !".profile" [] /\
  set_name (!"x/" ++ repeat 98%N 300 ++ !".tar.gz") = repeat 98%N 252 ++ !".gz" /\
  set_name (repeat 46%N 300 ++ !"a.exe") = repeat 46%N 251 ++ !".exe".
Proof.
  split; [split; [intros H; cbn in H; repeat (destruct H as [H|H]; [discriminate H|]); destruct H|right; now exists !"a/b"]|].
  split; [apply (splitext_extension !"photo.tar.gz"); intros H; cbn in H; repeat (destruct H as [H|H]; [discriminate H|]); destruct H|].
  split; [apply (splitext_extension !".profile"); intros H; cbn in H; repeat (destruct H as [H|H]; [discriminate H|]); destruct H|].
  split; vm_compute; reflexivity.
Qed.
